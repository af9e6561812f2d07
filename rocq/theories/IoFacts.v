(** Facts about calls with I/O errors. *)
From Coq Require Import Lia ZifyBool ZifyNat ZifyN.
From Verif Require Import Base Sha256 Merkle Tools Transaction Block Sled Chain Tree Spec Reach QuietSpec Conc ConcTree ConcFlush ConcEmit Cancel ConcDeriv Io IoSpec Demo.
From Verif Require Import BaseFacts ToolsFacts MerkleFacts DiffFacts CodecFacts SledFacts ChainFacts TreeFacts LedgerFacts CrashFacts ConcFacts EmitFacts.

Local Strategy 1000 [u256_mul u256_add u256_sub BYTE_GAS_PRICE t_get_amount t_get_gas mc_decode dc_decode recalculate_fee recalculate_difficulty t_send_amount t_sub_gas sled_get check_pow emit_block next_info dc_new mc_read_config genesis_block].

(** ** Without faults *)
Definition plain {St A} (x : io St A) : Prop := forall fs s, fault_free fs ->
  fault_free (fst (fst (x fs s))) /\ snd (fst (x fs s)) = snd (fst (x [] s)) /\ snd (x fs s) = snd (x [] s) /\ fst (fst (x [] s)) = [].
Lemma free_next fs : fault_free fs -> next_fault fs = Fine /\ fault_free (tl fs).
Proof. intros [|f l <- H]; split; try reflexivity; [constructor|exact H]. Qed.
Lemma plain_out {St A} (x : out A) : plain (@io_out St A x). Proof. intros fs s H. repeat split. exact H. Qed.
Lemma plain_put {St} (f : St -> St) : plain (io_put f). Proof. intros fs s H. repeat split. exact H. Qed.
Lemma plain_get {St} : plain (@io_get St). Proof. intros fs s H. repeat split. exact H. Qed.
Lemma plain_main_get : plain main_get. Proof. intros fs s H. repeat split. exact H. Qed.
Lemma plain_op {St A} e (f : St -> St * out A) : plain (io_op e f).
Proof. intros fs s H. destruct (free_next fs H) as [E T]. unfold io_op. rewrite E. repeat split. exact T. Qed.
Lemma plain_try {St} : plain (@io_try St).
Proof. intros fs s H. destruct (free_next fs H) as [E T]. unfold io_try. rewrite E. repeat split. exact T. Qed.
Lemma plain_write b d : plain (write_cfg_io b d).
Proof. intros fs s H. destruct (free_next fs H) as [E T]. unfold write_cfg_io. rewrite E. repeat split. exact T. Qed.
Lemma plain_dwrite b w d : plain (write_dcfg_io b w d).
Proof. intros fs s H. destruct (free_next fs H) as [E T]. unfold write_dcfg_io. rewrite E. repeat split. exact T. Qed.
Lemma plain_bind {St A B} (x : io St A) (k : A -> io St B) : plain x -> (forall a, plain (k a)) -> plain (io_bind x k).
Proof.
  intros Hx Hk fs s H. unfold io_bind. destruct (Hx fs s H) as (A1 & A2 & A3 & A4).
  destruct (x fs s) as [[fs1 s1] r1], (x [] s) as [[fs2 s2] r2]. cbn [fst snd] in *. subst s2 r2 fs2.
  destruct r1 as [a|e| |]; [apply Hk, A1|repeat split; exact A1..].
Qed.
Create HintDb plain discriminated.
#[export] Hint Resolve plain_out plain_put plain_get plain_main_get plain_op plain_try plain_write plain_dwrite : plain.
Ltac plains := repeat (cbv zeta; match goal with
  | |- plain (io_bind _ _) => apply plain_bind; [|intros]
  | |- plain (if ?c then _ else _) => destruct c
  | |- plain (match ?c with _ => _ end) => destruct c
  | _ => solve [auto with plain]
  end).

Lemma plain_find e h : plain (find_raw_io e h). Proof. unfold find_raw_io, io_read. plains. Qed.
#[export] Hint Resolve plain_find : plain.
Lemma plain_last : plain last_block_io. Proof. unfold last_block_io. plains. Qed.
Lemma plain_by_hash h : plain (find_by_hash_io h). Proof. unfold find_by_hash_io, io_read. plains. Qed.
Lemma plain_add b : plain (add_block_io b). Proof. unfold add_block_io, main_op, main_put, tree_op. plains. Qed.
Lemma plain_txs txs : plain (add_txs_io txs). Proof. induction txs; cbn [add_txs_io]; unfold add_tx_io, main_op, tree_op; plains. Qed.
Lemma plain_mflush : plain main_flush_io. Proof. unfold main_flush_io, main_op, tree_op. plains. Qed.
#[export] Hint Resolve plain_last plain_by_hash plain_add plain_txs plain_mflush : plain.
Lemma plain_flush : plain flush_io. Proof. unfold flush_io, flush_op, tree_op. plains. Qed.
#[export] Hint Resolve plain_flush : plain.
Lemma plain_rotate : plain rotate_io. Proof. unfold rotate_io, remove_dir_io, create_dir_io, io_read. plains. Qed.
Lemma plain_dnew d g : plain (deriv_new_io d g). Proof. unfold deriv_new_io, io_read. plains. Qed.
#[export] Hint Resolve plain_rotate plain_dnew : plain.
Lemma plain_gderiv w : plain (get_deriv_io w). Proof. unfold get_deriv_io. plains. Qed.
Lemma plain_dlast w : plain (deriv_last_io w). Proof. unfold deriv_last_io, io_read. plains. Qed.
Lemma plain_dadd w i : plain (deriv_add_io w i). Proof. unfold deriv_add_io, deriv_op, deriv_put, tree_op. plains. Qed.
Lemma plain_dflush w : plain (deriv_flush_io w). Proof. unfold deriv_flush_io, deriv_op, tree_op. plains. Qed.
Lemma plain_send a b c : plain (send_amount_io a b c). Proof. unfold send_amount_io, ledger_io, tree_op. plains. Qed.
#[export] Hint Resolve plain_gderiv plain_dlast plain_dadd plain_dflush plain_send : plain.
Lemma plain_emit p w f txs ts : plain (emit_main_io p w f txs ts). Proof. unfold emit_main_io, ledger_io, tree_op, io_read. plains. Qed.
Lemma plain_demit p w f ts : plain (emit_deriv_io p w f ts). Proof. unfold emit_deriv_io. plains. Qed.
Lemma plain_sendtx tx : plain (send_tx_io tx). Proof. unfold send_tx_io, get_gas_io, get_amount_io, add_tx_io, main_op, ledger_io, tree_op. plains. Qed.
#[export] Hint Resolve plain_emit plain_demit plain_sendtx : plain.
Lemma plain_step p o : plain (io_step p o).
Proof.
  destruct o; cbn [io_step]; unfold io_unit, io_block, ledger_io, tree_op, add_new_block_io; plains.
  - intros fs s H. destruct (assoc_get _ _); [|repeat split; exact H]. revert fs s H. change (plain (io_unit (deriv_add_io owner i))). unfold io_unit. plains.
  - intros fs s H. destruct (assoc_get _ _); [|repeat split; exact H]. revert fs s H. change (plain (io_unit (deriv_flush_io owner))). unfold io_unit. plains.
Qed.
Lemma plain_opens n e : plain (opens n e). Proof. induction n; cbn [opens]; unfold io_read; plains. Qed.
#[export] Hint Resolve plain_opens : plain.
Lemma plain_new : plain t_new_io. Proof. unfold t_new_io, disk_op, io_read. plains. Qed.

(** ** The calls without faults are those of the model *)
Lemma with_host_id h : with_host h (h_tree h) = h. Proof. destruct h. reflexivity. Qed.
Lemma with_main_id t : with_main t (t_main t) = t. Proof. destruct t. reflexivity. Qed.
Lemma bind_out {St A B} (x : io St A) (k : A -> io St B) fs s fs' s' r : x fs s = (fs', s', r) ->
  io_bind x k fs s = match r with Ok a => k a fs' s' | Err e => (fs', s', Err e) | Panic => (fs', s', Panic) | UB => (fs', s', UB) end.
Proof. intros E. unfold io_bind. rewrite E. reflexivity. Qed.
Ltac bo := erewrite bind_out by reflexivity; cbv beta iota.
Lemma find_nil e i h : find_raw_io e i [] h = ([], h, Ok (mc_find_raw_by_height i (t_main (h_tree h)))).
Proof. unfold find_raw_io, main_get, io_bind, mc_find_raw_by_height. destruct (_ <? i); reflexivity. Qed.
Lemma last_nil h : last_block_io [] h = ([], h, mc_get_last_block (t_main (h_tree h))).
Proof.
  unfold last_block_io. bo. unfold mc_get_last_block, mc_get_last_raw_block.
  bo. destruct (u256_sub _ _); cbn [bind]; try reflexivity. rewrite (bind_out _ _ _ _ _ _ _ (find_nil _ _ _)). reflexivity.
Qed.
Lemma by_hash_nil x h : find_by_hash_io x [] h = ([], h, mc_find_by_hash x (t_main (h_tree h))).
Proof.
  unfold find_by_hash_io. bo. unfold mc_find_by_hash, mc_find_raw_by_hash. cbn [fst snd].
  destruct (sled_get x _) as [hb|]; [|reflexivity]. destruct (Nat.ltb _ _); [reflexivity|]. rewrite (bind_out _ _ _ _ _ _ _ (find_nil _ _ _)). reflexivity.
Qed.
Lemma add_nil b h : add_block_io b [] h =
  ([], with_host h (with_main (h_tree h) (fst (mc_add_block b (t_main (h_tree h))))), snd (mc_add_block b (t_main (h_tree h)))).
Proof.
  unfold add_block_io. bo. unfold mc_add_block. destruct (negb _).
  - cbn [fst snd]. rewrite with_main_id, with_host_id. reflexivity.
  - bo. cbn [snd lift_tree]. bo. cbn [snd lift_tree]. bo.
    unfold u256_add. destruct (_ <? _); reflexivity.
Qed.
Lemma txs_nil txs : forall h, add_txs_io txs [] h = ([], with_host h (with_main (h_tree h) (mc_add_transactions txs (t_main (h_tree h)))), Ok tt).
Proof.
  induction txs as [|tx txs IH]; intros h; cbn [add_txs_io].
  - unfold mc_add_transactions. cbn [fold_left]. rewrite with_main_id, with_host_id. reflexivity.
  - bo. cbn [snd lift_tree fst]. rewrite IH. reflexivity.
Qed.
Lemma mflush_nil h : main_flush_io [] h = ([], with_host h (with_main (h_tree h) (mc_flush (t_main (h_tree h)))), Ok tt).
Proof. reflexivity. Qed.
Lemma flush_nil h : flush_io [] h = ([], with_host h (t_flush (h_tree h)), Ok tt).
Proof. reflexivity. Qed.
Lemma rotate_nil t : rotate_io [] (opened t) = ([], opened (t_rotate_dbs t), Ok tt).
Proof. reflexivity. Qed.
Lemma assoc_get_set {A} w (c : A) l : assoc_get w (assoc_set w c l) = Some c.
Proof. induction l as [|[k v] l IH]; cbn [assoc_set assoc_get]; [rewrite bytes_eqb_refl; reflexivity|]. destruct (bytes_eqb w k) eqn:E; cbn [assoc_get]; [rewrite bytes_eqb_refl; reflexivity|rewrite E; exact IH]. Qed.
Lemma assoc_set_set {A} w (c c' : A) l : assoc_set w c' (assoc_set w c l) = assoc_set w c' l.
Proof. induction l as [|[k v] l IH]; cbn [assoc_set]; [rewrite bytes_eqb_refl; reflexivity|]. destruct (bytes_eqb w k) eqn:E; cbn [assoc_set]; [rewrite bytes_eqb_refl; reflexivity|rewrite E, IH; reflexivity]. Qed.
Lemma deriv_of_set w f t : deriv_of w (set_deriv w f t) = f (deriv_of w t).
Proof. unfold deriv_of at 1, set_deriv. cbn [with_derivs t_derivs]. rewrite assoc_get_set. reflexivity. Qed.
Lemma set_set w f g t : set_deriv w g (set_deriv w f t) = set_deriv w (fun c => g (f c)) t.
Proof. unfold set_deriv at 1. rewrite deriv_of_set. unfold set_deriv. cbn [with_derivs t_derivs t_main t_summary t_old_summary t_gas t_old_gas t_closed]. rewrite assoc_set_set. reflexivity. Qed.
Lemma dnew_nil d g h : deriv_new_io d g [] h = ([], h, dc_new d g).
Proof. unfold deriv_new_io. do 3 (bo; cbn [snd fst]). unfold dc_new. destruct (file_cur _); reflexivity. Qed.
Lemma gderiv_nil w h : get_deriv_io w [] h = ([], with_host h (fst (t_get_derivative_chain w (h_tree h))), snd (t_get_derivative_chain w (h_tree h))).
Proof.
  unfold get_deriv_io, t_get_derivative_chain. bo. destruct (assoc_get w (t_derivs (h_tree h))) as [c|]; [cbn [fst snd]; rewrite with_host_id; reflexivity|].
  rewrite (bind_out _ _ _ _ _ _ _ (last_nil h)). destruct (mc_get_last_block _) as [last|e| |]; cbn [bind fst snd]; try (rewrite with_host_id; reflexivity).
  bo. destruct (unwrap_opt last) as [b|e| |]; cbn [bind fst snd]; try (rewrite with_host_id; reflexivity).
  rewrite (bind_out _ _ _ _ _ _ _ (dnew_nil _ _ _)). destruct (dc_new _ _); cbn [fst snd]; try (rewrite with_host_id; reflexivity). reflexivity.
Qed.
Lemma dlast_nil w h : deriv_last_io w [] h = ([], h, dc_get_last_block (deriv_of w (h_tree h))).
Proof.
  unfold deriv_last_io, dc_get_last_block, dc_get_last_raw_block. bo. cbv zeta. destruct (_ =? 0); [reflexivity|].
  bo. destruct (u256_sub _ _) as [i|e| |]; cbn [bind]; try reflexivity. unfold dc_find_raw_by_height. destruct (_ <? i); reflexivity.
Qed.
Lemma dadd_nil w i h : assoc_get w (t_derivs (h_tree h)) <> None ->
  deriv_add_io w i [] h = (let '(c, r) := dc_add_block i (deriv_of w (h_tree h)) in
    ([], with_host h (with_derivs (h_tree h) (assoc_set w c (t_derivs (h_tree h)))), r)).
Proof.
  intros Hc. unfold deriv_add_io. bo. cbv zeta. unfold dc_add_block. destruct (negb _).
  - unfold deriv_of. destruct (assoc_get w _) as [c|] eqn:E; [|congruence]. assert (assoc_set w c (t_derivs (h_tree h)) = t_derivs (h_tree h)) as ->.
    { revert E. generalize (t_derivs (h_tree h)). induction l as [|[k v] l IH]; cbn [assoc_get assoc_set]; [discriminate|]. destruct (bytes_eqb w k) eqn:Ek; [|intros E; rewrite IH by exact E; reflexivity].
      intros E. injection E as ->. apply bytes_eqb_eq in Ek as ->. reflexivity. }
    destruct h as [[] ? ?]. reflexivity.
  - do 2 (bo; cbn [snd fst lift_tree with_host h_tree]). rewrite set_set. bo.
    unfold u256_add. destruct (_ <? _); [|reflexivity]. unfold deriv_put, io_put. cbn [with_host h_tree]. rewrite set_set. reflexivity.
Qed.
Lemma dflush_nil w h : deriv_flush_io w [] h = ([], with_host h (set_deriv w dc_flush (h_tree h)), Ok tt).
Proof.
  unfold deriv_flush_io. bo. cbv zeta.
  bo. cbn [snd fst lift_tree with_host h_tree].
  do 3 (bo; cbn [snd fst lift_tree with_host h_tree next_fault tl]; rewrite set_set).
  bo; cbn [snd fst lift_tree with_host h_tree next_fault tl]; rewrite set_set.
  unfold deriv_op, tree_op, io_op, lift_tree. cbn [snd fst lift_tree with_host h_tree next_fault tl]. rewrite set_set. reflexivity.
Qed.
Lemma emit_nil p w f txs ts t : emit_main_io p w f txs ts [] (opened t) =
  ([], opened (fst (t_emmit_new_main_block p w f txs ts t)), snd (t_emmit_new_main_block p w f txs ts t)).
Proof.
  rewrite emit_block_seq. unfold emit_main_io. bo. bo. cbn [opened h_tree]. destruct (u256_sub (mc_height (t_main t)) 1) as [i|e| |]; cbn [bind]; try reflexivity.
  rewrite (bind_out _ _ _ _ _ _ _ (find_nil _ _ _)). cbv beta iota. bo. cbn [opened h_tree]. bo.
  destruct (emit_block p w f txs ts _ t) as [b|e| |]; try reflexivity.
  assert (E : (match b with
           | SummBlock _ _ =>
               do! _ := io_read (Err ETreeGetFunds) (fun _ => tt) in
               do! _ := rotate_io in
               ledger_io (t_set_amount ROOT_PUBLIC_ADDRESS COINS_PER_CYCLE)
           | _ => io_out (Ok tt)
           end) [] (opened t) = ([], opened (emit_base b t), Ok tt)) by (destruct b; reflexivity).
  rewrite (bind_out _ _ _ _ _ _ _ E). cbv beta iota. rewrite (bind_out _ _ _ _ _ _ _ (add_nil _ _)). cbn [opened h_tree].
  destruct (mc_add_block b (t_main (emit_base b t))) as [m r]. destruct r; reflexivity.
Qed.
Lemma next_info_seq p f w ts prev_hash d prev_ts h : (let! ok := check_pow prev_hash d [] w in
        if negb ok then Err ETreeWrongPow
        else
          let! difficulty := recalculate_difficulty p prev_ts ts d in
          Ok (MkInfo ts w prev_hash h difficulty f)) = next_info p f w ts prev_hash d prev_ts h.
Proof. reflexivity. Qed.
Lemma demit_nil p w f ts h : emit_deriv_io p w f ts [] h =
  ([], with_host h (fst (t_emmit_new_derivative_block p w f ts (h_tree h))), snd (t_emmit_new_derivative_block p w f ts (h_tree h))).
Proof.
  unfold emit_deriv_io, t_emmit_new_derivative_block. rewrite (bind_out _ _ _ _ _ _ _ (gderiv_nil _ _)).
  pose proof (eq_refl (t_get_derivative_chain f (h_tree h))) as E. unfold t_get_derivative_chain in E at 2.
  assert (Hd : forall c, snd (t_get_derivative_chain f (h_tree h)) = Ok c -> assoc_get f (t_derivs (fst (t_get_derivative_chain f (h_tree h)))) = Some c).
  { intros c. unfold t_get_derivative_chain. destruct (assoc_get f _) as [c'|] eqn:Ec; cbn [fst snd]; [intros H; apply ok_inv in H; subst; exact Ec|].
    destruct (let! _ := _ in _); cbn [fst snd]; try discriminate. intros H. apply ok_inv in H. subst. cbn [with_derivs t_derivs]. apply assoc_get_set. }
  clear E. destruct (t_get_derivative_chain f (h_tree h)) as [t1 [c|e| |]]; cbn [fst snd] in *; try reflexivity. specialize (Hd c eq_refl).
  assert (Hof : deriv_of f t1 = c) by (unfold deriv_of; rewrite Hd; reflexivity).
  rewrite (bind_out _ _ _ _ _ _ _ (dlast_nil _ _)). cbn [with_host h_tree]. rewrite Hof.
  destruct (dc_get_last_block c) as [last|e| |]; cbn [bind]; try reflexivity.
  set (r := (let! (prev_hash, difficulty, prev_timestamp, height) := _ in _)).
  assert (Er : (match last with
              | Some b =>
                  io_out (let! h := u256_add (bi_height (get_info b)) 1 in
                          next_info p f w ts (block_hash b) (bi_difficulty (get_info b)) (bi_timestamp (get_info b)) h)
              | None =>
                  do! g := find_by_hash_io (dc_genesis c) in
                  match g with
                  | None => io_out (Err EChainFindByHash)
                  | Some b => io_out (next_info p f w ts (block_hash b) BEGINNING_DIFFICULTY (bi_timestamp (get_info b)) 0)
                  end
              end) [] (with_host h t1) = ([], with_host h t1, r)).
  { subst r. destruct last as [b|].
    - unfold io_out. destruct (u256_add _ 1); reflexivity.
    - rewrite (bind_out _ _ _ _ _ _ _ (by_hash_nil _ _)). cbn [with_host h_tree]. destruct (mc_find_by_hash _ _) as [[b|]|e| |]; reflexivity. }
  rewrite (bind_out _ _ _ _ _ _ _ Er). clearbody r. clear Er. destruct r as [i|e| |]; try reflexivity.
  assert (Ea : deriv_add_io f i [] (with_host h t1) = ([], with_host h (with_derivs t1 (assoc_set f (fst (dc_add_block i c)) (t_derivs t1))), snd (dc_add_block i c))).
  { rewrite dadd_nil by (cbn [with_host h_tree]; congruence). cbn [with_host h_tree]. rewrite Hof. destruct (dc_add_block i c). reflexivity. }
  rewrite (bind_out _ _ _ _ _ _ _ Ea). destruct (dc_add_block i c) as [c' ra]. cbn [fst snd]. destruct ra; reflexivity.
Qed.
Lemma send_nil a b x h : send_amount_io a b x [] h = ([], with_host h (fst (t_send_amount a b x (h_tree h))), snd (t_send_amount a b x (h_tree h))).
Proof. unfold send_amount_io, t_send_amount. destruct (bytes_eqb a b); [cbn [fst snd]; rewrite with_host_id|]; reflexivity. Qed.
Lemma sendtx_nil tx h : send_tx_io tx [] h = ([], with_host h (fst (t_send_transaction tx (h_tree h))), snd (t_send_transaction tx (h_tree h))).
Proof.
  unfold send_tx_io, t_send_transaction.
  assert (Eg : get_gas_io (tx_sender tx) [] h = ([], h, t_get_gas (tx_sender tx) (h_tree h))) by (unfold get_gas_io, tree_op, io_op, lift_tree; cbn [next_fault fst snd]; rewrite with_host_id; reflexivity).
  assert (Ea : get_amount_io (tx_sender tx) [] h = ([], h, t_get_amount (tx_sender tx) (h_tree h))) by (unfold get_amount_io, tree_op, io_op, lift_tree; cbn [next_fault fst snd]; rewrite with_host_id; reflexivity).
  rewrite (bind_out _ _ _ _ _ _ _ Eg). destruct (t_get_gas _ _) as [g|e| |]; cbn [bind fst snd]; try (rewrite with_host_id; reflexivity).
  rewrite (bind_out _ _ _ _ _ _ _ Ea). destruct (t_get_amount _ _) as [a|e| |]; cbn [bind fst snd]; try (rewrite with_host_id; reflexivity). clear Eg Ea.
  erewrite bind_out by reflexivity. destruct (u256_mul _ _) as [gr|e| |]; cbn [bind fst snd]; try (rewrite with_host_id; reflexivity).
  destruct (g <? gr); cbn [fst snd]; [rewrite with_host_id; reflexivity|].
  rewrite (bind_out _ _ _ _ _ _ _ (last_nil _)). destruct (mc_get_last_block _) as [last|e| |]; cbn [bind fst snd]; try (rewrite with_host_id; reflexivity).
  erewrite bind_out by reflexivity. destruct (unwrap_opt last) as [b|e| |]; cbn [bind fst snd]; try (rewrite with_host_id; reflexivity).
  erewrite bind_out by reflexivity. destruct (recalculate_fee _) as [fee|e| |]; cbn [bind fst snd]; try (rewrite with_host_id; reflexivity).
  erewrite bind_out by reflexivity. destruct (u256_add fee _) as [need|e| |]; cbn [bind fst snd]; try (rewrite with_host_id; reflexivity).
  destruct (a <? need); cbn [fst snd]; [rewrite with_host_id; reflexivity|].
  bo. cbn [snd fst lift_tree]. rewrite (bind_out _ _ _ _ _ _ _ (send_nil _ _ _ _)). cbn [with_host h_tree].
  destruct (t_send_amount _ _ _ _) as [t2 r]. cbn [fst snd]. destruct r; [|reflexivity..]. reflexivity.
Qed.
Lemma unit_nil (x : io host unit) h t r : x [] h = ([], with_host h t, r) -> io_unit x [] h = ([], with_host h t, let! _ := r in Ok RUnit).
Proof. intros E. unfold io_unit. rewrite (bind_out _ _ _ _ _ _ _ E). destruct r; reflexivity. Qed.
Lemma block_nil (x : io host block) h t r : x [] h = ([], with_host h t, r) -> io_block x [] h = ([], with_host h t, let! b := r in Ok (RBlock b)).
Proof. intros E. unfold io_block. rewrite (bind_out _ _ _ _ _ _ _ E). destruct r; reflexivity. Qed.
Lemma step_nil p o t : io_step p o [] (opened t) = ([], opened (fst (step p t o)), snd (step p t o)).
Proof.
  assert (Hw : forall t', with_host (opened t) t' = opened t') by reflexivity.
  destruct o; cbn [io_step step]; try (refine (unit_nil _ (opened t) _ _ _); reflexivity).
  - refine (unit_nil _ (opened t) _ _ _). rewrite send_nil. reflexivity.
  - refine (unit_nil _ (opened t) _ _ _). rewrite sendtx_nil. reflexivity.
  - refine (block_nil _ (opened t) _ _ _). rewrite emit_nil. reflexivity.
  - refine (block_nil _ (opened t) _ _ _). rewrite demit_nil. reflexivity.
  - rewrite (bind_out _ _ _ _ _ _ _ (gderiv_nil _ _)). cbn [opened h_tree]. destruct (t_get_derivative_chain owner t) as [t' r]. destruct r; reflexivity.
  - refine (unit_nil _ (opened t) _ _ _). unfold add_new_block_io, t_add_new_block. rewrite (bind_out _ _ _ _ _ _ _ (add_nil _ _)). cbn [opened h_tree].
    destruct (mc_add_block b (t_main t)) as [m r]. cbn [fst snd]. destruct r; [|reflexivity..]. rewrite txs_nil. reflexivity.
  - erewrite unit_nil by apply txs_nil. reflexivity.
  - cbn [opened h_tree]. destruct (assoc_get owner (t_derivs t)) as [c|] eqn:E; [|reflexivity].
    assert (Ea : deriv_add_io owner i [] (opened t) = ([], with_host (opened t) (with_derivs t (assoc_set owner (fst (dc_add_block i c)) (t_derivs t))), snd (dc_add_block i c))).
    { rewrite dadd_nil by (cbn [opened h_tree]; congruence). unfold deriv_of. cbn [opened h_tree]. rewrite E. destruct (dc_add_block i c). reflexivity. }
    change (MkHost t true true) with (opened t). rewrite (unit_nil _ _ _ _ Ea). destruct (dc_add_block i c). reflexivity.
  - refine (unit_nil _ (opened t) _ (Ok tt) _). reflexivity.
  - refine (unit_nil _ (opened t) _ (Ok tt) _). reflexivity.
  - cbn [opened h_tree]. destruct (assoc_get owner (t_derivs t)) as [c|] eqn:E; [|reflexivity].
    change (MkHost t true true) with (opened t). rewrite (unit_nil _ _ _ _ (dflush_nil _ _)). unfold set_deriv, deriv_of. cbn [opened h_tree]. rewrite E. reflexivity.
Qed.
Lemma new_nil d : snd (t_new_io [] d) = t_new d.
Proof.
  unfold t_new_io. erewrite bind_out by reflexivity. cbv beta iota. erewrite bind_out by reflexivity. cbv beta iota. bo. bo.
  unfold t_new, mc_new.
  assert (E : (match file_cur (md_cfg (k_main d)), true with
                 | Some _, true =>
                     do! _ := io_read (Err EChainInit) (fun _ => tt) in io_out (mc_read_config (md_cfg (k_main d)))
                 | _, _ => io_out (Ok (0, BEGINNING_DIFFICULTY))
                 end) [] d = ([], d, mc_read_config (md_cfg (k_main d)))).
  { unfold mc_read_config. destruct (file_cur _); reflexivity. }
  rewrite (bind_out _ _ _ _ _ _ _ E). clear E. destruct (mc_read_config _) as [[h df]|e| |]; cbn [bind]; try reflexivity.
  destruct (h =? 0) eqn:Eh.
  - apply N.eqb_eq in Eh. subst h. rewrite genesis_eq. cbn [bind]. reflexivity.
  - bo. unfold mc_get_height. destruct (h =? 1) eqn:E1; cbn [bind mc_height]; rewrite E1; reflexivity.
Qed.

(** ** Reasoning about calls that may fail *)
Definition hoare {St A} (P : St -> Prop) (x : io St A) (Q : out A -> St -> Prop) : Prop :=
  forall fs s, P s -> Q (snd (x fs s)) (snd (fst (x fs s))).
Lemma h_out {St A} (P : St -> Prop) (x : out A) (Q : out A -> St -> Prop) : (forall s, P s -> Q x s) -> hoare P (io_out x) Q.
Proof. intros H fs s Hp. apply H, Hp. Qed.
Lemma h_put {St} (P : St -> Prop) f (Q : out unit -> St -> Prop) : (forall s, P s -> Q (Ok tt) (f s)) -> hoare P (io_put f) Q.
Proof. intros H fs s Hp. apply H, Hp. Qed.
Lemma h_get {St} (P : St -> Prop) (Q : out St -> St -> Prop) : (forall s, P s -> Q (Ok s) s) -> hoare P io_get Q.
Proof. intros H fs s Hp. apply H, Hp. Qed.
Lemma h_mget (P : host -> Prop) (Q : out main_chain -> host -> Prop) : (forall s, P s -> Q (Ok (t_main (h_tree s))) s) -> hoare P main_get Q.
Proof. intros H fs s Hp. apply H, Hp. Qed.
Lemma h_op {St A} (P : St -> Prop) e f (Q : out A -> St -> Prop) :
  (forall s, P s -> Q e s /\ Q e (fst (f s)) /\ Q (snd (f s)) (fst (f s))) -> hoare P (io_op e f) Q.
Proof. intros H fs s Hp. destruct (H s Hp) as (A1 & A2 & A3). unfold io_op. destruct (next_fault fs) as [|[|n]]; cbn [fst snd]; assumption. Qed.
Lemma h_read {St A} (P : St -> Prop) e (f : St -> A) (Q : out A -> St -> Prop) :
  (forall s, P s -> Q e s /\ Q (Ok (f s)) s) -> hoare P (io_read e f) Q.
Proof. intros H. apply h_op. intros s Hp. destruct (H s Hp) as [A1 A2]. auto. Qed.
Lemma h_try {St} (P : St -> Prop) (Q : out bool -> St -> Prop) : (forall s, P s -> Q (Ok true) s /\ Q (Ok false) s) -> hoare P io_try Q.
Proof. intros H fs s Hp. destruct (H s Hp) as [A1 A2]. unfold io_try. destruct (next_fault fs); cbn [fst snd]; assumption. Qed.
Lemma h_bind {St A B} (P : St -> Prop) (x : io St A) (k : A -> io St B) (R : out A -> St -> Prop) (Q : out B -> St -> Prop) :
  hoare P x R -> (forall s, (forall e, R (Err e) s -> Q (Err e) s) /\ (R Panic s -> Q Panic s) /\ (R UB s -> Q UB s)) ->
  (forall a, hoare (R (Ok a)) (k a) Q) -> hoare P (io_bind x k) Q.
Proof.
  intros Hx Hn Hk fs s Hp. unfold io_bind. specialize (Hx fs s Hp). destruct (x fs s) as [[fs' s'] r]. cbn [fst snd] in Hx.
  destruct (Hn s') as (N1 & N2 & N3). destruct r as [a|e| |]; cbn [fst snd]; auto. apply Hk, Hx.
Qed.
Lemma h_weaken {St A} (P P' : St -> Prop) (x : io St A) (Q Q' : out A -> St -> Prop) :
  hoare P' x Q' -> (forall s, P s -> P' s) -> (forall r s, Q' r s -> Q r s) -> hoare P x Q.
Proof. intros H HP HQ fs s Hp. apply HQ, H, HP, Hp. Qed.

(** An invariant kept whatever the outcome. *)
Definition stays {St A} (I : St -> Prop) (x : io St A) : Prop := hoare I x (fun _ => I).
Lemma s_bind {St A B} (I : St -> Prop) (x : io St A) (k : A -> io St B) : stays I x -> (forall a, stays I (k a)) -> stays I (io_bind x k).
Proof. intros Hx Hk. eapply h_bind; [exact Hx|auto|exact Hk]. Qed.
Lemma s_out {St A} (I : St -> Prop) (x : out A) : stays I (io_out x). Proof. apply h_out. auto. Qed.
Lemma s_get {St} (I : St -> Prop) : stays I io_get. Proof. apply h_get. auto. Qed.
Lemma s_mget (I : host -> Prop) : stays I main_get. Proof. apply h_mget. auto. Qed.
Lemma s_try {St} (I : St -> Prop) : stays I io_try. Proof. apply h_try. auto. Qed.
Lemma s_read {St A} (I : St -> Prop) e (f : St -> A) : stays I (io_read e f). Proof. apply h_read. auto. Qed.
Lemma s_op {St A} (I : St -> Prop) e (f : St -> St * out A) : (forall s, I s -> I (fst (f s))) -> stays I (io_op e f).
Proof. intros H. apply h_op. auto. Qed.
Lemma s_put {St} (I : St -> Prop) (f : St -> St) : (forall s, I s -> I (f s)) -> stays I (io_put f). Proof. intros H. apply h_put. auto. Qed.
Lemma h_pure {St A} (I : St -> Prop) (P : Prop) (x : io St A) Q : (P -> hoare I x Q) -> hoare (fun s => I s /\ P) x Q.
Proof. intros H fs s [Hs Hp]. exact (H Hp fs s Hs). Qed.
Lemma h_when {St A} (I : St -> Prop) (x : io St A) Q : (forall s, I s -> hoare I x Q) -> hoare I x Q.
Proof. intros H fs s Hs. exact (H s Hs fs s Hs). Qed.
Create HintDb stays discriminated.
#[export] Hint Resolve s_out s_get s_mget s_try s_read : stays.
Ltac stay := repeat (cbv zeta; match goal with
  | |- stays _ (io_bind _ _) => apply s_bind; [|intros]
  | |- stays _ (if ?c then _ else _) => destruct c
  | |- stays _ (match ?c with _ => _ end) => destruct c
  | |- stays _ (io_op _ _) => apply s_op; intros
  | |- stays _ (io_put _) => apply s_put; intros
  | _ => solve [auto with stays]
  end).

(** ** The main chain when calls fail *)
Definition cfg_ok (L : list block) (c : option bytes) : Prop :=
  match c with
  | None => True
  | Some c => (length c < 64)%nat \/ exists k, 1 <= k <= N.of_nat (length L) /\ c = height_key k ++ BEGINNING_DIFFICULTY
  end.
Lemma cfg_ok_more L b c : cfg_ok L c -> cfg_ok (L ++ [b]) c.
Proof. destruct c as [c|]; cbn [cfg_ok]; [|auto]. rewrite app_length. cbn [length]. intros [H|(k & Hk & E)]; [left; exact H|right; exists k; split; [lia|exact E]]. Qed.
Record winv (m : main_chain) (L : list block) : Prop := {
  wi_height : mc_height m = N.of_nat (length L);
  wi_blocks : forall i b, nthN L i = Some b -> sled_get (height_key i) (mc_blocks m) = Some (block_dump b);
  wi_heights : forall i b, nthN L i = Some b -> bi_height (get_info b) = i;
  wi_refs : forall i b, nthN L i = Some b -> sled_get (block_hash b) (mc_refs m) = Some (height_key i) \/ exists b', collision (block_dump b) (block_dump b');
  wi_wf : Forall block_wf L;
  wi_gen : nth_error L 0 = Some genesis;
  wi_lt : N.of_nat (length L) < 2 ^ 256;
  wi_diff : mc_difficulty m = BEGINNING_DIFFICULTY;
  wi_cfg : cfg_ok L (file_cur (mc_cfg m));
  wi_txs : sm_sorted (cur (mc_txs m))
}.
Definition wtree (L : list block) (h : host) : Prop := winv (t_main (h_tree h)) L.
Lemma winv_ext m m' L : winv m L -> mc_height m' = mc_height m -> cur (mc_blocks m') = cur (mc_blocks m) -> cur (mc_refs m') = cur (mc_refs m) ->
  mc_difficulty m' = mc_difficulty m -> cfg_ok L (file_cur (mc_cfg m')) -> sm_sorted (cur (mc_txs m')) -> winv m' L.
Proof.
  intros [A1 A2 A3 A4 A5 A6 A7 A8 A9 A10] E1 E2 E3 E4 E5 E6. split; try assumption; try congruence.
  - intros i b H. rewrite <- (A2 i b H). unfold sled_get. rewrite E2. reflexivity.
  - intros i b H. destruct (A4 i b H) as [X|X]; [left|right; exact X]. rewrite <- X. unfold sled_get. rewrite E3. reflexivity.
Qed.
Lemma winv_put_block m L b : winv m L -> winv (put_block b m) L.
Proof.
  intros [A1 A2 A3 A4 A5 A6 A7 A8 A9 A10]. split; try assumption. intros i x H. cbn [put_block mc_blocks]. rewrite sled_get_insert.
  pose proof (nthN_some _ _ _ H) as Hi. rewrite height_key_eqb by lia. destruct (N.eqb_spec i (mc_height m)); [lia|]. apply A2, H.
Qed.
Lemma winv_put_ref m L b : winv m L -> block_wf b -> bi_height (get_info b) = mc_height m -> winv (put_ref b m) L.
Proof.
  intros [A1 A2 A3 A4 A5 A6 A7 A8 A9 A10] Hb Hh. split; try assumption. intros i x H. cbn [put_ref mc_refs]. rewrite sled_get_insert.
  destruct (bytes_eqb (block_hash x) (sha256 (block_dump b))) eqn:E; [|apply A4, H]. apply bytes_eqb_eq in E. right. exists b. split; [|exact E].
  intros D. apply block_dump_inj in D; [|eapply Forall_forall; [exact A5|eapply nthN_in, H]|exact Hb]. subst x.
  pose proof (A3 _ _ H) as X. pose proof (nthN_some _ _ _ H). lia.
Qed.
Lemma winv_put_height m L b : winv m L -> block_wf b -> bi_height (get_info b) = mc_height m -> mc_height m + 1 < 2 ^ 256 ->
  winv (put_height (mc_height m + 1) (put_ref b (put_block b m))) (L ++ [b]).
Proof.
  intros H Hb Hh Hlt. pose proof (winv_put_ref _ _ _ (winv_put_block _ _ b H) Hb Hh) as [A1 A2 A3 A4 A5 A6 A7 A8 A9 A10]. destruct H as [B1 _ _ _ _ _ _ _ _ _].
  split; cbn [put_height put_ref put_block mc_height mc_blocks mc_refs mc_txs mc_difficulty mc_cfg] in *; try assumption.
  - rewrite app_length. cbn [length]. lia.
  - intros i x H. destruct (N.lt_trichotomy i (N.of_nat (length L))) as [Hc|[Hc|Hc]].
    + rewrite nthN_app1 in H by exact Hc. apply A2, H.
    + subst i. rewrite nthN_snoc in H. injection H as <-. rewrite B1, sled_get_insert, bytes_eqb_refl. reflexivity.
    + rewrite nthN_snoc_gt in H by exact Hc. discriminate H.
  - intros i x H. destruct (N.lt_trichotomy i (N.of_nat (length L))) as [Hc|[Hc|Hc]].
    + rewrite nthN_app1 in H by exact Hc. apply A3, H.
    + subst i. rewrite nthN_snoc in H. injection H as <-. lia.
    + rewrite nthN_snoc_gt in H by exact Hc. discriminate H.
  - intros i x H. destruct (N.lt_trichotomy i (N.of_nat (length L))) as [Hc|[Hc|Hc]].
    + rewrite nthN_app1 in H by exact Hc. apply A4, H.
    + subst i. rewrite nthN_snoc in H. injection H as <-. left. rewrite B1, sled_get_insert. unfold block_hash. rewrite bytes_eqb_refl. reflexivity.
    + rewrite nthN_snoc_gt in H by exact Hc. discriminate H.
  - apply Forall_app. split; [exact A5|]. repeat constructor. exact Hb.
  - destruct L; [discriminate A6|exact A6].
  - rewrite app_length. cbn [length]. lia.
  - apply cfg_ok_more, A9.
Qed.
Lemma wtree_main L h t : wtree L h -> t_main t = t_main (h_tree h) -> wtree L (with_host h t).
Proof. unfold wtree. intros H E. cbn [with_host h_tree]. rewrite E. exact H. Qed.

Lemma w_add L b : block_wf b -> N.of_nat (length L) + 1 < 2 ^ 256 ->
  hoare (wtree L) (add_block_io b) (fun r h => match r with Ok _ => wtree (L ++ [b]) h | Err _ => wtree L h | _ => False end).
Proof.
  intros Hb Hlt. unfold add_block_io. eapply h_bind with (R := fun r h => wtree L h /\ r = Ok (t_main (h_tree h))); [apply h_mget; auto|split; [intros ? [_ X]|split; intros [_ X]]; discriminate X|].
  intros m. destruct (N.eqb_spec (bi_height (get_info b)) (mc_height m)) as [Hh|Hh]; cbn [negb]; [|apply h_out; intros s [A _]; exact A].
  eapply h_bind with (R := fun r h => match r with Ok _ => exists h0, wtree L h0 /\ m = t_main (h_tree h0) /\ t_main (h_tree h) = put_block b m | Err _ => wtree L h | _ => False end).
  - apply h_op. intros s [A E]. apply ok_inv in E. cbn [lift_tree fst snd]. split; [exact A|]. split.
    + unfold wtree. cbn [with_host h_tree with_main t_main]. apply winv_put_block, A.
    + exists s. split; [exact A|]. split; [exact E|]. cbn [with_host h_tree with_main t_main]. rewrite E. reflexivity.
  - intros s. auto.
  - intros _. eapply h_bind with (R := fun r h => match r with Ok _ => exists h0, wtree L h0 /\ m = t_main (h_tree h0) /\ t_main (h_tree h) = put_ref b (put_block b m) | Err _ => wtree L h | _ => False end).
    + apply h_op. intros s (h0 & A & -> & E). cbn [lift_tree fst snd]. split; [unfold wtree; rewrite E; apply winv_put_block, A|]. split.
      * unfold wtree. cbn [with_host h_tree with_main t_main]. rewrite E. apply winv_put_ref; [apply winv_put_block, A|exact Hb|exact Hh].
      * exists h0. split; [exact A|]. split; [reflexivity|]. cbn [with_host h_tree with_main t_main]. rewrite E. reflexivity.
    + intros s. auto.
    + intros _. eapply h_bind with (R := fun r h => r = Ok (mc_height m + 1) /\ exists h0, wtree L h0 /\ m = t_main (h_tree h0) /\ t_main (h_tree h) = put_ref b (put_block b m)).
      * apply h_out. intros s (h0 & A & -> & E). split; [|eauto]. unfold u256_add. rewrite (wi_height _ _ A). destruct (N.ltb_spec (N.of_nat (length L) + 1) (2 ^ 256)); [reflexivity|lia].
      * intros s. split; [intros e [X _]|split; intros [X _]]; discriminate X.
      * intros x. apply h_put. intros s (X & h0 & A & -> & E). apply ok_inv in X. subst x. unfold wtree. cbn [with_host h_tree with_main t_main]. rewrite E.
        apply winv_put_height; [exact A|exact Hb|exact Hh|]. rewrite (wi_height _ _ A). exact Hlt.
Qed.
Lemma s_mop L e f : (forall m, winv m L -> winv (f m) L) -> stays (wtree L) (main_op e f).
Proof. intros H. apply s_op. intros s A. cbn [lift_tree fst with_host]. unfold wtree. cbn [h_tree with_main t_main]. apply H, A. Qed.
Lemma s_tree L {A} (e : out A) f : (forall t, t_main (fst (f t)) = t_main t) -> stays (wtree L) (tree_op e f).
Proof. intros H. apply s_op. intros s I. apply wtree_main; [exact I|]. cbn [lift_tree fst with_host h_tree]. apply H. Qed.
Lemma s_dwrite L b w d : stays (wtree L) (write_dcfg_io b w d).
Proof. intros fs s I. unfold write_dcfg_io. destruct (next_fault fs); cbn [fst snd]; (apply wtree_main; [exact I|reflexivity]). Qed.
#[export] Hint Resolve s_dwrite : stays.
Lemma file_cur_append d f : file_cur (file_append d f) = Some (match file_cur f with Some c => c | None => [] end ++ d).
Proof. unfold file_cur at 1. cbn [file_append f_pend]. rewrite last_last. reflexivity. Qed.
Lemma file_cur_truncate f : file_cur (file_truncate f) = Some [].
Proof. unfold file_cur. cbn [file_truncate f_pend f_dur]. apply last_last. Qed.
Definition wcfg (L : list block) (c : option bytes) (h : host) : Prop := wtree L h /\ file_cur (mc_cfg (t_main (h_tree h))) = c.
Lemma wcfg_put L c f h : wtree L h -> file_cur f = c -> cfg_ok L c -> wcfg L c (with_host h (with_main (h_tree h) (with_cfg f (t_main (h_tree h))))).
Proof. intros A E C. split; [|exact E]. unfold wtree. cbn [with_host h_tree with_main t_main]. eapply winv_ext; [exact A|reflexivity..| |apply A]. cbn [with_cfg mc_cfg]. rewrite E. exact C. Qed.
Lemma s_mflush L : stays (wtree L) main_flush_io.
Proof.
  unfold main_flush_io. eapply h_bind with (R := fun r h => wtree L h /\ match r with Ok m => mc_height m = N.of_nat (length L) /\ mc_difficulty m = BEGINNING_DIFFICULTY | _ => False end).
  { apply h_mget. intros s A. split; [exact A|split; [apply A|apply A]]. }
  { intros s. split; [intros ? [_ []]|split; intros [_ []]]. }
  intros m. apply h_pure. intros [Em Ed]. rewrite Em, Ed. set (k := N.of_nat (length L)).
  eapply h_bind with (R := fun r h => match r with Ok _ => wcfg L (Some []) h | _ => wtree L h end); [|intros s; split; [|split]; auto|].
  { apply h_op. intros s A. split; [exact A|]. assert (W : wcfg L (Some []) (fst (lift_tree (fun t => (with_main t (with_cfg (file_truncate (mc_cfg (t_main t))) (t_main t)), Ok tt)) s))); [|split; [apply W|exact W]].
    apply wcfg_put; [exact A|apply file_cur_truncate|left; cbn [length]; lia]. }
  intros _. eapply h_bind with (R := fun r h => match r with Ok _ => wcfg L (Some (height_key k)) h | _ => wtree L h end); [|intros s; split; [|split]; auto|].
  { intros fs s [A E]. unfold write_cfg_io. destruct (next_fault fs) as [|n]; cbn [fst snd]; cbv zeta.
    - apply wcfg_put; [exact A|rewrite file_cur_append, E; reflexivity|left; rewrite height_key_length; lia].
    - eapply wcfg_put; [exact A|rewrite file_cur_append, E; reflexivity|left; cbn [app]; rewrite firstn_length, height_key_length; lia]. }
  intros _. eapply h_bind with (R := fun _ => wtree L); [|intros s; split; [|split]; auto|].
  { intros fs s [A E]. unfold write_cfg_io. destruct (next_fault fs) as [|n]; cbn [fst snd]; cbv zeta.
    - eapply wcfg_put; [exact A|rewrite file_cur_append, E; reflexivity|right; exists k; split; [|reflexivity]]. pose proof (wi_gen _ _ A) as G. subst k. destruct L; [discriminate G|cbn [length]; lia].
    - eapply wcfg_put; [exact A|rewrite file_cur_append, E; reflexivity|]. destruct (Nat.leb_spec 32 n).
      + right. exists k. split; [|f_equal; apply firstn_all2; exact H]. pose proof (wi_gen _ _ A) as G. subst k. destruct L; [discriminate G|cbn [length]; lia].
      + left. rewrite app_length, firstn_length, height_key_length. lia. }
  intros _. change (stays (wtree L) (do! _ := main_op EChainDumpConfig mc_flush_blocks in do! _ := main_op EChainDumpConfig mc_flush_refs in main_op EChainDumpConfig mc_flush_txs)).
  stay; apply s_mop; intros m' I; (eapply winv_ext; [exact I|reflexivity..|apply I|apply I]).
Qed.
#[export] Hint Resolve s_mflush : stays.
Lemma s_flush L : stays (wtree L) flush_io.
Proof. unfold flush_io, flush_op. stay; apply s_tree; reflexivity. Qed.
#[export] Hint Resolve s_flush : stays.
Lemma s_rotate L : stays (wtree L) rotate_io.
Proof.
  unfold rotate_io, remove_dir_io, create_dir_io. stay; try (apply wtree_main; [assumption|reflexivity]); match goal with |- context [if ?c then _ else _] => destruct c end; assumption.
Qed.
Lemma s_find L e i : stays (wtree L) (find_raw_io e i). Proof. unfold find_raw_io. stay. Qed.
#[export] Hint Resolve s_rotate s_find : stays.
Lemma s_last L : stays (wtree L) last_block_io. Proof. unfold last_block_io. stay. Qed.
Lemma s_byhash L x : stays (wtree L) (find_by_hash_io x). Proof. unfold find_by_hash_io. stay. Qed.
Lemma s_dnew L d g : stays (wtree L) (deriv_new_io d g). Proof. unfold deriv_new_io. stay. Qed.
#[export] Hint Resolve s_last s_byhash s_dnew : stays.
Lemma s_gderiv L w : stays (wtree L) (get_deriv_io w). Proof. unfold get_deriv_io. stay. Qed.
Lemma s_dlast L w : stays (wtree L) (deriv_last_io w). Proof. unfold deriv_last_io. stay. Qed.
Lemma s_dop L e w f : stays (wtree L) (deriv_op e w f). Proof. apply s_tree. reflexivity. Qed.
#[export] Hint Resolve s_gderiv s_dlast s_dop : stays.
Lemma s_dadd L w i : stays (wtree L) (deriv_add_io w i). Proof. unfold deriv_add_io, deriv_put. stay. Qed.
Lemma s_dflush L w : stays (wtree L) (deriv_flush_io w). Proof. unfold deriv_flush_io. stay. Qed.
#[export] Hint Resolve s_dadd s_dflush : stays.
Lemma s_demit L p w f ts : stays (wtree L) (emit_deriv_io p w f ts). Proof. unfold emit_deriv_io. stay. Qed.
Lemma s_ledger L f : (forall t, t_main (fst (f t)) = t_main t) -> stays (wtree L) (ledger_io f). Proof. apply s_tree. Qed.
Lemma s_send L a b x : stays (wtree L) (send_amount_io a b x). Proof. unfold send_amount_io. destruct (bytes_eqb a b); [apply s_out|]. apply s_ledger. intros t. apply on_summary_main. Qed.
Lemma s_tx L tx : stays (wtree L) (add_tx_io tx). Proof. apply s_mop. intros m I. eapply winv_ext; [exact I|reflexivity..|apply I|]. apply apply_batch_sorted, I. Qed.
#[export] Hint Resolve s_demit s_send s_tx : stays.
Lemma s_txs L txs : stays (wtree L) (add_txs_io txs). Proof. induction txs; cbn [add_txs_io]; stay. Qed.
Lemma s_sendtx L tx : stays (wtree L) (send_tx_io tx).
Proof. unfold send_tx_io, get_gas_io, get_amount_io. stay; try (apply s_tree; reflexivity). apply s_ledger. intros t. apply on_gas_main. Qed.
#[export] Hint Resolve s_txs s_sendtx : stays.

Lemma w_read L e i : i < N.of_nat (length L) ->
  hoare (wtree L) (find_raw_io e i) (fun r h => wtree L h /\ match r with Ok d => d = option_map block_dump (nthN L i) | Err x => x = e | _ => False end).
Proof.
  intros Hi. unfold find_raw_io. eapply h_bind with (R := fun r h => wtree L h /\ r = Ok (t_main (h_tree h))); [apply h_mget; auto|intros s; split; [intros ? [_ X]|split; intros [_ X]]; discriminate X|].
  intros m. destruct (N.ltb_spec (mc_height m) i) as [Hc|Hc].
  - apply h_out. intros s [A X]. apply ok_inv in X. subst m. rewrite (wi_height _ _ A) in Hc. lia.
  - apply h_read. intros s [A _]. split; [split; [exact A|reflexivity]|]. split; [exact A|]. destruct (nthN_ex L i Hi) as [b Hb]. rewrite Hb. apply (wi_blocks _ _ A), Hb.
Qed.
Lemma winv_last m L : winv m L -> exists i lb, u256_sub (mc_height m) 1 = Ok i /\ i < N.of_nat (length L) /\ i + 1 = N.of_nat (length L) /\ nthN L i = Some lb.
Proof.
  intros A. pose proof (wi_gen _ _ A) as G. pose proof (wi_height _ _ A) as Hh. assert (1 <= N.of_nat (length L)) by (destruct L; [discriminate G|cbn [length]; lia]).
  destruct (nthN_ex L (N.of_nat (length L) - 1)) as [lb Hlb]; [lia|]. exists (N.of_nat (length L) - 1), lb. rewrite Hh. unfold u256_sub. destruct (N.leb_spec 1 (N.of_nat (length L))); [|lia]. repeat split; [lia|lia|exact Hlb].
Qed.
Lemma winv_decode m L i lb x : winv m L -> nthN L i = Some lb -> mc_decode (Some (block_dump lb)) = Ok (Some x) -> x = lb.
Proof.
  intros A Hn E. destruct (N.eq_dec i 0) as [->|Hne].
  - pose proof (wi_gen _ _ A) as G. unfold nthN in Hn. change (N.to_nat 0) with 0%nat in Hn. rewrite G in Hn. injection Hn as <-. rewrite readable_decode in E by apply genesis_readable. apply ok_inv in E. congruence.
  - apply stored_dump in E; [exact E|eapply Forall_forall; [apply (wi_wf _ _ A)|eapply nthN_in, Hn]|]. rewrite (wi_heights _ _ A _ _ Hn). lia.
Qed.
Lemma w_emit L p w f txs ts : is_array 32 w -> is_array 33 f -> Forall (is_array 32) txs -> u64_ok ts -> N.of_nat (length L) + 1 < 2 ^ 256 ->
  hoare (wtree L) (emit_main_io p w f txs ts) (fun r h => match r with Ok b => wtree (L ++ [b]) h /\ exists lb, nth_error L (length L - 1) = Some lb /\ main_link p lb b | _ => wtree L h end).
Proof.
  intros Hw Hf Ht Hts Hlt. unfold emit_main_io. eapply h_bind with (R := fun r h => wtree L h /\ r = Ok (t_main (h_tree h))); [apply h_mget; auto|intros s; split; [intros ? [_ X]|split; intros [_ X]]; discriminate X|].
  intros m. apply h_when. intros s0 [A0 X]. apply ok_inv in X. subst m. destruct (winv_last _ _ A0) as (i & lb & Ei & Hi & Hi1 & Hlb). rewrite Ei.
  eapply h_bind with (R := fun r h => wtree L h /\ r = Ok i); [apply h_out; intros s [A _]; auto|intros s; split; [intros ? [_ X]|split; intros [_ X]]; discriminate X|].
  intros j. apply h_pure. intros X. apply ok_inv in X. subst j.
  eapply h_bind; [apply w_read, Hi|intros s; split; [intros e [B _]; exact B|split; intros [B _]; exact B]|].
  intros d. eapply h_bind with (R := fun r h => wtree L h /\ d = Some (block_dump lb)); [apply h_get; intros s [A ->]; rewrite Hlb; auto|intros s; split; [intros ? B|split; intros B]; apply B|].
  intros n. eapply h_bind with (R := fun r h => wtree L h /\ match r with Ok b => block_wf b /\ main_link p lb b | _ => True end).
  - apply h_out. intros s [A ->]. split; [exact A|]. destruct (emit_block _ _ _ _ _ _ _) as [b|e| |] eqn:E; try exact I.
    apply (emit_block_spec _ _ _ _ _ _ _ _ i) in E; try assumption; [destruct E as (E1 & _ & _ & (x & Ex & El) & _); rewrite (winv_decode _ _ _ _ _ A Hlb Ex) in El; auto|]. intros x Hx. rewrite (winv_decode _ _ _ _ _ A Hlb Hx). split; [eapply Forall_forall; [apply (wi_wf _ _ A)|eapply nthN_in, Hlb]|apply (wi_heights _ _ A _ _ Hlb)].
  - intros s. split; [intros ? B|split; intros B]; apply B.
  - intros b. apply h_pure. intros [Hb Hl].
    eapply h_bind with (R := fun _ => wtree L); [|auto|].
    + change (stays (wtree L) (match b with SummBlock _ _ => do! _ := io_read (Err ETreeGetFunds) (fun _ => tt) in do! _ := rotate_io in ledger_io (t_set_amount ROOT_PUBLIC_ADDRESS COINS_PER_CYCLE) | _ => io_out (Ok tt) end)).
      stay. apply s_ledger. reflexivity.
    + intros _. eapply h_bind; [apply w_add; assumption|intros s; split; [auto|split; intros []]|]. intros u. apply h_out. intros s A. split; [exact A|]. exists lb. split; [|exact Hl]. unfold nthN in Hlb. rewrite <- Hlb. f_equal. lia.
Qed.
Lemma w_new L b txs : block_wf b -> N.of_nat (length L) + 1 < 2 ^ 256 ->
  hoare (wtree L) (add_new_block_io b txs) (fun r h => match r with Ok _ => wtree (L ++ [b]) h | _ => wtree L h \/ wtree (L ++ [b]) h end).
Proof.
  intros Hb Hlt. unfold add_new_block_io. eapply h_bind; [apply w_add; assumption|intros s; split; [auto|split; intros []]|]. intros u.
  eapply h_weaken; [apply s_txs|intros s H; exact H|]. intros [] s H; auto.
Qed.

Lemma w_unit I (x : io host unit) : stays I x -> stays I (io_unit x). Proof. intros H. apply s_bind; [exact H|intros; apply s_out]. Qed.
Lemma w_block I (x : io host block) : stays I x -> stays I (io_block x). Proof. intros H. apply s_bind; [exact H|intros; apply s_out]. Qed.
Lemma w_step L p o : op_wf o -> N.of_nat (length L) + 1 < 2 ^ 256 ->
  hoare (wtree L) (io_step p o) (fun r h => exists L', chain_after p o r L L' /\ wtree L' h).
Proof.
  intros Ho Hlt.
  assert (Hs : forall x : io host result, (forall r, chain_after p o r L L) -> stays (wtree L) x -> hoare (wtree L) x (fun r h => exists L', chain_after p o r L L' /\ wtree L' h)).
  { intros x Hm H. eapply h_weaken; [exact H|auto|]. intros r s A. exists L. auto. }
  destruct o; cbn [io_step]; try (apply Hs; [intros; reflexivity|]; first [apply w_unit|apply w_block|idtac]; first [solve [auto with stays]|solve [apply s_ledger; intros t; first [apply on_summary_main|apply on_gas_main]]|idtac]).
  - destruct Ho as (H1 & H2 & H3 & H4). unfold io_block. eapply h_bind; [apply w_emit; assumption|intros s; split; [intros e A|split; intros A]; exists L; split; try reflexivity; exact A|].
    intros b. apply h_out. intros s [A B]. exists (L ++ [b]). split; [split; [reflexivity|exact B]|exact A].
  - stay.
  - destruct Ho as [H1 _]. unfold io_unit. eapply h_bind; [apply w_new; assumption|intros s; split; [intros e A|split; intros A]; (destruct A as [A|A]; [exists L; split; [left; reflexivity|exact A]|exists (L ++ [b]); split; [right; reflexivity|exact A]])|].
    intros u. apply h_out. intros s A. exists (L ++ [b]). split; [reflexivity|exact A].
  - intros fs s A. destruct (assoc_get _ _); [|exact A]. apply (w_unit _ _ (s_dadd L owner i)). exact A.
  - intros fs s A. destruct (assoc_get _ _); [|exact A]. apply (w_unit _ _ (s_dflush L owner)). exact A.
Qed.

(** ** Opening *)
Lemma opens_ok n e : forall fs s a, snd (opens n e fs s) = Ok a -> opens n e fs s = (skipn n fs, s, Ok tt).
Proof.
  induction n as [|n IH]; intros fs s a; cbn [opens]; [intros _; reflexivity|]. unfold io_bind, io_read, io_op, next_fault.
  destruct fs as [|[|k] fs]; cbn [tl fst snd]; intros H.
  - specialize (IH _ _ _ H). rewrite skipn_nil in *. exact IH.
  - exact (IH _ _ _ H).
  - destruct k; discriminate H.
Qed.
Lemma op_ok {St A} (e : out A) (f : St -> St * out A) fs s a : (forall x, e <> Ok x) -> snd (io_op e f fs s) = Ok a -> io_op e f fs s = (tl fs, fst (f s), snd (f s)).
Proof. unfold io_op. intros He. destruct (next_fault fs) as [|[|n]]; cbn [snd]; intros H; [reflexivity|destruct (He _ H)..]. Qed.
Lemma bind_ok {St A B} (x : io St A) (k : A -> io St B) fs s b : snd (io_bind x k fs s) = Ok b ->
  exists fs' s' a, x fs s = (fs', s', Ok a) /\ io_bind x k fs s = k a fs' s'.
Proof. unfold io_bind. destruct (x fs s) as [[fs' s'] [a|e| |]]; cbn [snd]; intros H; try discriminate H. eauto. Qed.
(** Success with faults is success without. *)
Definition sure {St A} (x : io St A) : Prop := forall fs s a, snd (x fs s) = Ok a -> x [] s = ([], snd (fst (x fs s)), Ok a).
Lemma sure_out {St A} (r : out A) : sure (io_out (St := St) r). Proof. intros fs s a H. cbn [io_out snd] in H. subst r. reflexivity. Qed.
Lemma sure_get {St} : sure (io_get (St := St)). Proof. intros fs s a H. apply ok_inv in H. subst a. reflexivity. Qed.
Lemma sure_mget : sure main_get. Proof. intros fs s a H. apply ok_inv in H. subst a. reflexivity. Qed.
Lemma sure_put {St} (f : St -> St) : sure (io_put f). Proof. intros fs s [] H. reflexivity. Qed.
Lemma sure_op {St A} (e : out A) (f : St -> St * out A) : (forall x, e <> Ok x) -> sure (io_op e f).
Proof. intros He fs s a H. pose proof (op_ok _ _ _ _ _ He H) as E. rewrite E in *. cbn [fst snd] in *. unfold io_op. cbn [next_fault tl]. rewrite H. reflexivity. Qed.
Lemma sure_read {St A} (e : out A) (f : St -> A) : (forall x, e <> Ok x) -> sure (io_read e f). Proof. apply sure_op. Qed.
Lemma sure_bind {St A B} (x : io St A) (k : A -> io St B) : sure x -> (forall a, sure (k a)) -> sure (io_bind x k).
Proof.
  intros Hx Hk fs s b H. destruct (bind_ok _ _ _ _ _ H) as (fs' & s' & a & Ex & E). rewrite E in *. specialize (Hx fs s a). rewrite Ex in Hx. specialize (Hx eq_refl). cbn [fst snd] in Hx.
  unfold io_bind. rewrite Hx. apply (Hk a fs' s' b H).
Qed.
Create HintDb sure discriminated.
#[export] Hint Resolve sure_out sure_get sure_mget sure_put : sure.
Ltac surely := repeat (cbv zeta; match goal with
  | |- sure (io_bind _ _) => apply sure_bind; [|intros]
  | |- sure (if ?c then _ else _) => destruct c
  | |- sure (match ?c with _ => _ end) => destruct c
  | |- sure (io_op _ _) => apply sure_op; [discriminate]
  | |- sure (io_read _ _) => apply sure_read; discriminate
  | |- sure (tree_op _ _) => apply sure_op; discriminate
  | |- sure (main_op _ _) => apply sure_op; discriminate
  | |- sure (deriv_op _ _ _) => apply sure_op; discriminate
  | |- sure (ledger_io _) => apply sure_op; discriminate
  | |- sure (disk_op _ _) => apply sure_op; discriminate
  | _ => solve [auto with sure]
  end).
Lemma bind_opens {B} n e (k : unit -> io disk B) fs d b : snd (io_bind (opens n e) k fs d) = Ok b -> io_bind (opens n e) k fs d = k tt (skipn n fs) d /\ True.
Proof.
  intros H. split; [|exact I]. destruct (bind_ok _ _ _ _ _ H) as (f1 & d1 & a & E1 & E). rewrite E. pose proof (opens_ok n e fs d a) as O. rewrite E1 in O. cbn [snd] in O. specialize (O eq_refl). injection O as -> -> ->. reflexivity.
Qed.
Lemma new_ok fs d t : config_opens fs -> snd (t_new_io fs d) = Ok t -> t_new d = Ok t.
Proof.
  unfold config_opens. intros Hc H. rewrite <- new_nil. revert H. unfold t_new_io. intros H.
  destruct (bind_opens _ _ _ _ _ _ H) as [E _]. rewrite E in H. clear E. destruct (bind_opens _ _ _ _ _ _ H) as [E _]. rewrite E in H. clear E.
  erewrite bind_out; [|reflexivity]. erewrite bind_out; [|reflexivity].
  assert (Et : io_try (skipn 3 (skipn 4 fs)) d = (tl (skipn 3 (skipn 4 fs)), d, Ok true)).
  { unfold io_try. replace (next_fault (skipn 3 (skipn 4 fs))) with Fine; [reflexivity|]. rewrite <- Hc. clear. do 8 (destruct fs as [|? fs]; [reflexivity|]). reflexivity. }
  unfold io_bind at 1 in H. rewrite Et in H. unfold io_bind at 1.
  change (io_try [] d) with ([] : list fault, d, Ok true : out bool). revert H. generalize (tl (skipn 3 (skipn 4 fs))). cbv iota. intros fs'.
  match goal with |- snd (?x _ _) = _ -> _ => assert (S : sure x) end; [|intros H; exact (f_equal snd (S _ _ _ H))]. surely.
Qed.

(** ** Closing and opening again *)
Lemma nthN_firstn (L : list block) k i b : nthN (firstn k L) i = Some b -> nthN L i = Some b /\ (N.to_nat i < k)%nat.
Proof.
  unfold nthN. intros H. assert (Hi : (N.to_nat i < k)%nat). { assert (N.to_nat i < length (firstn k L))%nat by (apply nth_error_Some; congruence). rewrite firstn_length in *. lia. }
  split; [|exact Hi]. rewrite <- H. rewrite <- (firstn_skipn k L) at 1. apply nth_error_app1. apply nth_error_Some. congruence.
Qed.
Lemma winv_firstn m L k m' : winv m L -> (1 <= k <= length L)%nat -> mc_height m' = N.of_nat k -> cur (mc_blocks m') = cur (mc_blocks m) -> cur (mc_refs m') = cur (mc_refs m) ->
  mc_difficulty m' = BEGINNING_DIFFICULTY -> cfg_ok (firstn k L) (file_cur (mc_cfg m')) -> sm_sorted (cur (mc_txs m')) -> winv m' (firstn k L).
Proof.
  intros [A1 A2 A3 A4 A5 A6 A7 A8 A9 A10] Hk E1 E2 E3 E4 E5 E6. assert (Hl : length (firstn k L) = k) by (rewrite firstn_length; lia). split; try assumption.
  - rewrite Hl. exact E1.
  - intros i b H. apply nthN_firstn in H. rewrite <- (A2 i b (proj1 H)). unfold sled_get. rewrite E2. reflexivity.
  - intros i b H. apply nthN_firstn in H. apply A3, H.
  - intros i b H. apply nthN_firstn in H. destruct (A4 i b (proj1 H)) as [X|X]; [left|right; exact X]. rewrite <- X. unfold sled_get. rewrite E3. reflexivity.
  - apply Forall_forall. intros b H. eapply Forall_forall; [exact A5|]. rewrite <- (firstn_skipn k L). apply in_or_app. left. exact H.
  - destruct k; [lia|]. destruct L; [discriminate A6|exact A6].
  - rewrite Hl. lia.
Qed.
Lemma nthN_one (g : block) i x : nthN [g] i = Some x -> i = 0 /\ x = g.
Proof. unfold nthN. destruct (N.to_nat i) as [|n] eqn:E; cbn [nth_error]; [intros [= <-]; split; [lia|reflexivity]|destruct n; discriminate]. Qed.
Lemma winv_genesis m cfg : cfg_ok [genesis] (file_cur cfg) -> sm_sorted (cur (md_txs m)) -> winv (mc_appended genesis (MkMain (md_blocks m) (md_refs m) (md_txs m) 0 BEGINNING_DIFFICULTY cfg)) [genesis].
Proof.
  intros C C2. split; cbn [mc_appended mc_height mc_blocks mc_refs mc_txs mc_difficulty mc_cfg length]; try reflexivity; try assumption.
  - intros i b H. apply nthN_one in H. destruct H as [-> ->]. rewrite sled_get_insert, bytes_eqb_refl. reflexivity.
  - intros i b H. apply nthN_one in H. destruct H as [-> ->]. reflexivity.
  - intros i b H. apply nthN_one in H. destruct H as [-> ->]. left. rewrite sled_get_insert, bytes_eqb_refl. reflexivity.
  - repeat constructor; apply genesis_readable.
Qed.
Lemma new_absent d : file_cur (md_cfg d) = None -> mc_new d = Ok (mc_appended genesis (MkMain (md_blocks d) (md_refs d) (md_txs d) 0 BEGINNING_DIFFICULTY (md_cfg d))).
Proof. intros E. unfold mc_new, mc_read_config. rewrite E. cbn [bind]. change (0 =? 0) with true. cbv iota. rewrite genesis_eq. cbn [bind]. rewrite mc_add_block_right; [reflexivity|reflexivity|cbn [mc_height]; lia]. Qed.
Lemma cfg_read c h d : file_cur c <> None -> mc_read_config c = Ok (h, d) -> exists x, file_cur c = Some x /\ (64 <= length x)%nat.
Proof.
  unfold mc_read_config. destruct (file_cur c) as [x|]; [|congruence]. intros _ H. exists x. split; [reflexivity|]. destruct (Nat.leb_spec 64 (length x)); [assumption|]. exfalso.
  unfold read_fields in H. revert H. destruct (Nat.ltb_spec (length x) 32); [discriminate|]. cbn [bind]. destruct (Nat.ltb_spec (length (skipn 32 x)) 32) as [|Hl]; [discriminate|]. rewrite skipn_length in Hl. lia.
Qed.
Lemma t_new_main d t : t_new d = Ok t -> mc_new (k_main d) = Ok (t_main t).
Proof. unfold t_new. destruct (mc_new (k_main d)) as [m|e| |]; cbn [bind]; intros H; try discriminate H. apply ok_inv in H. subst t. reflexivity. Qed.
Lemma w_reopen h L t : wtree L h -> t_new (t_close (h_tree h)) = Ok t -> exists k, (1 <= k <= length L)%nat /\ winv (t_main t) (firstn k L) /\
  (forall n, file_cur (mc_cfg (t_main (h_tree h))) = Some (height_key n ++ BEGINNING_DIFFICULTY) -> 1 <= n < 2 ^ 256 -> n = N.of_nat k).
Proof.
  intros A H. apply t_new_main in H. cbn [t_close k_main] in H. pose proof (wi_cfg _ _ A) as C. pose proof (wi_gen _ _ A) as G. set (m := t_main (h_tree h)) in *.
  assert (Ec : file_cur (md_cfg (mc_close m)) = file_cur (mc_cfg m)) by reflexivity.
  destruct (file_cur (mc_cfg m)) as [c|] eqn:E.
  - cbn [cfg_ok] in C. destruct C as [C|(k & Hk & ->)].
    + exfalso. unfold mc_new in H. destruct (mc_read_config (md_cfg (mc_close m))) as [[k d]|e| |] eqn:R; try discriminate H.
      apply cfg_read in R; [|congruence]. destruct R as (x & Ex & Hx). rewrite Ec in Ex. injection Ex as <-. lia.
    + pose proof (wi_lt _ _ A) as Hlt. rewrite (mc_new_settled _ _ _ Ec) in H; [|lia|reflexivity]. apply ok_inv in H. rewrite <- H. exists (N.to_nat k).
      assert (Hl : length (firstn (N.to_nat k) L) = N.to_nat k) by (rewrite firstn_length; lia).
      split; [lia|]. split; [|intros n En Hn; assert (En2 : height_key k ++ BEGINNING_DIFFICULTY = height_key n ++ BEGINNING_DIFFICULTY) by congruence; clear En; rename En2 into En; apply app_inj_len in En; [|rewrite !height_key_length; reflexivity]].
      * eapply winv_firstn; [exact A|lia|cbn [mc_height]; lia|reflexivity..| |apply A]. cbn [mc_cfg]. rewrite Ec. right. exists k. rewrite Hl. split; [lia|reflexivity].
      * destruct En as [En _]. apply (f_equal from_be) in En. rewrite !from_height_key in En by lia. lia.
  - rewrite (new_absent _ Ec) in H. apply ok_inv in H. rewrite <- H. exists 1%nat. destruct L as [|g L]; [discriminate G|]. injection G as ->. split; [cbn [length]; lia|]. split; [|discriminate].
    cbn [firstn]. apply winv_genesis; [rewrite Ec; exact I|apply A].
Qed.
Lemma w_fresh t : t_new disk_empty = Ok t -> winv (t_main t) [genesis].
Proof. intros H. apply t_new_main in H. rewrite new_absent in H by reflexivity. apply ok_inv in H. rewrite <- H. apply winv_genesis; exact I. Qed.

Lemma w_history p n h : io_history p n h -> few n -> exists L, wtree L h /\ (length L <= n + 1)%nat.
Proof.
  unfold few. induction 1 as [t H|n h o fs Hh IH Ho|n h fs t Hh IH Hc H]; intros Hn.
  - exists [genesis]. split; [apply w_fresh, H|cbn [length]; lia].
  - destruct IH as (L & A & Hl); [lia|]. destruct (w_step L p o Ho ltac:(lia) fs h A) as (L' & C & A'). exists L'. split; [exact A'|].
    assert (length L' <= length L + 1)%nat; [|lia]. destruct o; cbn [chain_after] in C; try (subst L'; lia).
    + destruct (snd (io_step _ _ _ _)) as [[|b|c]|e| |]; try contradiction; try (subst L'; lia). destruct C as [-> _]. rewrite app_length. cbn [length]. lia.
    + destruct (snd (io_step _ _ _ _)) as [?|e| |]; [subst L'; rewrite app_length; cbn [length]; lia|destruct C as [->| ->]; [lia|rewrite app_length; cbn [length]; lia]..].
  - destruct IH as (L & A & Hl); [lia|]. apply (new_ok _ _ _ Hc) in H. destruct (w_reopen _ _ _ A H) as (k & Hk & B & _). exists (firstn k L). split; [exact B|]. rewrite firstn_length. lia.
Qed.
Lemma w_holds L m : winv m L -> chain_is m L.
Proof.
  intros A. pose proof (wi_lt _ _ A) as Hlt. split; [apply A|]. split; [apply A|]. split.
  - pose proof (wi_gen _ _ A) as G. destruct L; [discriminate G|]. injection G as ->. apply genesis_eq.
  - intros i b H. assert (Hn : nthN L (N.of_nat i) = Some b) by (unfold nthN; rewrite Nat2N.id; exact H). pose proof (nthN_some _ _ _ Hn).
    split; [apply (wi_heights _ _ A), Hn|]. unfold mc_find_raw_by_height. rewrite (wi_height _ _ A).
    assert (F : (if N.of_nat (length L) <? N.of_nat i then None else sled_get (height_key (N.of_nat i)) (mc_blocks m)) = Some (block_dump b)).
    { destruct (N.ltb_spec (N.of_nat (length L)) (N.of_nat i)); [lia|]. apply (wi_blocks _ _ A), Hn. }
    split; [exact F|]. destruct (wi_refs _ _ A _ _ Hn) as [X|X]; [left|right; exact X]. unfold mc_find_raw_by_hash. rewrite X, height_key_length. change (Nat.ltb 32 32) with false. cbv iota.
    rewrite from_height_key by lia. unfold mc_find_raw_by_height. rewrite (wi_height _ _ A). f_equal. exact F.
Qed.
