(** Proofs of the statements in P_Store.v. *)
From Coq Require Import Lia ZifyBool ZifyNat ZifyN Sorted.
From Verif Require Import Base Sha256 Merkle Tools Transaction Block Sled Chain Tree Spec Reach LedgerSpec Demo.
From Verif Require Import BaseFacts ToolsFacts MerkleFacts DiffFacts CodecFacts SledFacts ChainFacts TreeFacts LedgerFacts MainProps EpochDemo LedgerProps.

Lemma reachable_any ok p n t : reachable ok p n t -> reachable any_op p n t.
Proof. induction 1; [apply reach_open; assumption|apply reach_call; [assumption|assumption|exact I]|eapply reach_reopen; eassumption]. Qed.

(** ** C49: the transaction store *)

(** Transactions a call may store. *)
Definition op_txs (o : op) : list transaction :=
  match o with OSendTx tx => [tx] | OAddNewBlock _ txs | OAddTxs txs => txs | _ => [] end.

Lemma add_txs_lookup txs m h :
  (mc_get_transaction_raw h (mc_add_transactions txs m) = mc_get_transaction_raw h m /\
     forall tx, In tx txs -> sha256 (tx_dump tx) <> h) \/
  exists tx, In tx txs /\ sha256 (tx_dump tx) = h /\ mc_get_transaction_raw h (mc_add_transactions txs m) = Some (tx_dump tx).
Proof.
  revert m. induction txs as [|tx txs IH]; intros m; [left; split; [reflexivity|intros tx []]|].
  cbn [mc_add_transactions fold_left]. fold (mc_add_transactions txs (mc_add_transaction tx m)).
  destruct (IH (mc_add_transaction tx m)) as [[E Hno]|(tx' & Hin & Hh & E)].
  - unfold mc_get_transaction_raw in *. cbn [mc_add_transaction mc_txs] in E. rewrite sled_get_insert in E.
    destruct (bytes_eqb h (sha256 (tx_dump tx))) eqn:Eh.
    + apply bytes_eqb_eq in Eh. right. exists tx. split; [left; reflexivity|]. split; [congruence|exact E].
    + left. split; [exact E|]. intros t [<-|Hin]; [|apply Hno, Hin]. apply bytes_eqb_neq in Eh. congruence.
  - right. exists tx'. split; [right; exact Hin|auto].
Qed.
Lemma add_block_txs b m : mc_txs (fst (mc_add_block b m)) = mc_txs m.
Proof. unfold mc_add_block. destruct (negb _); [reflexivity|]. destruct (u256_add (mc_height m) 1); reflexivity. Qed.
Lemma emit_main_txs p pow founder txs ts t :
  mc_txs (t_main (fst (t_emmit_new_main_block p pow founder txs ts t))) = mc_txs (t_main t) \/
  mc_txs (t_main (fst (t_emmit_new_main_block p pow founder txs ts t))) = sled_flush (mc_txs (t_main t)).
Proof.
  unfold t_emmit_new_main_block. match goal with |- context [match ?x with Ok _ => _ | Err _ => _ | Panic => _ | UB => _ end] => destruct x as [[fee info]|e| |] end;
    try (left; reflexivity).
  destruct (_ =? 0).
  - destruct txs; [|left; reflexivity]. rewrite summarize_ok. set (root := mroot _).
    change (t_set_amount ROOT_PUBLIC_ADDRESS COINS_PER_CYCLE (t_rotate_dbs t)) with (rotated t, @Ok unit tt).
    cbv beta zeta iota. pose proof (add_block_txs (SummBlock info root) (t_main (rotated t))) as E.
    destruct (mc_add_block _ (t_main (rotated t))) as [m r]. right. exact E.
  - destruct txs as [|x txs]; [left; reflexivity|]. pose proof (mroot_ok (x :: txs)) as Hr. rewrite Hr.
    pose proof (add_block_txs (TxBlock fee (mroot (x :: txs)) info (x :: txs)) (t_main t)) as E.
    destruct (mc_add_block _ (t_main t)) as [m r]. left. exact E.
Qed.

Lemma step_txs p t o h :
  mc_get_transaction_raw h (t_main (fst (step p t o))) = mc_get_transaction_raw h (t_main t) \/
  exists tx, In tx (op_txs o) /\ sha256 (tx_dump tx) = h /\ mc_get_transaction_raw h (t_main (fst (step p t o))) = Some (tx_dump tx).
Proof.
  destruct o; cbn [step ret_unit ret_block fst op_txs].
  - left. unfold t_add_amount. rewrite on_summary_main. reflexivity.
  - left. reflexivity.
  - left. unfold t_sub_amount. rewrite on_summary_main. reflexivity.
  - left. rewrite send_amount_main. reflexivity.
  - left. unfold t_add_gas. rewrite on_gas_main. reflexivity.
  - left. unfold t_sub_gas. rewrite on_gas_main. reflexivity.
  - left. unfold t_send_gas. rewrite on_gas_main. reflexivity.
  - destruct (send_tx_main tx t) as [-> | ->]; [left; reflexivity|].
    destruct (add_txs_lookup [tx] (t_main t) h) as [[E _]|E]; [left; exact E|right; exact E].
  - left. unfold mc_get_transaction_raw. destruct (emit_main_txs p pow founder txs ts t) as [-> | ->]; reflexivity.
  - left. rewrite emit_deriv_main. reflexivity.
  - left. pose proof (get_deriv_main owner t) as E. destruct (t_get_derivative_chain owner t). cbn [fst] in *. rewrite E. reflexivity.
  - unfold t_add_new_block. pose proof (add_block_txs b (t_main t)) as E. destruct (mc_add_block b (t_main t)) as [m r]. cbn [fst] in E.
    destruct r as [u|e| |]; cbn [fst with_main t_main]; try (left; unfold mc_get_transaction_raw; rewrite E; reflexivity).
    destruct (add_txs_lookup txs m h) as [[E' _]|E']; [left|right; exact E']. rewrite E'. unfold mc_get_transaction_raw. rewrite E. reflexivity.
  - destruct (add_txs_lookup txs (t_main t) h) as [[E' _]|E']; [left; exact E'|right; exact E'].
  - left. destruct (assoc_get owner (t_derivs t)); [|reflexivity]. destruct (dc_add_block i d). reflexivity.
  - left. reflexivity.
  - left. reflexivity.
  - left. destruct (assoc_get owner (t_derivs t)); reflexivity.
Qed.

Lemma op_txs_wf o : op_wf o -> Forall tx_wf (op_txs o).
Proof. destruct o; cbn [op_wf op_txs]; intros H; try exact (Forall_nil _); [constructor; [exact H|constructor]|apply H|exact H]. Qed.

Lemma store_sound ok p n t h d : reachable ok p n t -> few n -> mc_get_transaction_raw h (t_main t) = Some d ->
  sha256 d = h /\ exists tx, tx_wf tx /\ d = tx_dump tx.
Proof.
  unfold few. intros Hr. revert h d. induction Hr as [t E|n t o Hr IH Hwf _|n t t' Hr IH E]; intros h d Hn Hd.
  - unfold t_new in E. cbn [k_main disk_empty] in E. rewrite mc_new_empty in E. cbn [bind] in E. injection E as <-. discriminate Hd.
  - destruct (step_txs p t o h) as [E|(tx & Hin & Hh & E)]; rewrite E in Hd.
    + apply IH; [lia|exact Hd].
    + injection Hd as <-. split; [exact Hh|]. exists tx. split; [|reflexivity].
      pose proof (op_txs_wf o Hwf) as W. rewrite Forall_forall in W. apply W, Hin.
  - destruct (reachable_inv _ _ _ _ Hr Hn) as (L & HL & Hlen). destruct (reopen_main t L HL ltac:(lia)) as
      (t1 & E1 & _ & _ & _ & _ & S1 & _). rewrite E in E1. injection E1 as <-.
    apply IH; [exact Hn|]. unfold mc_get_transaction_raw in *. rewrite S1 in Hd. exact Hd.
Qed.

(*@T C49: what is stored under a hash has that hash and is the dump of a transaction. *)
Lemma p_C49_store_sound : forall ok p n t h d, reachable ok p n t -> few n ->
  mc_get_transaction_raw h (t_main t) = Some d -> sha256 d = h /\ exists tx, tx_wf tx /\ d = tx_dump tx.
Proof. exact store_sound. Qed.

Lemma raw_stays p n t ops h d : reachable any_op p n t -> few (n + length ops) -> Forall op_wf ops ->
  mc_get_transaction_raw h (t_main t) = Some d ->
  exists d', mc_get_transaction_raw h (t_main (run p t ops)) = Some d' /\ sha256 d' = h.
Proof.
  unfold few. revert n t d. induction ops as [|o ops IH]; intros n t d Hr Hn Hw Hd; cbn [run fold_left length] in *.
  - exists d. split; [exact Hd|]. eapply store_sound; [exact Hr|unfold few; lia|exact Hd].
  - apply Forall_cons_iff in Hw as [W1 W2]. fold (run p (fst (step p t o)) ops).
    assert (Hr' : reachable any_op p (S n) (fst (step p t o))) by (apply reach_call; [exact Hr|exact W1|exact I]).
    destruct (step_txs p t o h) as [E|(tx & _ & Hh & E)].
    + rewrite Hd in E. eapply (IH (S n)); [exact Hr'|lia|exact W2|exact E].
    + eapply (IH (S n)); [exact Hr'|lia|exact W2|exact E].
Qed.

(*@T C49: a stored transaction stays stored under every later history, unless a SHA-256 collision with it is sent. *)
Lemma p_C49_stays_stored : forall ok p n t ops h d, reachable ok p n t -> few (n + length ops) -> Forall op_wf ops ->
  mc_get_transaction_raw h (t_main t) = Some d ->
  mc_transaction_exists h (t_main (run p t ops)) = true /\
  (mc_get_transaction_raw h (t_main (run p t ops)) = Some d \/
   exists d', mc_get_transaction_raw h (t_main (run p t ops)) = Some d' /\ collision d d').
Proof.
  intros ok p n t ops h d Hr Hn Hw Hd. apply reachable_any in Hr.
  destruct (raw_stays p n t ops h d Hr Hn Hw Hd) as (d' & E & Hh).
  split; [unfold mc_transaction_exists, sled_contains; unfold mc_get_transaction_raw in E; rewrite E; reflexivity|].
  destruct (bytes_eq_dec d d') as [<-|Hne]; [left; exact E|]. right. exists d'. split; [exact E|]. split; [exact Hne|].
  assert (few n) as Hn' by (unfold few in *; lia).
  destruct (store_sound _ _ _ _ _ _ Hr Hn' Hd) as [H1 _]. congruence.
Qed.
(*@T C49: every transaction handed to a successful call is stored afterwards (up to a collision among them). *)
Lemma p_C49_added : forall ok p n t o r tx, reachable ok p n t -> few n -> op_wf o ->
  snd (step p t o) = Ok r ->
  In tx (match o with OSendTx tx => [tx] | OAddNewBlock _ txs | OAddTxs txs => txs | _ => [] end) ->
  exists d, mc_get_transaction_raw (sha256 (tx_dump tx)) (t_main (fst (step p t o))) = Some d /\
    (d = tx_dump tx \/ collision (tx_dump tx) d).
Proof.
  intros ok p n t o r tx Hr Hn Hwf Eo Hin.
  assert (X : exists d, mc_get_transaction_raw (sha256 (tx_dump tx)) (t_main (fst (step p t o))) = Some d /\ sha256 d = sha256 (tx_dump tx)).
  { destruct o; cbn [step ret_unit fst snd op_txs] in *; try contradiction.
    - destruct Hin as [<-|[]]. exists (tx_dump tx0). split; [|reflexivity].
      unfold t_send_transaction in *.
      match goal with |- context [match ?x with Ok _ => _ | Err _ => _ | Panic => _ | UB => _ end] => destruct x as [g|e| |] end; try discriminate Eo.
      set (t1 := with_main t _) in *. pose proof (send_amount_main (tx_sender tx0) (tx_receiver tx0) (tx_amount tx0) t1) as H.
      destruct (t_send_amount _ _ _ t1) as [t2 r2]. cbn [fst] in H.
      assert (H1 : mc_get_transaction_raw (sha256 (tx_dump tx0)) (t_main t2) = Some (tx_dump tx0)).
      { rewrite H. unfold t1, mc_get_transaction_raw. cbn [t_main with_main mc_add_transaction mc_txs]. rewrite sled_get_insert, bytes_eqb_refl. reflexivity. }
      destruct r2 as [v|e| |]; try discriminate Eo. unfold t_sub_gas. rewrite on_gas_main. exact H1.
    - unfold t_add_new_block in *. destruct (mc_add_block b (t_main t)) as [m [u|e| |]]; try discriminate Eo. cbn [fst with_main t_main].
      destruct (add_txs_lookup txs m (sha256 (tx_dump tx))) as [[_ E']|(tx' & _ & Hh & E')]; [exfalso; eapply E'; [exact Hin|reflexivity]|].
      exists (tx_dump tx'). auto.
    - cbn [with_main t_main].
      destruct (add_txs_lookup txs (t_main t) (sha256 (tx_dump tx))) as [[_ E']|(tx' & _ & Hh & E')]; [exfalso; eapply E'; [exact Hin|reflexivity]|].
      exists (tx_dump tx'). auto. }
  destruct X as (d & E & Hh). exists d. split; [exact E|].
  destruct (bytes_eq_dec d (tx_dump tx)) as [->|Hne]; [left; reflexivity|right; split; congruence].
Qed.
(*@T C49: a hash that no call was asked to store stays absent. *)
Lemma p_C49_absent : forall p t ops h,
  mc_transaction_exists h (t_main t) = false ->
  Forall (fun o => forall tx, In tx (match o with OSendTx tx => [tx] | OAddNewBlock _ txs | OAddTxs txs => txs | _ => [] end) ->
                   sha256 (tx_dump tx) <> h) ops ->
  mc_transaction_exists h (t_main (run p t ops)) = false /\ mc_get_transaction h (t_main (run p t ops)) = Ok None.
Proof.
  intros p t ops h Hd Hno.
  assert (X : mc_get_transaction_raw h (t_main (run p t ops)) = None).
  { assert (Hd' : mc_get_transaction_raw h (t_main t) = None).
    { unfold mc_transaction_exists, sled_contains in Hd. unfold mc_get_transaction_raw. destruct (sled_get h (mc_txs (t_main t))); [discriminate|reflexivity]. }
    clear Hd. revert t Hd'. induction Hno as [|o ops Ho _ IH]; intros t Hd; [exact Hd|]. cbn [run fold_left]. apply IH.
    destruct (step_txs p t o h) as [->|(tx & Hin & Hh & _)]; [exact Hd|]. exfalso. exact (Ho tx Hin Hh). }
  split; [unfold mc_transaction_exists, sled_contains; unfold mc_get_transaction_raw in X; rewrite X; reflexivity|].
  unfold mc_get_transaction. rewrite X. reflexivity.
Qed.
(*@T C49: reading a stored transaction gives it back, unless its data is the empty vector. *)
Lemma p_C49_get_transaction_partial : forall m h tx, tx_wf tx -> tx_hash tx = sha256 (tx_dump tx) -> tx_data tx <> Some [] ->
  mc_get_transaction_raw h m = Some (tx_dump tx) -> mc_get_transaction h m = Ok (Some tx).
Proof.
  intros m h tx Hwf Hh Hd E. unfold mc_get_transaction. rewrite E.
  assert (Eh : hd 10 (tx_dump tx) = header_code HTransaction) by (rewrite tx_dump_eq; reflexivity).
  rewrite Eh. cbn [negb]. change (header_code HTransaction =? header_code HTransaction) with true. cbn [negb].
  assert (Es : slice_from (tx_dump tx) 1 = Ok (tl (tx_dump tx))) by (rewrite tx_dump_eq; reflexivity).
  rewrite Es. cbn [bind]. rewrite tx_roundtrip by (try split; assumption). reflexivity.
Qed.
(*@T C49 is false for empty data: the transaction read back has none. *)
Lemma p_C49_empty_data_refuted : forall p, exists t tx tx', reachable any_op p 1 t /\ tx_wf tx /\
  t = fst (step p fresh (OAddTxs [tx])) /\
  mc_get_transaction (tx_hash tx) (t_main t) = Ok (Some tx') /\ tx_data tx = Some [] /\ tx_data tx' = None.
Proof.
  intros p. set (tx := tx_new_signed addrA addrB 5 6 (Some []) (repeat 7 64)).
  exists (fst (step p fresh (OAddTxs [tx]))), tx, (tx_new_signed addrA addrB 5 6 None (repeat 7 64)).
  assert (Hwf : tx_wf tx) by (repeat split; try reflexivity; repeat constructor; reflexivity).
  split; [apply reach_call; [apply fresh_reachable|repeat constructor; apply Hwf|exact I]|].
  split; [exact Hwf|]. split; [reflexivity|]. split; [vm_compute; reflexivity|]. split; reflexivity.
Qed.
(*@E
Example C49_ex : let tx := demo_tx 1000 (repeat 7 64) in
  let t := fst (step Debug fresh (OAddTxs [demo_tx 3 (repeat 7 64); tx])) in
  mc_get_transaction (tx_hash tx) (t_main t) = Ok (Some tx) /\ mc_transaction_exists (repeat 0 32) (t_main t) = false /\
  tx_hash tx = sha256 (tx_dump tx).
Proof. vm_compute. auto. Qed.
@*)

(** ** C50 and C51: the epoch summary *)


Definition decoded (v : bytes) : N := match led_decode (Some v) with Ok x => x | _ => 0 end.
Definition entry_of (gas : sled) (e : bytes * bytes) : bytes * N * option N :=
  (fst e, decoded (snd e), option_map decoded (sled_get (fst e) gas)).
Definition leaf_of (e : bytes * N * option N) : bytes := sha256 (leaf_text (fst (fst e)) (snd (fst e)) (snd e)).

Lemma decoded_encode x : u256_ok x -> decoded (led_encode x) = x.
Proof. intros H. unfold decoded. rewrite led_decode_encode by exact H. reflexivity. Qed.
Lemma led_val s k v : led_ok s -> sled_get k s = Some v -> v = led_encode (decoded v) /\ u256_ok (decoded v) /\ led_get k s = Ok (decoded v).
Proof.
  intros H E. destruct H as [_ H]. destruct (H k v E) as (x & Hx & ->). rewrite decoded_encode by exact Hx.
  split; [reflexivity|]. split; [exact Hx|]. unfold led_get. rewrite E. apply led_decode_encode, Hx.
Qed.

Lemma bytes_cmp_before a b : bytes_cmp a b = Lt -> before a b.
Proof.
  revert b; induction a as [|x a IH]; intros [|y b]; cbn [bytes_cmp]; try discriminate; [intros _; apply before_prefix|].
  destruct (x ?= y) eqn:C; try discriminate.
  - apply N.compare_eq in C as ->. intros H. apply before_rest, IH, H.
  - intros _. apply before_byte. exact C.
Qed.

(*@T C50, what the root is: the merkle root over one leaf per account of the amount database, in
    address order.  These include every account with a non-zero amount; an account that once had an
    entry stays, with amount 0.  The gas is that of the account, or nothing if it never had gas. *)
Lemma p_C50_summary_root_partial : forall ok p n t root, reachable ok p n t -> few n -> t_summarize t = Ok root ->
  exists E : list (bytes * N * option N),
    merkle_root_of (map (fun '(w, x, g) => sha256 (leaf_text w x g)) E) root /\
    Sorted before (map (fun '(w, _, _) => w) E) /\
    (forall w x g, In (w, x, g) E -> x < 2 ^ 256 /\ t_get_amount w t = Ok x /\
       t_get_gas w t = Ok (match g with Some y => y | None => 0 end)) /\
    (forall w x, t_get_amount w t = Ok x -> x <> 0 -> exists g, In (w, x, g) E).
Proof.
  intros ok p n t root Hr Hn E. destruct (reachable_ledgers _ _ _ _ Hr Hn) as [Hs Hg _ _].
  exists (map (entry_of (t_gas t)) (cur (t_summary t))). rewrite summarize_ok in E. injection E as <-.
  assert (Hsorted : sm_sorted (cur (t_summary t))) by apply Hs.
  assert (Hin : forall k v, In (k, v) (cur (t_summary t)) -> sled_get k (t_summary t) = Some v) by (intros k v; apply sm_in_get, Hsorted).
  split; [|split; [|split]].
  - rewrite map_map. replace (map _ _) with (map (fun e => sha256 (summary_entry (t_gas t) e)) (sled_iter (t_summary t))); [apply mroot_spec|].
    unfold sled_iter. apply map_ext_in. intros [k v] Hkv. unfold entry_of. cbn [fst snd]. f_equal. unfold leaf_text, summary_entry.
    destruct (led_val _ _ _ Hs (Hin k v Hkv)) as (Ev & _ & _). rewrite Ev at 1. unfold led_encode. do 4 f_equal.
    destruct (sled_get k (t_gas t)) as [gv|] eqn:Eg; [|reflexivity]. cbn [option_map].
    destruct (led_val _ _ _ Hg Eg) as (Eg' & _ & _). exact Eg'.
  - rewrite map_map. replace (map _ _) with (map fst (cur (t_summary t))) by (apply map_ext; intros [k v]; reflexivity).
    clear Hin. induction (cur (t_summary t)) as [|[k v] m IH]; [constructor|]. cbn [sm_sorted map fst] in *. destruct Hsorted as [H1 H2].
    constructor; [apply IH, H2|]. destruct m as [|[k' v'] m]; constructor. apply bytes_cmp_before, H1.
  - intros w x g H. apply in_map_iff in H as ([k v] & H & Hkv). unfold entry_of in H. cbn [fst snd] in H. injection H as <- <- <-.
    destruct (led_val _ _ _ Hs (Hin k v Hkv)) as (_ & Hb & Hl). split; [exact Hb|]. split; [exact Hl|].
    unfold t_get_gas, led_get. destruct (sled_get k (t_gas t)) as [gv|] eqn:Eg; [|reflexivity]. cbn [option_map].
    destruct (led_val _ _ _ Hg Eg) as (_ & _ & Hl'). unfold led_get in Hl'. rewrite Eg in Hl'. exact Hl'.
  - intros w x Hx Hx0. unfold t_get_amount, led_get in Hx. destruct (sled_get w (t_summary t)) as [v|] eqn:Ev; [|injection Hx as <-; contradiction].
    exists (option_map decoded (sled_get w (t_gas t))). apply in_map_iff. exists (w, v). split.
    + unfold entry_of. cbn [fst snd]. unfold decoded at 1. rewrite Hx. reflexivity.
    + apply sm_get_in. exact Ev.
Qed.
(*@T C50, leaves: for 33-byte addresses a leaf determines account, amount and gas, up to SHA-256 collisions. *)
Lemma p_C50_leaf_binding : forall w x g w' x' g', length w = 33%nat -> length w' = 33%nat ->
  u256_ok x -> u256_ok x' -> match g with Some y => u256_ok y | None => True end -> match g' with Some y => u256_ok y | None => True end ->
  sha256 (leaf_text w x g) = sha256 (leaf_text w' x' g') ->
  (w = w' /\ x = x' /\ g = g') \/ collision (leaf_text w x g) (leaf_text w' x' g').
Proof.
  intros w x g w' x' g' Hw Hw' Hx Hx' Hg Hg' E. destruct (bytes_eq_dec (leaf_text w x g) (leaf_text w' x' g')) as [Eq|Ne]; [left|right; split; assumption].
  unfold leaf_text in Eq. apply app_inj_len in Eq as [-> Eq]; [|congruence]. split; [reflexivity|].
  cbn [app] in Eq. apply cons_inv in Eq as [_ Eq]. rewrite !dump_u256_eq in Eq. cbn [app] in Eq.
  apply enc_inj_app in Eq as [-> Eq]; [|assumption..]. split; [reflexivity|]. apply cons_inv in Eq as [_ Eq].
  destruct g as [y|], g' as [y'|]; rewrite ?dump_u256_eq in Eq; cbn [app] in Eq.
  - rewrite <- (app_nil_r (enc y)), <- (app_nil_r (enc y')) in Eq. apply enc_inj_app in Eq as [-> _]; [reflexivity|assumption..].
  - exfalso. apply (f_equal (@length _)) in Eq. rewrite enc_length in Eq. cbn in Eq. discriminate Eq.
  - exfalso. apply (f_equal (@length _)) in Eq. rewrite enc_length in Eq. cbn in Eq. discriminate Eq.
  - reflexivity.
Qed.
(*@T C50 is false of the code: the root is not determined by the balances (an account with balance 0
    may or may not have a leaf) ... *)
Lemma p_C50_same_balances_refuted : forall p, exists t t' f g,
  reachable any_op p 0 t /\ reachable any_op p 1 t' /\ amounts t f /\ amounts t' f /\ gases t g /\ gases t' g /\
  t_summarize t <> t_summarize t'.
Proof.
  intros p. exists fresh, (fst (step p fresh (OAddAmount addrA 0))).
  destruct (p_C41_balances_readable any_op p 0 fresh (fresh_reachable _ _) ltac:(reflexivity)) as (f & g & Hf & Hg & Hb).
  exists f, g. split; [apply fresh_reachable|].
  assert (Hw : op_wf (OAddAmount addrA 0)) by (split; [repeat constructor|reflexivity]).
  split; [apply reach_call; [apply fresh_reachable|exact Hw|exact I]|]. split; [exact Hf|].
  destruct (reachable_ledgers any_op p 0 fresh (fresh_reachable _ _) ltac:(reflexivity)) as [Hs _ _ _].
  split.
  - eapply amounts_ext; [|apply step_amounts; [exact Hs|exact Hw|reflexivity|exact Hf]].
    intros w. cbn [amount_after]. rewrite N.add_0_r. destruct (f addrA <? 2 ^ 256); [|reflexivity].
    unfold upd. destruct (bytes_eqb w addrA) eqn:E; [apply bytes_eqb_eq in E as ->; reflexivity|reflexivity].
  - split; [exact Hg|]. split; [|vm_compute; discriminate].
    eapply gases_same; [|exact Hg]. reflexivity.
Qed.
(*@T ... and the gas of an account that never had an amount is not committed to. *)
Lemma p_C50_gas_uncommitted_refuted : forall p, exists t t',
  reachable any_op p 0 t /\ reachable any_op p 1 t' /\ t_get_gas addrA t = Ok 0 /\ t_get_gas addrA t' = Ok 5 /\
  exists root, t_summarize t = Ok root /\ t_summarize t' = Ok root.
Proof.
  intros p. exists fresh, (fst (step p fresh (OAddGas addrA 5))). split; [apply fresh_reachable|].
  split; [apply reach_call; [apply fresh_reachable|split; [repeat constructor|reflexivity]|exact I]|].
  split; [vm_compute; reflexivity|]. split; [vm_compute; reflexivity|].
  eexists. split; [vm_compute; reflexivity|vm_compute; reflexivity].
Qed.
(*@E
Example C50_ex : exists root, t_summarize funded = Ok root /\ merkle_root_of
  [sha256 (leaf_text addrA 1000000000 (Some (10 ^ 18))); sha256 (leaf_text ROOT_PUBLIC_ADDRESS COINS_PER_CYCLE None)] root.
Proof.
  eexists. split; [vm_compute; reflexivity|]. exists 2%nat. split; [split; [|right]; cbn; auto with arith|vm_compute; reflexivity].
Qed.
@*)

(*@T C51 *)
Lemma p_C51_epoch_rotation : forall ok p n t f g pow founder txs ts t' i root,
  reachable ok p n t -> few n ->
  is_array 32 pow -> is_array 33 founder -> Forall (is_array 32) txs -> u64_ok ts -> amounts t f -> gases t g ->
  t_emmit_new_main_block p pow founder txs ts t = (t', Ok (SummBlock i root)) ->
  t_summarize t = Ok root /\
  (forall w, sled_get w (t_old_summary t') = sled_get w (t_summary t) /\ sled_get w (t_old_gas t') = sled_get w (t_gas t)) /\
  (forall w, led_get w (t_old_summary t') = Ok (f w) /\ led_get w (t_old_gas t') = Ok (g w)) /\
  amounts t' (upd f ROOT_PUBLIC_ADDRESS COINS_PER_CYCLE) /\ gases t' g.
Proof.
  intros ok p n t f g pow founder txs ts t' i root Hr Hn Hpow Hf Ht Hts Ha Hg E.
  destruct (reachable_inv _ _ _ _ Hr Hn) as (L & HL & Hlen). unfold few in Hn.
  pose proof (emit_main_tree p t L _ _ _ _ _ _ HL ltac:(lia) Hpow Hf Ht Hts E) as (_ & _ & _ & _ & _ & _ & _ & [_ Hs] & ->).
  split; [exact Hs|]. split; [intros w; split; reflexivity|]. split; [intros w; split; [apply (Ha w)|apply (Hg w)]|].
  split; [|exact Hg]. intros w. unfold t_get_amount, led_get.
  change (t_summary _) with (sled_commit [(ROOT_PUBLIC_ADDRESS, led_encode COINS_PER_CYCLE)] (sled_flush (t_summary t))).
  rewrite sled_get_commit1. unfold upd. destruct (bytes_eqb w ROOT_PUBLIC_ADDRESS).
  - apply led_decode_encode. reflexivity.
  - apply (Ha w).
Qed.
(*@T C51, emissions that close no epoch leave the balances alone. *)
Lemma p_C51_no_rotation : forall ok p n t pow founder txs ts t' r, reachable ok p n t -> few n ->
  is_array 32 pow -> is_array 33 founder -> Forall (is_array 32) txs -> u64_ok ts ->
  t_emmit_new_main_block p pow founder txs ts t = (t', r) -> (forall i root, r <> Ok (SummBlock i root)) ->
  t_summary t' = t_summary t /\ t_gas t' = t_gas t /\ t_old_summary t' = t_old_summary t /\ t_old_gas t' = t_old_gas t.
Proof.
  intros ok p n t pow founder txs ts t' r Hr Hn Hpow Hf Ht Hts E Hk.
  destruct (reachable_inv _ _ _ _ Hr Hn) as (L & HL & Hlen). unfold few in Hn.
  pose proof (emit_main_tree p t L _ _ _ _ _ _ HL ltac:(lia) Hpow Hf Ht Hts E) as S.
  destruct r as [b|e| |]; try (rewrite S; repeat split; reflexivity).
  destruct S as (_ & _ & _ & _ & _ & _ & _ & _ & ->). destruct b; try (repeat split; reflexivity). exfalso. eapply Hk; reflexivity.
Qed.
(*@E
(* An epoch is closed: the emission of theorem C36_epoch_reached. *)
Example C51_ex : exists t pow founder ts t' i root, reachable main_kinds Debug (N.to_nat 999999) t /\
  t_emmit_new_main_block Debug pow founder [] ts t = (t', Ok (SummBlock i root)).
Proof.
  destruct (p_C36_epoch_reached Debug) as (t & pow & founder & ts & i & root & H & _ & _ & _ & _ & E & _).
  exists t, pow, founder, ts. destruct (t_emmit_new_main_block Debug pow founder [] ts t) as [t' r]. cbn [snd] in E. subst r.
  exists t', i, root. split; [exact H|reflexivity].
Qed.
@*)

(** ** C56 and C57: flush, close and open again *)

(*@T C56 *)
Lemma p_C56_reopen_main_chain : forall ok p n t, reachable ok p n t -> few n ->
  exists t', t_new (t_close (t_flush t)) = Ok t' /\
    mc_get_height (t_main t') = mc_get_height (t_main t) /\
    (forall i, mc_find_raw_by_height i (t_main t') = mc_find_raw_by_height i (t_main t)) /\
    (forall i, mc_find_by_height i (t_main t') = mc_find_by_height i (t_main t)) /\
    (forall h, mc_find_raw_by_hash h (t_main t') = mc_find_raw_by_hash h (t_main t)) /\
    (forall h, mc_find_by_hash h (t_main t') = mc_find_by_hash h (t_main t)) /\
    mc_get_last_raw_block (t_main t') = mc_get_last_raw_block (t_main t) /\
    mc_get_last_block (t_main t') = mc_get_last_block (t_main t) /\
    (forall h, mc_transaction_exists h (t_main t') = mc_transaction_exists h (t_main t)) /\
    (forall h, mc_get_transaction_raw h (t_main t') = mc_get_transaction_raw h (t_main t)) /\
    (forall h, mc_get_transaction h (t_main t') = mc_get_transaction h (t_main t)).
Proof.
  intros ok p n t Hr Hn. destruct (reachable_inv _ _ _ _ Hr Hn) as (L & HL & Hlen). unfold few in Hn.
  destruct (reopen_main t L HL ltac:(lia)) as (t' & E & _ & Hh & Hb & Hrf & Ht & _).
  exists t'. split; [exact E|]. split; [exact Hh|].
  assert (B : forall k, sled_get k (mc_blocks (t_main t')) = sled_get k (mc_blocks (t_main t))) by (intros k; rewrite Hb; reflexivity).
  assert (R : forall k, sled_get k (mc_refs (t_main t')) = sled_get k (mc_refs (t_main t))) by (intros k; rewrite Hrf; reflexivity).
  assert (T : forall k, sled_get k (mc_txs (t_main t')) = sled_get k (mc_txs (t_main t))) by (intros k; rewrite Ht; reflexivity).
  assert (F1 : forall i, mc_find_raw_by_height i (t_main t') = mc_find_raw_by_height i (t_main t)).
  { intros i. unfold mc_find_raw_by_height. rewrite Hh, B. reflexivity. }
  assert (F2 : forall h, mc_find_raw_by_hash h (t_main t') = mc_find_raw_by_hash h (t_main t)).
  { intros h. unfold mc_find_raw_by_hash. rewrite R. destruct (sled_get h (mc_refs (t_main t))) as [v|]; [|reflexivity]. rewrite F1. reflexivity. }
  assert (F3 : mc_get_last_raw_block (t_main t') = mc_get_last_raw_block (t_main t)).
  { unfold mc_get_last_raw_block. rewrite Hh. destruct (u256_sub _ _) as [i|e| |]; cbn [bind]; [rewrite F1|..]; reflexivity. }
  assert (F4 : forall h, mc_get_transaction_raw h (t_main t') = mc_get_transaction_raw h (t_main t)) by (intros h; apply T).
  split; [exact F1|]. split; [intros i; unfold mc_find_by_height; rewrite F1; reflexivity|].
  split; [exact F2|]. split; [intros h; unfold mc_find_by_hash; rewrite F2; reflexivity|].
  split; [exact F3|]. split; [unfold mc_get_last_block; rewrite F3; reflexivity|].
  split; [intros h; unfold mc_transaction_exists; try rewrite Ht; reflexivity|]. split; [exact F4|].
  intros h. unfold mc_get_transaction. rewrite ?F4, ?T. reflexivity.
Qed.
(*@E
(* The chain that is reopened has a block and a transaction. *)
Example C56_ex : let t := fst (step Debug (fst (step Debug funded (OAddTxs [demo_tx 5 (repeat 7 64)]))) emit_good) in
  mc_get_height (t_main t) = 2 /\ mc_transaction_exists (tx_hash (demo_tx 5 (repeat 7 64))) (t_main t) = true.
Proof. split; vm_compute; reflexivity. Qed.
@*)

(*@T C57, what holds: gas always survives; amounts survive except that the root account is set to
    COINS_PER_CYCLE when the chain has its genesis block only. *)
Lemma p_C57_reopen_balances_partial : forall ok p n t f g, reachable ok p n t -> few n -> amounts t f -> gases t g ->
  exists t', t_new (t_close (t_flush t)) = Ok t' /\ gases t' g /\
    amounts t' (if mc_get_height (t_main t) =? 1 then upd f ROOT_PUBLIC_ADDRESS COINS_PER_CYCLE else f) /\
    (forall w, led_get w (t_old_summary t') = led_get w (t_old_summary t) /\ led_get w (t_old_gas t') = led_get w (t_old_gas t)).
Proof.
  intros ok p n t f g Hr Hn Ha Hg. destruct (reachable_inv _ _ _ _ Hr Hn) as (L & HL & Hlen). unfold few in Hn.
  destruct (reopen_main t L HL ltac:(lia)) as (t' & E & _ & Hh & _ & _ & _ & Hs & Hos & Hgs & Hog & _).
  exists t'. split; [exact E|]. split; [intros w; unfold t_get_gas; rewrite Hgs; apply (Hg w)|]. split.
  - unfold mc_get_height. intros w. unfold t_get_amount. rewrite Hs. destruct (mc_height (t_main t) =? 1); [|apply (Ha w)].
    unfold led_get. rewrite sled_get_commit1. unfold upd. destruct (bytes_eqb w ROOT_PUBLIC_ADDRESS); [apply led_decode_encode; reflexivity|apply (Ha w)].
  - intros w. rewrite Hos, Hog. split; reflexivity.
Qed.
(*@T C57 is false of the code: coins the root account has spent before the first block come back. *)
Lemma p_C57_reopen_root_refuted : forall p, exists t t', reachable any_op p 1 t /\
  t_new (t_close (t_flush t)) = Ok t' /\
  t_get_amount ROOT_PUBLIC_ADDRESS t = Ok 0 /\ t_get_amount ROOT_PUBLIC_ADDRESS t' = Ok COINS_PER_CYCLE /\
  t_get_amount addrA t = Ok COINS_PER_CYCLE /\ t_get_amount addrA t' = Ok COINS_PER_CYCLE.
Proof.
  intros p. exists (fst (step p fresh (OSendAmount ROOT_PUBLIC_ADDRESS addrA COINS_PER_CYCLE))). eexists.
  split; [apply reach_call; [apply fresh_reachable|split; [|split]; [repeat constructor|repeat constructor|reflexivity]|exact I]|].
  split; [vm_compute; reflexivity|]. split; [vm_compute; reflexivity|]. split; [vm_compute; reflexivity|]. split; vm_compute; reflexivity.
Qed.
(*@E
Example C57_ex : exists t', t_new (t_close (t_flush funded)) = Ok t' /\ t_get_amount addrA t' = Ok 1000000000 /\ t_get_gas addrA t' = Ok (10 ^ 18).
Proof. eexists. split; [vm_compute; reflexivity|]. split; vm_compute; reflexivity. Qed.
@*)
