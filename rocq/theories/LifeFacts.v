(** Facts about histories with faults, crashes and failing openings. *)
From Coq Require Import Lia ZifyBool ZifyNat ZifyN.
From Verif Require Import Base Sha256 Merkle Tools Transaction Block Sled Chain Tree Spec Reach QuietSpec Conc ConcTree ConcFlush ConcEmit Cancel ConcDeriv CrashSpec Io IoSpec LifeSpec.
From Verif Require Import BaseFacts ToolsFacts MerkleFacts DiffFacts CodecFacts SledFacts ChainFacts TreeFacts LedgerFacts CrashFacts ConcFacts EmitFacts IoFacts DcrashProps.

Local Strategy 1000 [u256_mul u256_add u256_sub BYTE_GAS_PRICE t_get_amount t_get_gas mc_decode dc_decode recalculate_fee recalculate_difficulty t_send_amount t_sub_gas sled_get check_pow emit_block next_info dc_new mc_read_config genesis_block].

(** ** Databases and files of which any part may survive *)
Definition alw (P : smap -> Prop) (s : sled) : Prop := sled_log s /\ forall n, P (cur (sled_crash n s)).
Lemma alw_cur P s : alw P s -> P (cur s).
Proof. intros [L H]. specialize (H (length (pend s))). unfold sled_crash in H. cbn [cur] in H. rewrite firstn_all, <- L in H. exact H. Qed.
Lemma alw_commit P b s : alw P s -> P (apply_batch (cur s) b) -> alw P (sled_commit b s).
Proof.
  intros [L H] Hb. split; [apply log_commit, L|]. intros n. destruct (Nat.le_gt_cases n (length (pend s))) as [Hn|Hn].
  - unfold sled_crash, sled_commit. cbn [pend dur cur]. rewrite firstn_app. replace (n - length (pend s))%nat with 0%nat by lia. cbn [firstn]. rewrite app_nil_r. apply H.
  - unfold sled_crash. cbn [cur]. rewrite firstn_all2; [|cbn [sled_commit pend]; rewrite app_length; cbn [length]; lia]. cbn [sled_commit pend dur]. rewrite fold_left_app, <- L. exact Hb.
Qed.
Lemma alw_insert P k v s : alw P s -> P (sm_insert k v (cur s)) -> alw P (sled_insert k v s).
Proof. intros A H. apply alw_commit; assumption. Qed.
Lemma alw_flat (P : smap -> Prop) x : P x -> alw P (MkSled x x []).
Proof. intros H. split; [reflexivity|]. intros n. unfold sled_crash. cbn [pend dur cur]. rewrite firstn_nil. exact H. Qed.
Lemma alw_flush P s : alw P s -> alw P (sled_flush s).
Proof. intros A. apply alw_flat, (alw_cur _ _ A). Qed.
Lemma alw_crash P n s : alw P s -> alw P (sled_crash n s).
Proof. intros [_ A]. apply alw_flat, (A n). Qed.
Lemma alw_impl (P P' : smap -> Prop) s : (forall x, P x -> P' x) -> alw P s -> alw P' s.
Proof. intros H [L A]. split; [exact L|]. intros n. apply H, A. Qed.

Definition fcand (C : option bytes -> Prop) (f : file) : Prop := C (f_dur f) /\ Forall C (f_pend f).
Lemma last_in {A} (C : A -> Prop) l d : C d -> Forall C l -> C (last l d).
Proof. intros Hd H. induction H as [|x l Hx Hl IH]; [exact Hd|]. destruct l; [exact Hx|]. exact IH. Qed.
Lemma firstn_in {A} (C : A -> Prop) n l : Forall C l -> Forall C (firstn n l).
Proof. intros H. rewrite <- (firstn_skipn n l) in H. apply Forall_app in H. apply H. Qed.
Lemma fc_cur (C : option bytes -> Prop) f : fcand C f -> C (file_cur f).
Proof. intros [H1 H2]. exact (last_in C _ _ H1 H2). Qed.
Lemma fc_settle (C : option bytes -> Prop) f : fcand C f -> fcand C (file_settle f).
Proof. intros H. split; [exact (fc_cur C f H)|constructor]. Qed.
Lemma fc_crash (C : option bytes -> Prop) n f : fcand C f -> fcand C (file_crash n f).
Proof. intros [H1 H2]. split; [|constructor]. exact (last_in C _ _ H1 (firstn_in C n _ H2)). Qed.
Lemma fc_add (C : option bytes -> Prop) f x : fcand C f -> C x -> fcand C (MkFile (f_dur f) (f_pend f ++ [x])).
Proof. intros [H1 H2] Hx. split; [exact H1|]. cbn [f_pend]. apply Forall_app. split; [exact H2|repeat constructor; exact Hx]. Qed.
Lemma fc_truncate (C : option bytes -> Prop) f : fcand C f -> C (Some []) -> fcand C (file_truncate f).
Proof. apply fc_add. Qed.
Lemma fc_append (C : option bytes -> Prop) d f x : fcand C f -> file_cur f = Some x -> C (Some (x ++ d)) -> fcand C (file_append d f).
Proof. intros H E Hx. unfold file_append. rewrite E. apply fc_add; assumption. Qed.

(** ** Calls that keep a property of the main chain *)
Section Gen.
Variable M : main_chain -> Prop.
Let I (h : host) : Prop := M (t_main (h_tree h)).
Lemma g_same h t : I h -> t_main t = t_main (h_tree h) -> I (with_host h t).
Proof. unfold I. intros H E. cbn [with_host h_tree]. rewrite E. exact H. Qed.
Lemma g_tree {A} (e : out A) f : (forall t, t_main (fst (f t)) = t_main t) -> stays I (tree_op e f).
Proof. intros H. apply s_op. intros s A1. apply g_same; [exact A1|]. apply H. Qed.
Lemma g_mop e f : (forall m, M m -> M (f m)) -> stays I (main_op e f).
Proof. intros H. apply s_op. intros s A. apply H, A. Qed.
Lemma g_dwrite b w d : stays I (write_dcfg_io b w d).
Proof. intros fs s A. unfold write_dcfg_io. destruct (next_fault fs); cbn [fst snd]; (apply g_same; [exact A|reflexivity]). Qed.
Lemma g_find e i : stays I (find_raw_io e i). Proof. unfold find_raw_io. stay. Qed.
Lemma g_last : stays I last_block_io. Proof. unfold last_block_io. stay. apply g_find. Qed.
Lemma g_byhash x : stays I (find_by_hash_io x). Proof. unfold find_by_hash_io. stay. apply g_find. Qed.
Lemma g_dnew d g : stays I (deriv_new_io d g). Proof. unfold deriv_new_io. stay. Qed.
Lemma g_gderiv w : stays I (get_deriv_io w).
Proof. unfold get_deriv_io. stay; first [apply g_last|apply g_dnew|apply g_same; [assumption|reflexivity]]. Qed.
Lemma g_dlast w : stays I (deriv_last_io w). Proof. unfold deriv_last_io. stay. Qed.
Lemma g_dop e w f : stays I (deriv_op e w f). Proof. apply g_tree. reflexivity. Qed.
Lemma g_dadd w i : stays I (deriv_add_io w i).
Proof. unfold deriv_add_io, deriv_put. stay; first [apply g_dop|apply g_same; [assumption|reflexivity]]. Qed.
Lemma g_dflush w : stays I (deriv_flush_io w). Proof. unfold deriv_flush_io. stay; first [apply g_dop|apply g_dwrite]. Qed.
Lemma g_demit p w f ts : stays I (emit_deriv_io p w f ts).
Proof. unfold emit_deriv_io. stay; first [apply g_gderiv|apply g_dlast|apply g_byhash|apply g_dadd]. Qed.
Lemma g_ledger f : (forall t, t_main (fst (f t)) = t_main t) -> stays I (ledger_io f). Proof. apply g_tree. Qed.
Lemma g_send a b x : stays I (send_amount_io a b x).
Proof. unfold send_amount_io. destruct (bytes_eqb a b); [apply s_out|]. apply g_ledger. intros t. apply on_summary_main. Qed.

Variable Ftx : forall tx m, M m -> M (mc_add_transaction tx m).
Lemma g_tx tx : stays I (add_tx_io tx). Proof. apply g_mop, Ftx. Qed.
Lemma g_txs txs : stays I (add_txs_io txs). Proof. induction txs; cbn [add_txs_io]; stay; apply g_tx. Qed.
Lemma g_sendtx tx : stays I (send_tx_io tx).
Proof. unfold send_tx_io, get_gas_io, get_amount_io. stay; first [apply g_tx|apply g_last|apply g_send|apply g_ledger; intros t; apply on_gas_main|apply g_tree; reflexivity]. Qed.

Variable Fflush : stays I main_flush_io.
Lemma g_flush : stays I flush_io. Proof. unfold flush_io, flush_op. stay; first [exact Fflush|apply g_tree; reflexivity]. Qed.
Lemma g_rotate : stays I rotate_io.
Proof.
  unfold rotate_io, remove_dir_io, create_dir_io. stay; try apply g_flush; try (apply g_same; [assumption|reflexivity]); match goal with |- context [if ?c then _ else _] => destruct c end; assumption.
Qed.

Variable Fadd : forall b, block_wf b -> stays I (add_block_io b).
Variable Femit : forall p w f txs ts, is_array 32 w -> is_array 33 f -> Forall (is_array 32) txs -> u64_ok ts -> stays I (emit_main_io p w f txs ts).
Lemma g_step p o : op_wf o -> stays I (io_step p o).
Proof.
  intros Ho. destruct o; cbn [io_step];
    try (first [apply w_unit|apply w_block|idtac];
    first [apply g_send|apply g_sendtx|apply g_demit|apply g_txs|apply g_flush|exact Fflush|solve [apply g_ledger; intros t; first [apply on_summary_main|apply on_gas_main]]|idtac]).
  - destruct Ho as (H1 & H2 & H3 & H4). apply Femit; assumption.
  - stay. apply g_gderiv.
  - destruct Ho as [H1 _]. unfold add_new_block_io. stay; first [apply Fadd, H1|apply g_txs].
  - intros fs s A. destruct (assoc_get _ _); [|exact A]. apply (w_unit _ _ (g_dadd owner i)). exact A.
  - intros fs s A. destruct (assoc_get _ _); [|exact A]. apply (w_unit _ _ (g_dflush owner)). exact A.
Qed.
End Gen.

(** ** The state an opening leaves *)
(** The rest of an opening once the config file was opened. *)
Definition new_rest : io disk bct :=
  do! d := io_get in
  do! (h, df) := match file_cur (md_cfg (k_main d)) with
                 | Some _ => do! _ := io_read (Err EChainInit) (fun _ => tt) in io_out (mc_read_config (md_cfg (k_main d)))
                 | _ => io_out (Ok (0, BEGINNING_DIFFICULTY))
                 end in
  do! h' := (if h =? 0 then
               do! g := io_out genesis_block in
               do! _ := disk_op (Err EChainInit) (disk_main (disk_blocks (sled_insert (height_key 0) (block_dump g)))) in
               do! _ := disk_op (Err EChainInit) (disk_main (disk_refs (sled_insert (sha256 (block_dump g)) (height_key 0)))) in
               io_out (Ok 1)
             else io_out (Ok h)) in
  do! _ := (if h' =? 1 then disk_op Panic (disk_summary (sled_commit [(ROOT_PUBLIC_ADDRESS, led_encode COINS_PER_CYCLE)]))
            else io_out (Ok tt)) in
  do! d := io_get in
  let m := k_main d in
  io_out (Ok (MkTree0 (MkMain (md_blocks m) (md_refs m) (md_txs m) h' df (md_cfg m)) [] (k_summary d) (k_old_summary d)
                (k_gas d) (k_old_gas d) (k_derivs d))).
Lemma opens_cases n e : forall fs s, (exists fs', opens n e fs s = (fs', s, Err e)) \/ opens n e fs s = (skipn n fs, s, Ok tt).
Proof.
  induction n as [|n IH]; intros fs s; cbn [opens]; [right; reflexivity|]. unfold io_bind, io_read, io_op, next_fault.
  destruct fs as [|[|k] fs]; cbn [tl fst snd].
  - destruct (IH [] s) as [IH'|IH']; [left; exact IH'|right]. rewrite IH', skipn_nil. reflexivity.
  - exact (IH fs s).
  - left. destruct k; eexists; reflexivity.
Qed.
Lemma new_after fs d : config_opens fs -> io_after t_new_io fs d = d \/ exists fs', io_after t_new_io fs d = io_after new_rest fs' d.
Proof.
  unfold config_opens, io_after. intros Hc. unfold t_new_io.
  destruct (opens_cases 4 ETreeInit fs d) as [(f1 & E1)|E1]; rewrite (bind_out _ _ _ _ _ _ _ E1); [left; reflexivity|].
  destruct (opens_cases 3 EChainInit (skipn 4 fs) d) as [(f2 & E2)|E2]; rewrite (bind_out _ _ _ _ _ _ _ E2); [left; reflexivity|].
  assert (Et : io_try (skipn 3 (skipn 4 fs)) d = (tl (skipn 3 (skipn 4 fs)), d, Ok true)).
  { unfold io_try. replace (next_fault (skipn 3 (skipn 4 fs))) with Fine; [reflexivity|]. rewrite <- Hc. clear. do 8 (destruct fs as [|? fs]; [reflexivity|]). reflexivity. }
  rewrite (bind_out _ _ _ _ _ _ _ Et). right. exists (tl (skipn 3 (skipn 4 fs))). generalize (tl (skipn 3 (skipn 4 fs))). intros f. unfold new_rest. rewrite !(bind_out io_get _ f d f d (Ok d) eq_refl). cbv iota beta.
  destruct (file_cur (md_cfg (k_main d))); reflexivity.
Qed.

(** ** Blocks and transactions that stay *)
Definition low (H : N) (c : option bytes) : Prop :=
  match c with
  | None => H = 0
  | Some x => (length x < 64)%nat \/ exists k d, N.max H 1 <= k < 2 ^ 256 /\ length d = 32%nat /\ x = height_key k ++ d
  end.
Definition stored (k v : bytes) : Prop :=
  exists i b, i < 2 ^ 256 /\ k = height_key i /\ v = block_dump b /\ block_wf b /\ bi_height (get_info b) = i /\ (i = 0 -> b = genesis).
Definition entries (x : smap) : Prop := forall k v, sm_get k x = Some v -> stored k v.
Record keeps (P Q : smap -> Prop) (H : N) (m : main_chain) : Prop := {
  kp_blocks : alw P (mc_blocks m);
  kp_txs : alw Q (mc_txs m);
  kp_low : N.max H 1 <= mc_height m < 2 ^ 256;
  kp_len : length (mc_difficulty m) = 32%nat;
  kp_cfg : fcand (low H) (mc_cfg m)
}.
Record dkeeps (P Q : smap -> Prop) (H : N) (d : main_disk) : Prop := {
  dk_blocks : alw P (md_blocks d);
  dk_txs : alw Q (md_txs d);
  dk_cfg : fcand (low H) (md_cfg d)
}.
Lemma stored_decode k v x : stored k v -> mc_decode (Some v) = Ok (Some x) -> block_wf x /\ k = height_key (bi_height (get_info x)) /\ v = block_dump x.
Proof.
  intros (i & b & Hi & -> & -> & Hb & Hh & Hg) E. destruct (N.eq_dec i 0) as [->|Hne].
  - rewrite (Hg eq_refl) in *. rewrite readable_decode in E by apply genesis_readable. apply ok_inv in E. injection E as <-. rewrite Hh. auto.
  - apply stored_dump in E; [|exact Hb|lia]. subst x. rewrite Hh. auto.
Qed.

Section Keep.
Variables (P Q : smap -> Prop) (H : N).
Hypothesis HPe : forall x, P x -> entries x.
Hypothesis HPi : forall x h b, P x -> N.max H 1 <= h < 2 ^ 256 -> block_wf b -> bi_height (get_info b) = h -> P (sm_insert (height_key h) (block_dump b) x).
Hypothesis HPg : H = 0 -> forall x, P x -> P (sm_insert (height_key 0) (block_dump genesis) x).
Hypothesis HQ : forall tx x, Q x -> Q (sm_insert (sha256 (tx_dump tx)) (tx_dump tx) x).
Notation K := (keeps P Q H).
Let I (h : host) : Prop := K (t_main (h_tree h)).

Lemma kp_tx tx m : K m -> K (mc_add_transaction tx m).
Proof. intros [A B C D E]. split; try assumption. cbn [mc_add_transaction mc_txs]. apply alw_insert; [exact B|]. apply HQ, (alw_cur _ _ B). Qed.
Lemma kp_put_block b m : K m -> block_wf b -> bi_height (get_info b) = mc_height m -> K (put_block b m).
Proof. intros [A B C D E] Hb Hh. split; try assumption. cbn [put_block mc_blocks]. apply alw_insert; [exact A|]. apply HPi; try assumption. exact (alw_cur _ _ A). Qed.
Lemma kp_put_ref b m : K m -> K (put_ref b m). Proof. intros [A B C D E]. split; assumption. Qed.
Lemma kp_put_height h m : K m -> mc_height m <= h < 2 ^ 256 -> K (put_height h m).
Proof. intros [A B C D E] Hh. split; try assumption. cbn [put_height mc_height]. lia. Qed.
Lemma kp_with_cfg f m : K m -> fcand (low H) f -> K (with_cfg f m). Proof. intros [A B C D E] Hf. split; assumption. Qed.

Lemma kp_add b : block_wf b -> stays I (add_block_io b).
Proof.
  intros Hb. unfold add_block_io, stays. eapply h_bind with (R := fun r h => I h /\ match r with Ok m => mc_height (t_main (h_tree h)) = mc_height m | _ => False end);
    [apply h_mget; auto|intros s; split; [intros ? [_ []]|split; intros [_ []]]|].
  intros m. destruct (N.eqb_spec (bi_height (get_info b)) (mc_height m)) as [Hh|Hh]; cbn [negb]; [|apply h_out; intros s [A _]; exact A].
  eapply h_bind with (R := fun _ h => I h /\ mc_height (t_main (h_tree h)) = mc_height m); [|intros s; split; [|split]; intros; tauto|].
  { apply h_op. intros s [A E]. assert (A' : I (fst (lift_tree (fun t => (with_main t (put_block b (t_main t)), Ok tt)) s))) by (apply kp_put_block; [exact A|exact Hb|congruence]). auto 6. }
  intros _. eapply h_bind with (R := fun _ h => I h /\ mc_height (t_main (h_tree h)) = mc_height m); [|intros s; split; [|split]; intros; tauto|].
  { apply h_op. intros s [A E]. assert (A' : I (fst (lift_tree (fun t => (with_main t (put_ref b (t_main t)), Ok tt)) s))) by (apply kp_put_ref, A). auto 6. }
  intros _. eapply h_bind with (R := fun r h => I h /\ mc_height (t_main (h_tree h)) = mc_height m /\ r = u256_add (mc_height m) 1); [apply h_out; intros s [A1 A2]; auto|intros s; split; [|split]; intros; tauto|].
  intros h. apply h_put. intros s (A & E & Eh). unfold u256_add in Eh. destruct (N.ltb_spec (mc_height m + 1) (2 ^ 256)); [|discriminate]. apply ok_inv in Eh. subst h.
  apply kp_put_height; [exact A|]. lia.
Qed.
Lemma kp_flush : stays I main_flush_io.
Proof.
  unfold main_flush_io, stays. eapply h_bind with (R := fun r h => I h /\ match r with Ok m => N.max H 1 <= mc_height m < 2 ^ 256 /\ length (mc_difficulty m) = 32%nat | _ => False end);
    [apply h_mget; intros s A; split; [exact A|split; apply A]|intros s; split; [intros ? [_ []]|split; intros [_ []]]|].
  intros m. apply h_pure. intros [Em Ed].
  set (J := fun c h => I h /\ file_cur (mc_cfg (t_main (h_tree h))) = Some c).
  assert (Jput : forall f c h, I h -> fcand (low H) f -> file_cur f = Some c -> J c (with_host h (with_main (h_tree h) (with_cfg f (t_main (h_tree h)))))).
  { intros f c h A F E. split; [|exact E]. apply kp_with_cfg; assumption. }
  eapply h_bind with (R := fun r h => match r with Ok _ => J [] h | _ => I h end); [|intros s; split; [|split]; auto|].
  { apply h_op. intros s A. assert (W : J [] (fst (lift_tree (fun t => (with_main t (with_cfg (file_truncate (mc_cfg (t_main t))) (t_main t)), Ok tt)) s))); [|split; [exact A|split; [apply W|exact W]]].
    apply Jput; [exact A|apply fc_truncate; [apply A|left; cbn [length]; lia]|apply file_cur_truncate]. }
  intros _. eapply h_bind with (R := fun r h => match r with Ok _ => J (height_key (mc_height m)) h | _ => I h end); [|intros s; split; [|split]; auto|].
  { intros fs s [A E]. unfold write_cfg_io. destruct (next_fault fs) as [|n]; cbn [fst snd]; cbv zeta.
    - apply Jput; [exact A|eapply fc_append; [apply A|exact E|left; cbn [app]; rewrite height_key_length; lia]|rewrite file_cur_append, E; reflexivity].
    - eapply Jput; [exact A|eapply fc_append; [apply A|exact E|left; cbn [app]; rewrite firstn_length, height_key_length; lia]|rewrite file_cur_append, E; reflexivity]. }
  intros _. eapply h_bind with (R := fun _ => I); [|intros s; split; [|split]; auto|].
  { intros fs s [A E]. unfold write_cfg_io. destruct (next_fault fs) as [|n]; cbn [fst snd]; cbv zeta.
    - eapply Jput; [exact A|eapply fc_append; [apply A|exact E|right; exists (mc_height m), (mc_difficulty m); auto]|rewrite file_cur_append, E; reflexivity].
    - eapply Jput; [exact A|eapply fc_append; [apply A|exact E|]|rewrite file_cur_append, E; reflexivity]. destruct (Nat.leb_spec 32 n).
      + right. exists (mc_height m), (mc_difficulty m). rewrite firstn_all2 by lia. auto.
      + left. rewrite app_length, firstn_length, height_key_length. lia. }
  intros _. change (stays I (do! _ := main_op EChainDumpConfig mc_flush_blocks in do! _ := main_op EChainDumpConfig mc_flush_refs in main_op EChainDumpConfig mc_flush_txs)).
  stay; apply g_mop; intros m' [A B C D E]; split; try assumption; apply alw_flush; assumption.
Qed.
Lemma kp_read e i : i < 2 ^ 256 ->
  hoare I (find_raw_io e i) (fun r h => I h /\ match r with Ok (Some v) => stored (height_key i) v | _ => True end).
Proof.
  intros Hi. unfold find_raw_io. eapply h_bind with (R := fun r h => I h); [apply h_mget; auto|auto|].
  intros m. destruct (mc_height m <? i); [apply h_out; auto|]. apply h_read. intros s A. split; [auto|]. split; [exact A|].
  destruct (sled_get _ _) as [v|] eqn:E; [|exact Logic.I]. exact (HPe _ (alw_cur _ _ (kp_blocks _ _ _ _ A)) _ _ E).
Qed.
Lemma kp_emit p w f txs ts : is_array 32 w -> is_array 33 f -> Forall (is_array 32) txs -> u64_ok ts -> stays I (emit_main_io p w f txs ts).
Proof.
  intros Hw Hf Ht Hts. unfold emit_main_io, stays. eapply h_bind with (R := fun r h => I h /\ match r with Ok m => mc_height m < 2 ^ 256 | _ => True end);
    [apply h_mget; intros s A; split; [exact A|apply A]|intros s; split; [|split]; intros; tauto|].
  intros m. apply h_pure. intros Hm.
  eapply h_bind with (R := fun r h => I h /\ match r with Ok i => i < 2 ^ 256 | _ => True end);
    [apply h_out; intros s A; split; [exact A|]; unfold u256_sub; destruct (1 <=? mc_height m); [lia|exact Logic.I]|intros s; split; [|split]; intros; tauto|].
  intros i. apply h_pure. intros Hi. eapply h_bind; [apply kp_read, Hi|intros s; split; [|split]; intros; tauto|].
  intros d. apply h_pure. intros Hd. eapply h_bind with (R := fun _ => I); [apply h_get; auto|auto|].
  intros n. eapply h_bind with (R := fun r h => I h /\ match r with Ok b => block_wf b | _ => True end); [|intros s; split; [|split]; intros; tauto|].
  - apply h_out. intros s A. split; [exact A|]. destruct (emit_block _ _ _ _ _ _ _) as [b|e| |] eqn:E; try exact Logic.I.
    apply (emit_block_spec _ _ _ _ _ _ _ _ i) in E; try assumption; [apply E|]. intros lb El. destruct d as [v|]; [|discriminate El].
    destruct (stored_decode _ _ _ Hd El) as (B1 & B2 & _). split; [exact B1|]. symmetry. apply height_key_inj; [exact Hi| |exact B2]. apply block_info_wf in B1. apply B1.
  - intros b. apply h_pure. intros Hb. eapply h_bind with (R := fun _ => I); [|auto|].
    + change (stays I (match b with SummBlock _ _ => do! _ := io_read (Err ETreeGetFunds) (fun _ => tt) in do! _ := rotate_io in ledger_io (t_set_amount ROOT_PUBLIC_ADDRESS COINS_PER_CYCLE) | _ => io_out (Ok tt) end)).
      stay; first [apply g_rotate; exact kp_flush|apply g_ledger; reflexivity].
    + intros _. apply s_bind; [apply kp_add, Hb|]. intros. apply s_out.
Qed.
Lemma kp_step p o : op_wf o -> stays I (io_step p o).
Proof. apply g_step; [exact kp_tx|exact kp_flush|exact kp_add|exact kp_emit]. Qed.

Lemma kp_close m : K m -> dkeeps P Q H (mc_close m).
Proof. intros [A B C D E]. split; cbn [mc_close md_blocks md_txs md_cfg]; [apply alw_flush, A|apply alw_flush, B|apply fc_settle, E]. Qed.
Lemma kp_crash s m : K m -> dkeeps P Q H (mc_crash s m).
Proof. intros [A B C D E]. split; cbn [mc_crash md_blocks md_txs md_cfg]; [apply alw_crash, A|apply alw_crash, B|apply fc_crash, E]. Qed.
Lemma low_read c h d : low H (file_cur c) -> mc_read_config c = Ok (h, d) ->
  length d = 32%nat /\ ((H = 0 /\ h = 0) \/ N.max H 1 <= h < 2 ^ 256).
Proof.
  intros Hl E. unfold mc_read_config in E. destruct (file_cur c) as [x|]; cbn [low] in Hl.
  - destruct Hl as [Hl|(k & df & Hk & Hd & ->)].
    + exfalso. cbn [read_fields] in E. destruct (Nat.ltb_spec (length x) 32); [discriminate E|]. rewrite skipn_length in E. destruct (Nat.ltb_spec (length x - 32) 32); [discriminate E|lia].
    + replace (height_key k ++ df) with (concat [height_key k; df]) in E by (cbn [concat]; rewrite app_nil_r; reflexivity).
      rewrite read_fields_concat in E by first [reflexivity | constructor; [apply height_key_length|constructor; [exact Hd|constructor]]].
      cbn [bind index nth_error] in E. rewrite from_height_key in E by lia. apply ok_inv in E. injection E as -> ->. auto.
  - apply ok_inv in E. injection E as <- <-. split; [reflexivity|]. left. auto.
Qed.
Lemma kp_new d t : dkeeps P Q H (k_main d) -> t_new d = Ok t -> K (t_main t).
Proof.
  intros [A B C] E. apply t_new_main in E. unfold mc_new in E. destruct (mc_read_config _) as [[h df]|e| |] eqn:Er; cbn [bind] in E; try discriminate E.
  destruct (low_read _ _ _ (fc_cur _ _ C) Er) as [Hd Hh]. destruct (N.eqb_spec h 0) as [->|Hne].
  - rewrite genesis_eq in E. cbn [bind] in E. rewrite mc_add_block_right in E by reflexivity. cbn [change_context bind] in E. apply ok_inv in E. rewrite <- E.
    split; cbn [mc_appended mc_blocks mc_txs mc_height mc_difficulty mc_cfg]; try assumption; [apply alw_insert; [exact A|apply HPg; [destruct Hh; lia|exact (alw_cur _ _ A)]]|lia].
  - apply ok_inv in E. rewrite <- E. split; cbn [mc_blocks mc_txs mc_height mc_difficulty mc_cfg]; try assumption. lia.
Qed.
Lemma kp_open fs d : config_opens fs -> dkeeps P Q H (k_main d) -> dkeeps P Q H (k_main (io_after t_new_io fs d)).
Proof.
  intros Hc Hd. destruct (new_after fs d Hc) as [->|(fs' & ->)]; [exact Hd|]. revert Hd.
  set (J := fun d => dkeeps P Q H (k_main d)). change (J d -> J (io_after new_rest fs' d)). unfold io_after. revert fs' d. change (stays J new_rest).
  unfold new_rest, stays. eapply h_bind with (R := fun r d => J d /\ r = Ok d); [apply h_get; auto|intros s; split; [|split]; intros; tauto|].
  intros d. apply h_when. intros d' [Jd Ed]. apply ok_inv in Ed. subst d'.
  eapply h_bind with (R := fun r d => J d /\ match r with Ok (h, df) => H = 0 \/ h <> 0 | _ => True end); [|intros s; split; [|split]; intros; tauto|].
  { assert (Hr : forall fs s, J s -> J (snd (fst (io_out (St := disk) (mc_read_config (md_cfg (k_main d))) fs s))) /\
      match snd (io_out (St := disk) (mc_read_config (md_cfg (k_main d))) fs s) with Ok (h, df) => H = 0 \/ h <> 0 | _ => True end).
    { intros fs0 s A. split; [exact A|]. cbn [io_out snd]. destruct (mc_read_config _) as [[h df]|e| |] eqn:E; try exact Logic.I.
      destruct (low_read _ _ _ (fc_cur _ _ (dk_cfg _ _ _ _ Jd)) E) as [_ [[E0 _]|E1]]; [left; exact E0|right; lia]. }
    destruct (file_cur (md_cfg (k_main d))) as [x|] eqn:Ex.
    - eapply h_bind with (R := fun _ => J); [apply h_read; intros s [A _]; auto|intros s; split; [|split]; auto|]. intros u fs0 s A. apply Hr, A.
    - apply h_out. intros s [A _]. split; [exact A|]. left. pose proof (fc_cur _ _ (dk_cfg _ _ _ _ Jd)) as Hl. rewrite Ex in Hl. exact Hl. }
  intros [h df]. apply h_pure. intros Hh. eapply h_bind with (R := fun _ => J); [|auto|].
  - destruct (N.eqb_spec h 0) as [->|Hne]; [|apply h_out; auto]. assert (H0 : H = 0) by (destruct Hh; [assumption|lia]).
    rewrite genesis_eq. eapply h_bind with (R := fun r s => J s /\ match r with Ok g => g = genesis | _ => True end); [apply h_out; auto|intros s; split; [|split]; intros; tauto|].
    intros g. apply h_pure. intros ->.
    change (stays J (do! _ := disk_op (Err EChainInit) (disk_main (disk_blocks (sled_insert (height_key 0) (block_dump genesis)))) in
      do! _ := disk_op (Err EChainInit) (disk_main (disk_refs (sled_insert (sha256 (block_dump genesis)) (height_key 0)))) in io_out (Ok 1))).
    unfold disk_op. stay.
    + destruct H1 as [A B C]. split; cbn [fst disk_main disk_blocks k_main md_blocks md_txs md_cfg]; try assumption. apply alw_insert; [exact A|]. apply HPg; [exact H0|exact (alw_cur _ _ A)].
    + destruct H1 as [A B C]. split; assumption.
  - intros h'. change (stays J (do! _ := (if h' =? 1 then disk_op Panic (disk_summary (sled_commit [(ROOT_PUBLIC_ADDRESS, led_encode COINS_PER_CYCLE)])) else io_out (Ok tt)) in
      do! d := io_get in
      let m := k_main d in
      io_out (Ok (MkTree0 (MkMain (md_blocks m) (md_refs m) (md_txs m) h' df (md_cfg m)) [] (k_summary d) (k_old_summary d) (k_gas d) (k_old_gas d) (k_derivs d))))).
    unfold disk_op. stay.
Qed.
Lemma kp_settle d : dkeeps P Q H (k_main d) -> dkeeps P Q H (k_main (disk_settle d)).
Proof. intros [A B C]. split; cbn [disk_settle k_main md_blocks md_txs md_cfg]; [apply alw_flush, A|apply alw_flush, B|exact C]. Qed.
Lemma kp_dcrash s d : dkeeps P Q H (k_main d) -> dkeeps P Q H (k_main (disk_crash s d)).
Proof. intros [A B C]. split; cbn [disk_crash k_main md_blocks md_txs md_cfg]; [apply alw_crash, A|apply alw_crash, B|exact C]. Qed.

Definition mkeeps (a : machine) : Prop := match a with Up h => K (t_main (h_tree h)) | Down d => dkeeps P Q H (k_main d) end.
Lemma kp_life ok p a n b : life ok p a n b -> mkeeps a -> mkeeps b.
Proof.
  intros L A. induction L as [|n h o fs L IH Ho Hok|n h L IH|n h s L IH|n d fs t L IH Hc E|n d fs L IH Hc E|n d fs s L IH Hc]; cbn [mkeeps] in *.
  - exact A.
  - exact (kp_step p o Ho fs h IH).
  - apply kp_close, IH.
  - apply kp_crash, IH.
  - apply (kp_new d); [exact IH|]. exact (new_ok _ _ _ Hc E).
  - apply kp_settle, kp_open; assumption.
  - apply kp_dcrash, kp_open; assumption.
Qed.
End Keep.
