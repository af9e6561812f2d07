(** Flushes during which I/O operations fail, and openings after them. *)
From Coq Require Import Lia ZifyBool ZifyNat ZifyN.
From Verif Require Import Base Sha256 Merkle Tools Transaction Block Sled Chain Tree Spec Reach LedgerSpec CrashSpec QuietSpec Conc ConcTree ConcFlush ConcEmit Cancel ConcDeriv Io IoSpec Demo.
From Verif Require Import BaseFacts ToolsFacts MerkleFacts DiffFacts CodecFacts SledFacts ChainFacts TreeFacts LedgerFacts CrashFacts CrashProps ConcFacts EmitFacts LedgerProps QuietProps IoFacts IoSure IoProps IoRetryProps IoMoneyProps.

Local Strategy 1000 [u256_mul u256_add u256_sub BYTE_GAS_PRICE t_get_amount t_get_gas mc_decode dc_decode recalculate_fee recalculate_difficulty t_send_amount t_sub_gas sled_get check_pow emit_block next_info dc_new mc_read_config genesis_block].

Definition flushed (n : nat) (t : bct) : bct := let m := t_main t in
  MkTree0 (MkMain (sled_flush (mc_blocks m)) (sled_flush (mc_refs m)) (sled_flush (mc_txs m)) (mc_height m) (mc_difficulty m)
    (file_append (firstn n (mc_difficulty m)) (file_append (height_key (mc_height m)) (file_truncate (mc_cfg m)))))
    (t_derivs t) (sled_flush (t_summary t)) (sled_flush (t_old_summary t)) (sled_flush (t_gas t)) (sled_flush (t_old_gas t)) (t_closed t).
Lemma flushed_all n t : (length (mc_difficulty (t_main t)) <= n)%nat -> flushed n t = t_flush t.
Proof. intros H. unfold flushed. rewrite firstn_all2 by exact H. reflexivity. Qed.
Lemma k_tree t (F : bct -> bct * out unit) : hoare (at_tree t) (tree_op (Err ETreeDumpDb) F) (fun r h => match r with Ok _ => at_tree (fst (F t)) h | _ => True end).
Proof. intros fs s A. unfold at_tree in *. unfold tree_op, io_op, lift_tree. rewrite A. destruct (next_fault fs) as [|[|k]]; cbn [fst snd]; [|exact I..]. destruct (snd (F t)); [reflexivity|exact I..]. Qed.
Lemma k_mop t e F : hoare (at_tree t) (main_op e F) (fun r h => match r with Ok _ => at_tree (with_main t (F (t_main t))) h | _ => True end).
Proof. intros fs s A. unfold at_tree in *. unfold main_op, tree_op, io_op, lift_tree. rewrite A. destruct (next_fault fs) as [|[|k]]; cbn [fst snd]; [reflexivity|exact I..]. Qed.
Lemma k_write t d : hoare (at_tree t) (write_cfg_io true d) (fun r h => match r with Ok _ => at_tree (with_main t (with_cfg (file_append d (mc_cfg (t_main t))) (t_main t))) h | _ => True end).
Proof. intros fs s A. unfold at_tree in *. unfold write_cfg_io. rewrite A. destruct (next_fault fs); cbn [fst snd]; [reflexivity|exact I]. Qed.
Lemma k_write2 t d : hoare (at_tree t) (write_cfg_io false d) (fun r h => match r with Ok _ => exists n, at_tree (with_main t (with_cfg (file_append (firstn n d) (mc_cfg (t_main t))) (t_main t))) h | _ => True end).
Proof. intros fs s A. unfold at_tree in *. unfold write_cfg_io. rewrite A. destruct (next_fault fs) as [|n]; cbn [fst snd]; [exists (length d); rewrite firstn_all; reflexivity|exists n; reflexivity]. Qed.
Lemma k_ex {A B} (I : A -> host -> Prop) (x : io host B) Q : (forall n, hoare (I n) x Q) -> hoare (fun h => exists n, I n h) x Q.
Proof. intros H fs s [n A0]. exact (H n fs s A0). Qed.
Ltac knext L := eapply h_bind; [apply L|intros ?s; split; [|split]; intros; exact I|intros ?u].
Lemma k_flush t : hoare (at_tree t) flush_io (fun r h => match r with Ok _ => exists n, at_tree (flushed n t) h | _ => True end).
Proof.
  unfold flush_io. eapply h_bind with (R := fun r h => match r with Ok _ => exists n, at_tree (with_main t (t_main (flushed n t))) h | _ => True end).
  - unfold main_flush_io. eapply h_bind; [apply f_mget|intros s; split; [|split]; intros; exact I|]. intros m. apply h_pure. intros E. apply ok_inv in E. subst m.
    knext k_mop. knext k_write. knext k_write2. apply k_ex. intros n. knext k_mop. knext k_mop. eapply h_weaken; [apply k_mop|intros s0 A0; exact A0|]. intros [a|e| |] s H; [|exact I..]. exists n. exact H.
  - intros s; split; [|split]; intros; exact I.
  - intros u. apply k_ex. intros n. knext k_tree. knext k_tree. knext k_tree. eapply h_weaken; [apply k_tree|intros s0 A0; exact A0|]. intros [a|e| |] s H; [|exact I..]. exists n. exact H.
Qed.
(*@T C101: flushes are invisible even when they fail: nobody can tell the tree they leave from the one before. *)
Lemma p_C101_invisible : forall p o fs h, QuietSpec.flushing o = true -> alike (h_tree (io_after (io_step p o) fs h)) (h_tree h).
Proof.
  intros p o fs h Hf. apply norm_alike. unfold io_after. destruct o; try discriminate Hf; cbn [io_step].
  - destruct (sa_flush (h_tree h) (h_old h) (h_old_gas h) fs h) as (B & _); [repeat split|]. unfold io_unit, io_bind. destruct (flush_io fs h) as [[f s] []]; exact B.
  - destruct (sa_mflush (h_tree h) (h_old h) (h_old_gas h) fs h) as (B & _); [repeat split|]. unfold io_unit, io_bind. destruct (main_flush_io fs h) as [[f s] []]; exact B.
  - destruct (assoc_get owner (t_derivs (h_tree h))) as [c|] eqn:G; [|reflexivity]. destruct (sa_dflush owner (h_tree h) (h_old h) (h_old_gas h) fs h) as [(B & _) _]; [split; [repeat split|congruence]|]. unfold io_unit, io_bind. destruct (deriv_flush_io owner fs h) as [[f s] []]; exact B.
Qed.
Lemma short_config d c : file_cur (md_cfg d) = Some c -> (length c < 64)%nat -> forall m, mc_new d <> Ok m.
Proof.
  intros E Hl m H. unfold mc_new in H. destruct (mc_read_config (md_cfg d)) as [[k df]|e| |] eqn:R; try discriminate H. apply cfg_read in R; [|congruence]. destruct R as (x & Ex & Hx). rewrite E in Ex. injection Ex as <-. lia.
Qed.
Lemma left_main t d : left_by t d -> md_cfg (k_main d) = file_settle (mc_cfg (t_main t)).
Proof. intros [->|[s ->]]; [reflexivity|]. cbn [t_crash k_main mc_crash md_cfg t_settle with_main t_main mc_cfg]. unfold file_crash. cbn [file_settle f_pend f_dur]. rewrite firstn_nil. reflexivity. Qed.
Lemma crash_flush n s : sled_crash n (sled_flush s) = sled_flush s. Proof. unfold sled_crash, sled_flush. cbn [pend dur]. rewrite firstn_nil. reflexivity. Qed.
Lemma left_flush t d : left_by (t_flush t) d -> k_main d = mc_close (t_main (t_flush t)) /\ k_summary d = sled_flush (t_summary t) /\ k_gas d = sled_flush (t_gas t).
Proof.
  intros [->|[s ->]]; [auto|]. cbn [t_crash t_settle with_main t_flush t_main k_main k_summary k_gas t_summary t_gas]. rewrite !crash_flush. split; [|auto]. unfold mc_crash. cbn [mc_blocks mc_refs mc_txs mc_cfg mc_flush mc_flush_txs mc_flush_refs mc_flush_blocks mc_dump_config].
  rewrite !crash_flush. unfold file_crash. cbn [file_settle f_pend f_dur]. rewrite firstn_nil. reflexivity.
Qed.
(*@T C101: a flush that returns success has done what a flush does when nothing fails, or the tree cannot be opened any
   more once it is closed or has crashed. *)
Lemma p_C101_success : forall p n h fs r, io_history p n h -> few n -> io_result (io_step p OFlush) fs h = Ok r ->
  let t' := h_tree (io_after (io_step p OFlush) fs h) in
  t' = t_flush (h_tree h) \/ forall d gs t, left_by t' d -> config_opens gs -> io_result t_new_io gs d <> Ok t.
Proof.
  intros p n h fs r H Hn E. cbv zeta. unfold io_result, io_after in *. cbn [io_step] in *. pose proof (k_flush (h_tree h) fs h eq_refl) as K. unfold io_unit, io_bind in *.
  destruct (flush_io fs h) as [[f s] [u|e| |]]; cbn [fst snd io_out] in *; try discriminate E. destruct K as [k K]. unfold at_tree in K. rewrite K.
  destruct (w_history p n h H Hn) as (L & A & _). pose proof (wi_diff _ _ A) as Hd. destruct (Nat.leb_spec 32 k) as [Hk|Hk]; [left; apply flushed_all; rewrite Hd; exact Hk|right].
  intros d gs t HL Hc Ht. apply (new_ok _ _ _ Hc), t_new_main in Ht. revert Ht. apply (short_config _ (height_key (mc_height (t_main (h_tree h))) ++ firstn k (mc_difficulty (t_main (h_tree h))))).
  - rewrite (left_main _ _ HL). unfold flushed. cbn [t_main mc_cfg]. unfold file_settle at 1, file_cur at 1. cbn [f_pend f_dur last]. rewrite !file_cur_append, file_cur_truncate. reflexivity.
  - rewrite app_length, height_key_length, firstn_length. lia.
Qed.
Lemma reopen_eq h L d : wtree L h -> left_by (t_flush (h_tree h)) d -> let m := t_main (h_tree h) in
  let m' := MkMain (sled_flush (mc_blocks m)) (sled_flush (mc_refs m)) (sled_flush (mc_txs m)) (mc_height m) BEGINNING_DIFFICULTY (md_cfg (k_main d)) in
  winv m' L /\ t_new d = Ok (MkTree0 m' [] (if mc_height m =? 1 then sled_commit [(ROOT_PUBLIC_ADDRESS, led_encode COINS_PER_CYCLE)] (sled_flush (t_summary (h_tree h))) else sled_flush (t_summary (h_tree h)))
    (k_old_summary d) (sled_flush (t_gas (h_tree h))) (k_old_gas d) (k_derivs d)).
Proof.
  intros A Hd m m'. destruct (left_flush _ _ Hd) as (E1 & E2 & E3). pose proof (wi_height _ _ A) as Hh. pose proof (wi_lt _ _ A) as Hlt. pose proof (wi_diff _ _ A) as Hdf. pose proof (wi_gen _ _ A) as G. fold m in Hh, Hdf.
  assert (Hpos : 1 <= N.of_nat (length L)) by (destruct L; [discriminate G|cbn [length]; lia]).
  assert (Ecfg : file_cur (md_cfg (k_main d)) = Some (height_key (mc_height m) ++ BEGINNING_DIFFICULTY)).
  { rewrite E1. cbn [mc_close md_cfg t_flush t_main mc_flush mc_flush_txs mc_flush_refs mc_flush_blocks mc_dump_config mc_cfg]. fold m. unfold file_settle, file_cur at 1. cbn [f_pend f_dur last]. rewrite !file_cur_append, file_cur_truncate, Hdf. reflexivity. }
  assert (Em : mc_new (k_main d) = Ok m').
  { rewrite (mc_new_settled _ _ _ Ecfg); [|lia|reflexivity]. unfold m'. rewrite E1. reflexivity. }
  split.
  - rewrite <- (firstn_all L). eapply winv_firstn; [exact A|lia|exact Hh|reflexivity..| |apply A]. cbn [m' mc_cfg]. rewrite Ecfg, firstn_all. right. exists (N.of_nat (length L)). split; [lia|rewrite Hh; reflexivity].
  - unfold t_new. rewrite Em. cbn [bind]. rewrite E2, E3. reflexivity.
Qed.
(*@T C101: a flush during which nothing fails makes up for everything that failed before: after it the tree can be
   closed or, once the config file is written, crash; opening it succeeds and gives all its blocks, transactions and
   balances.  As always, while the chain is the first block only, opening sets the root account. *)
Lemma p_C101_kept : forall p n h L f g d, io_history p n h -> few n -> chain_is (t_main (h_tree h)) L -> funds (h_tree h) f g -> left_by (t_flush (h_tree h)) d ->
  exists t, t_new d = Ok t /\ chain_is (t_main t) L /\
    (forall x, mc_get_transaction_raw x (t_main t) = mc_get_transaction_raw x (t_main (h_tree h))) /\
    funds t (if Nat.eqb (length L) 1 then upd f ROOT_PUBLIC_ADDRESS COINS_PER_CYCLE else f) g.
Proof.
  intros p n h L f g d H Hn HL Hf Hd. destruct (w_history p n h H Hn) as (L0 & A & _). assert (L0 = L) as -> by (eapply p_C98_unique; [apply w_holds, A|exact HL]). clear HL.
  destruct (reopen_eq h L d A Hd) as [A' E]. pose proof (wi_height _ _ A) as Hh. eexists. split; [exact E|]. cbn [t_main]. split; [apply w_holds, A'|]. split; [reflexivity|].
  destruct (lok_history p n h H) as [B1 B2]. destruct Hf as [F1 F2]. split; cbn [t_summary t_gas]; [|intros w; exact (F2 w)].
  assert (Eq : (mc_height (t_main (h_tree h)) =? 1) = Nat.eqb (length L) 1) by (rewrite Hh; destruct (N.eqb_spec (N.of_nat (length L)) 1), (Nat.eqb_spec (length L) 1); lia).
  rewrite Eq. destruct (Nat.eqb (length L) 1).
  - pose proof (set_amount_eff ROOT_PUBLIC_ADDRESS COINS_PER_CYCLE (h_tree h) f B1 eq_refl F1) as (_ & _ & S). intros w. specialize (S w). rewrite <- S. reflexivity.
  - intros w. exact (F1 w).
Qed.
(*@E
Example C101_ex : let h := io_after (io_step Debug OFlush) [Fine; Fails 7] (io_after (io_step Debug emit_good) [] (opened fresh)) in
  io_history Debug 2 h /\ io_result (io_step Debug OFlush) [Fine; Fails 7] (io_after (io_step Debug emit_good) [] (opened fresh)) = Err EChainDumpConfig /\
  t_new (t_close (h_tree h)) = Err EChainInit /\ (exists t, t_new (t_close (t_flush (h_tree h))) = Ok t /\ mc_get_height (t_main t) = 2).
Proof.
  cbv zeta. split; [apply hist_call; [apply hist_call; [apply hist_new; vm_compute; reflexivity|repeat split; try (vm_compute; reflexivity); repeat constructor; vm_compute; reflexivity]|exact I]|].
  split; [vm_compute; reflexivity|]. split; [vm_compute; reflexivity|]. eexists. split; vm_compute; reflexivity.
Qed.
@*)
(*@T C101 without the second case fails: the failure of the last write to the config file goes unreported; the flush
   returns success and the tree can never be opened again: opening it fails whenever the config file can be opened. *)
Lemma p_C101_unreported_refuted : exists fs t', t' = h_tree (io_after (io_step Debug OFlush) fs (opened fresh)) /\
  io_result (io_step Debug OFlush) fs (opened fresh) = Ok RUnit /\
  forall gs t, config_opens gs -> io_result t_new_io gs (t_close t') <> Ok t.
Proof.
  exists [Fine; Fine; Fails 0]. eexists. split; [reflexivity|]. split; [vm_compute; reflexivity|]. intros gs t Hc H. apply (new_ok _ _ _ Hc) in H. vm_compute in H. discriminate H.
Qed.
