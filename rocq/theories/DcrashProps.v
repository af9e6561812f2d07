(** Proofs of the statements in P_Dcrash.v. *)
From Coq Require Import Lia ZifyBool ZifyNat ZifyN.
From Verif Require Import Base Sha256 Merkle Tools Transaction Block Sled Chain Tree Spec Reach LedgerSpec CrashSpec DcrashSpec Demo.
From Verif Require Import BaseFacts ToolsFacts MerkleFacts DiffFacts CodecFacts SledFacts ChainFacts TreeFacts LedgerFacts DerivFacts CrashFacts CodecProps MainProps StoreProps CrashProps.

(** ** Transactions *)
Definition txs_sound (s : sled) : Prop := forall n k v, sled_get k (sled_crash n s) = Some v -> sha256 v = k /\ sled_get k s <> None.
Lemma txs_sound_insert s k v : sled_ok s -> txs_sound s -> sha256 v = k -> txs_sound (sled_insert k v s).
Proof.
  intros Hs H E n h x G. unfold sled_insert in *. rewrite sled_get_commit1.
  destruct (crash_commit n [(k, v)] s Hs) as [F|F]; rewrite F in G.
  - destruct (H n h x G) as [H1 H2]. split; [exact H1|]. destruct (bytes_eqb h k); [discriminate|exact H2].
  - rewrite sled_get_commit1 in G. destruct (bytes_eqb h k) eqn:Ek; [split; [|discriminate]|].
    + apply bytes_eqb_eq in Ek as ->. injection G as <-. exact E.
    + rewrite <- (crash_full s Hs) in G. destruct (H _ _ _ G) as [H1 H2]. split; [exact H1|exact H2].
Qed.
Lemma txs_sound_grow s s' : sled_ok s -> txs_sound s -> txs_grow s s' -> txs_sound s'.
Proof.
  intros Hs H (l & Hl & ->). revert s Hs H. induction Hl as [|[k v] l E _ IH]; intros s Hs H; [exact H|]. cbn [fold_left fst snd] in *.
  apply IH; [apply sled_ok_commit, Hs|]. apply txs_sound_insert; assumption.
Qed.
Lemma txs_sound_flush s : sled_ok s -> txs_sound s -> txs_sound (sled_flush s).
Proof. intros Hs H n k v G. rewrite crash_flush in G. rewrite <- (crash_full s Hs) in G. apply (H _ _ _ G). Qed.
Lemma step_txs_sound p t o L : tree_inv t L -> op_wf o -> N.of_nat (length L) + 1 < 2 ^ 256 -> sled_ok (mc_txs (t_main t)) ->
  txs_sound (mc_txs (t_main t)) -> txs_sound (mc_txs (t_main (fst (step p t o)))).
Proof.
  intros HL W Hlen Hs H. destruct (step_core p t o L HL W Hlen) as [[_ S]|[(b & _ & _ & _ & S)|[(_ & _ & S)|(_ & b & _ & _ & _ & S)]]].
  - eapply txs_sound_grow; eassumption.
  - eapply txs_sound_grow; eassumption.
  - rewrite S. apply txs_sound_flush; assumption.
  - rewrite S. apply txs_sound_flush; assumption.
Qed.
Lemma reachable_txs_sound ok p n t : reachable ok p n t -> few n -> txs_sound (mc_txs (t_main t)).
Proof.
  induction 1 as [t E|n t o Hr IH W _|n t t' Hr IH E]; intros Hn.
  - unfold t_new in E. cbn [k_main disk_empty] in E. rewrite mc_new_empty in E. cbn [bind] in E. injection E as <-. intros n k v G. cbn in G. unfold sled_crash in G. cbn in G. rewrite firstn_nil in G. discriminate G.
  - assert (Hn' : few n) by (unfold few in *; lia). destruct (reachable_crash _ _ _ _ Hr Hn') as (L & HL & Hlen & HC). unfold few in Hn.
    eapply step_txs_sound; [exact HL|exact W|lia|apply HC|apply IH, Hn'].
  - destruct (reachable_crash _ _ _ _ Hr Hn) as (L & HL & Hlen & HC). unfold few in Hn.
    destruct (reopen_main t L HL ltac:(lia)) as (t1 & E1 & _ & _ & _ & _ & R & _). rewrite E in E1. injection E1 as <-. rewrite R.
    apply txs_sound_flush; [apply HC|apply IH, Hn].
Qed.
Lemma t_new_txs d t : t_new d = Ok t -> mc_txs (t_main t) = md_txs (k_main d).
Proof.
  unfold t_new. intros E. destruct (mc_new (k_main d)) as [m|e| |] eqn:Em; cbn [bind] in E; try discriminate E. injection E as <-. cbn [t_main].
  unfold mc_new in Em. destruct (mc_read_config (md_cfg (k_main d))) as [[h df]|e| |]; cbn [bind] in Em; try discriminate Em.
  destruct (h =? 0); [|injection Em as <-; reflexivity]. destruct genesis_block as [g|e| |]; cbn [bind] in Em; try discriminate Em.
  destruct (mc_add_block g _) as [m' r] eqn:Ea. destruct (change_context r EChainInit); cbn [bind] in Em; try discriminate Em. injection Em as <-.
  change m' with (fst (m', r)). rewrite <- Ea. apply add_block_txs.
Qed.
(*@T C85, nothing is made up: every transaction found after a crash, whatever survived, has the hash it is found
    under and something was stored under that hash before the crash. *)
Lemma p_C85_transactions_after_crash : forall ok p n t s t' h d, reachable ok p n t -> few n -> t_new (t_crash s t) = Ok t' ->
  mc_get_transaction_raw h (t_main t') = Some d -> sha256 d = h /\ mc_transaction_exists h (t_main t) = true.
Proof.
  intros ok p n t s t' h d Hr Hn E G. unfold mc_get_transaction_raw in G. rewrite (t_new_txs _ _ E) in G. cbn [t_crash k_main mc_crash md_txs] in G.
  destruct (reachable_txs_sound _ _ _ _ Hr Hn _ _ _ G) as [H1 H2]. split; [exact H1|]. unfold mc_transaction_exists, sled_contains.
  destruct (sled_get h (mc_txs (t_main t))); [reflexivity|contradiction].
Qed.
Lemma lookups_survive p n t t1 ops s t' : reachable any_op p n t -> t_main t1 = t_main (t_settle (t_flush t)) -> unflushed p t1 ops -> few (n + length ops) ->
  t_new (t_crash s (run p t1 ops)) = Ok t' ->
  (forall h d, mc_get_transaction_raw h (t_main t) = Some d ->
     mc_get_transaction_raw h (t_main t') = Some d \/ exists d', collision d d') /\
  (forall h d, mc_find_raw_by_hash h (t_main t) = Ok (Some d) ->
     mc_find_raw_by_hash h (t_main t') = Ok (Some d) \/ exists d', collision d d').
Proof.
  intros Hr Em Hu Hn Eo. destruct (reachable_crash _ _ _ _ Hr) as (L0 & HL & Hlen & HC); [unfold few in *; lia|].
  assert (Hsn : txs_sound (mc_txs (t_main t))) by (eapply reachable_txs_sound; [exact Hr|unfold few in *; lia]). unfold few in Hn.
  pose proof (tree_inv_ne _ _ HL) as Hne. assert (0 < N.of_nat (length L0)) by (destruct L0; [contradiction|cbn [length]; lia]).
  pose proof (flush_tree t L0 HL) as HL1. destruct (dur_start t L0 HL) as [HD HT]. rewrite <- Em in HD, HT.
  assert (HL1' : tree_inv t1 L0) by (apply (tree_inv_ext (t_settle (t_flush t))); try exact HL1; rewrite Em; reflexivity). clear HL1. rename HL1' into HL1.
  assert (HC1 : crash_inv (t_main t1) L0).
  { rewrite Em. destruct (crash_inv_flush _ _ (ti_main _ _ HL) HC) as [F1 F2 F3 F4 F5]. split; assumption. }
  destruct (dur_run p _ L0 ops HL1 HC1 HD Hu ltac:(lia)) as (L & R1 & R2 & R3 & R4 & R5).
  destruct (t_new_settled s _ L0 R4 ltac:(lia)) as (t2 & E & E1 & E2 & E3 & E4). rewrite Eo in E. injection E as <-.
  assert (Hsound : txs_sound (mc_txs (t_main (run p t1 ops)))).
  { clear -Em Hu Hsn HC HL1 HC1 Hn Hlen. assert (Hs0 : txs_sound (mc_txs (t_main t1))) by (rewrite Em; apply txs_sound_flush; [apply HC|exact Hsn]).
    revert Hn. induction Hu as [|ops o Hu IH W Hnf]; intros Hn; [exact Hs0|]. rewrite app_length in Hn. cbn [length] in Hn. rewrite run_snoc.
    assert (X : exists L, tree_inv (run p t1 ops) L /\ crash_inv (t_main (run p t1 ops)) L /\ (length L <= length L0 + length ops)%nat).
    { clear IH W Hnf. revert Hn. induction Hu as [|ops o' Hu IH W _]; intros Hn; [exists L0; split; [exact HL1|split; [exact HC1|lia]]|].
      rewrite app_length in *. cbn [length] in *. destruct IH as (L & I1 & I2 & I3); [lia|]. rewrite run_snoc.
      destruct (crash_inv_step p _ o' L I1 W ltac:(lia) I2) as (L' & J1 & J2 & [->|(b & ->)]); [exists L|exists (L ++ [b])]; (split; [exact J1|split; [exact J2|rewrite ?app_length; cbn [length]; lia]]). }
    destruct X as (L & X1 & X2 & X3). eapply step_txs_sound; [exact X1|exact W|lia|apply X2|apply IH; lia]. }
  split.
  - intros h d Hd. assert (Ht : mc_transaction_exists h (t_main t) = true) by (unfold mc_transaction_exists, sled_contains; unfold mc_get_transaction_raw in Hd; rewrite Hd; reflexivity).
    pose proof (R5 h (HT h Ht) (sv_txs s)) as G. unfold mc_get_transaction_raw in *. rewrite E4.
    destruct (sled_get h (sled_crash (sv_txs s) _)) as [d'|] eqn:Ed; [|contradiction].
    destruct (Hsound _ _ _ Ed) as [S1 _]. rewrite <- (crash_full _ (ci_txs_ok _ _ HC)) in Hd. destruct (Hsn _ _ _ Hd) as [S2 _].
    destruct (bytes_eq_dec d' d) as [->|Hne']; [left; reflexivity|right]. exists d'. split; congruence.
  - intros h d Hd.
    assert (Hf : exists i b, nthN L0 i = Some b /\ block_hash b = h /\ d = block_dump b).
    { unfold mc_find_raw_by_hash in Hd. destruct (sled_get h (mc_refs (t_main t))) as [v|] eqn:Ev; [|discriminate Hd].
      destruct (mi_refs_sound _ _ (ti_main _ _ HL) h v Ev) as (i & b & Hi & Hb & ->). rewrite height_key_length in Hd. cbn [Nat.ltb Nat.leb] in Hd.
      pose proof (nthN_some _ _ _ Hi). rewrite from_height_key in Hd by lia. rewrite (main_find_raw _ L0 i (ti_main _ _ HL)) in Hd by lia. rewrite Hi in Hd.
      cbn [option_map] in Hd. injection Hd as <-. eauto. }
    destruct Hf as (i & b & Hi & Hb & ->). pose proof (du_refs _ _ R4 (sv_refs s) i b Hi) as Gr. rewrite Hb in Gr.
    destruct (sled_get h (sled_crash (sv_refs s) (mc_refs (t_main (run p t1 ops))))) as [v|] eqn:Ev; [|contradiction].
    destruct (ci_refs _ _ R3 _ _ _ Ev) as (j & x & Hj & Hx & ->).
    destruct (bytes_eq_dec (block_dump b) (block_dump x)) as [Ed|Ed]; [|right; exists (block_dump x); split; [exact Ed|exact (eq_trans Hb (eq_sym Hx))]].
    left. pose proof (nthN_app L0 L i b Hi) as Hi'.
    pose proof (ti_wf _ _ R1) as W. rewrite Forall_forall in W.
    assert (Hbx : b = x) by (apply block_dump_inj; [apply W, (nthN_in _ _ _ Hi')|apply W, (nthN_in _ _ _ Hj)|exact Ed]). subst x.
    pose proof (mi_heights _ _ (ti_main _ _ R1) _ _ Hi') as H1. pose proof (mi_heights _ _ (ti_main _ _ R1) _ _ Hj) as H2. assert (Hji : j = i) by congruence. clear H1 H2. subst j.
    pose proof (nthN_some _ _ _ Hi). unfold mc_find_raw_by_hash. rewrite E3, Ev, height_key_length. cbn [Nat.ltb Nat.leb]. rewrite from_height_key by lia.
    unfold mc_find_raw_by_height. rewrite E1, E2. destruct (N.ltb_spec (N.of_nat (length L0)) i); [lia|]. rewrite (du_blocks _ _ R4 _ _ _ Hi). reflexivity.
Qed.
(*@T C85, flushed data: with [t], [ops], [s] as in C59, every transaction stored and every block found by hash at the time of the
    flush is found unchanged after the crash, unless a SHA-256 collision was stored. *)
Lemma p_C85_flushed_lookups_survive : forall p n t ops s t',
  reachable any_op p n t -> unflushed p (t_settle (t_flush t)) ops -> few (n + length ops) ->
  t_new (t_crash s (run p (t_settle (t_flush t)) ops)) = Ok t' ->
  (forall h d, mc_get_transaction_raw h (t_main t) = Some d ->
     mc_get_transaction_raw h (t_main t') = Some d \/ exists d', collision d d') /\
  (forall h d, mc_find_raw_by_hash h (t_main t) = Ok (Some d) ->
     mc_find_raw_by_hash h (t_main t') = Ok (Some d) \/ exists d', collision d d').
Proof. intros p n t ops s t' Hr. apply (lookups_survive p n t); [exact Hr|reflexivity]. Qed.
(*@E
Example C85_ex : let t := run Debug fresh [OAddTxs [demo_tx 3 (repeat 7 64)]; emit_good] in
  match t_new (t_crash (svs 0 0 0 0 0 0) (run Debug (t_settle (t_flush t)) [OAddTxs [demo_tx 4 (repeat 7 64)]])) with
  | Ok t' => (mc_transaction_exists (tx_hash (demo_tx 3 (repeat 7 64))) (t_main t'), mc_transaction_exists (tx_hash (demo_tx 4 (repeat 7 64))) (t_main t'))
  | _ => (false, false) end = (true, false).
Proof. vm_compute. reflexivity. Qed.
@*)

(** ** Derivative chains *)
Lemma derivs_on_summary f t : t_derivs (fst (t_on_summary f t)) = t_derivs t.
Proof. unfold t_on_summary. destruct (f _). reflexivity. Qed.
Lemma derivs_on_gas f t : t_derivs (fst (t_on_gas f t)) = t_derivs t.
Proof. unfold t_on_gas. destruct (f _). reflexivity. Qed.
Lemma derivs_send x y a t : t_derivs (fst (t_send_amount x y a t)) = t_derivs t.
Proof. unfold t_send_amount. destruct (bytes_eqb x y); [reflexivity|apply derivs_on_summary]. Qed.
Lemma step_deriv p t o w c : assoc_get w (t_derivs t) = Some c -> o <> ODerivFlush w ->
  assoc_get w (t_derivs (fst (step p t o))) = Some c \/
  exists i, assoc_get w (t_derivs (fst (step p t o))) = Some (fst (dc_add_block i c)).
Proof.
  intros Hc Hne. assert (Hsame : forall t', t_derivs t' = t_derivs t -> assoc_get w (t_derivs t') = Some c) by (intros t' ->; exact Hc).
  destruct o; cbn [step ret_unit ret_block fst].
  - left. apply Hsame, derivs_on_summary.
  - left. apply Hsame, derivs_on_summary.
  - left. apply Hsame, derivs_on_summary.
  - left. apply Hsame, derivs_send.
  - left. apply Hsame, derivs_on_gas.
  - left. apply Hsame, derivs_on_gas.
  - left. apply Hsame, derivs_on_gas.
  - left. apply Hsame. unfold t_send_transaction.
    match goal with |- context [match ?c with Ok gas_required => _ | Err e => (t, _) | _ => _ end] => destruct c as [gas|e| |] end; try reflexivity.
    pose proof (derivs_send (tx_sender tx) (tx_receiver tx) (tx_amount tx) (with_main t (mc_add_transaction tx (t_main t)))) as E.
    destruct (t_send_amount _ _ _ _) as [t2 r]. cbn [fst with_main t_derivs] in *. destruct r; try exact E. unfold t_sub_gas. rewrite derivs_on_gas. exact E.
  - left. apply Hsame. unfold t_emmit_new_main_block.
    match goal with |- context [match ?c with Ok _ => _ | Err e => (t, _) | _ => _ end] => destruct c as [[fee info]|e| |] end; try reflexivity.
    destruct (_ =? 0).
    + destruct txs as [|x txs]; [|reflexivity]. destruct (t_summarize t) as [root|e| |]; try reflexivity.
      pose proof (derivs_on_summary (led_set ROOT_PUBLIC_ADDRESS COINS_PER_CYCLE) (t_rotate_dbs t)) as E. unfold t_set_amount. destruct (t_on_summary _ _) as [t2 r]. cbn [fst] in E.
      destruct r as [u|e| |]; try exact E. destruct (mc_add_block _ (t_main t2)). exact E.
    + destruct txs as [|x txs]; [reflexivity|]. destruct (let! tree := build_tree (x :: txs) in get_root tree) as [root|e| |]; try reflexivity.
      destruct (mc_add_block _ (t_main t)). reflexivity.
  - unfold t_emmit_new_derivative_block, t_get_derivative_chain. destruct (bytes_eqb w founder) eqn:Ew.
    + apply bytes_eqb_eq in Ew as <-. rewrite Hc. destruct (let! last := dc_get_last_block c in _) as [i|e| |]; try (left; exact Hc).
      right. exists i. destruct (dc_add_block i c) as [c' ra]. cbn [fst with_derivs t_derivs]. rewrite assoc_get_set, bytes_eqb_refl. reflexivity.
    + left. destruct (assoc_get founder (t_derivs t)) as [d|].
      * destruct (let! last := dc_get_last_block d in _) as [i|e| |]; try exact Hc. destruct (dc_add_block i d) as [d' ra]. cbn [fst with_derivs t_derivs]. rewrite assoc_get_set, Ew. exact Hc.
      * destruct (let! last := mc_get_last_block (t_main t) in _) as [d|e| |]; try exact Hc.
        destruct (let! last := dc_get_last_block d in _) as [i|e| |]; try (cbn [fst with_derivs t_derivs]; rewrite assoc_get_set, Ew; exact Hc).
        destruct (dc_add_block i d) as [d' ra]. cbn [fst with_derivs t_derivs]. rewrite !assoc_get_set, Ew. exact Hc.
  - left. unfold t_get_derivative_chain. destruct (assoc_get owner (t_derivs t)) as [d|] eqn:Ed; [exact Hc|].
    destruct (let! last := mc_get_last_block (t_main t) in _) as [d|e| |]; try exact Hc. cbn [fst with_derivs t_derivs]. rewrite assoc_get_set.
    destruct (bytes_eqb w owner) eqn:Ew; [|exact Hc]. apply bytes_eqb_eq in Ew as ->. congruence.
  - left. apply Hsame. unfold t_add_new_block. destruct (mc_add_block b (t_main t)) as [m r]. destruct r; reflexivity.
  - left. exact Hc.
  - destruct (assoc_get owner (t_derivs t)) as [d|] eqn:Ed; [|left; exact Hc]. destruct (bytes_eqb w owner) eqn:Ew.
    + apply bytes_eqb_eq in Ew as ->. right. exists i. assert (d = c) by congruence. subst d. destruct (dc_add_block i c). cbn [fst with_derivs t_derivs]. rewrite assoc_get_set, bytes_eqb_refl. reflexivity.
    + left. destruct (dc_add_block i d). cbn [fst with_derivs t_derivs]. rewrite assoc_get_set, Ew. exact Hc.
  - left. exact Hc.
  - left. exact Hc.
  - left. destruct (assoc_get owner (t_derivs t)) as [d|] eqn:Ed; [|exact Hc]. cbn [fst with_derivs t_derivs]. rewrite assoc_get_set.
    destruct (bytes_eqb w owner) eqn:Ew; [|exact Hc]. apply bytes_eqb_eq in Ew as ->. contradiction.
Qed.

(** What is read is the durable part plus all pending batches. *)
Definition sled_log (s : sled) : Prop := cur s = fold_left apply_batch (pend s) (dur s).
Lemma log_commit b s : sled_log s -> sled_log (sled_commit b s).
Proof. intros H. unfold sled_log, sled_commit. cbn [cur pend dur]. rewrite fold_left_app, <- H. reflexivity. Qed.
Lemma log_full s : sled_log s -> forall k, sled_get k (sled_crash (length (pend s)) s) = sled_get k s.
Proof. intros H k. unfold sled_get, sled_crash. cbn [cur]. rewrite firstn_all, <- H. reflexivity. Qed.
Lemma log_crash_commit n b s : sled_log s ->
  sled_crash n (sled_commit b s) = sled_crash n s \/ forall k, sled_get k (sled_crash n (sled_commit b s)) = sled_get k (sled_commit b s).
Proof.
  intros H. destruct (Nat.le_gt_cases n (length (pend s))) as [Hn|Hn].
  - left. unfold sled_crash, sled_commit. cbn [pend dur]. rewrite firstn_app.
    replace (n - length (pend s))%nat with 0%nat by lia. cbn [firstn]. rewrite app_nil_r. reflexivity.
  - right. intros k. apply (log_commit b) in H. unfold sled_get, sled_crash. cbn [cur]. rewrite firstn_all2; [|cbn [sled_commit pend]; rewrite app_length; cbn; lia].
    rewrite <- H. reflexivity.
Qed.

(** The chain [c] holds at least the first [h] blocks of [c0] durably, with the config on disk. *)
Record dur_deriv (c0 : deriv_chain) (c : deriv_chain) (k : nat) : Prop := {
  dd_ok : sled_log (dc_blocks c);
  dd_file : dc_cfg c = MkFile (Some (height_key (dc_height c0) ++ dc_difficulty c0 ++ dc_genesis c0)) [];
  dd_low : dc_height c0 <= dc_height c <= dc_height c0 + N.of_nat k;
  dd_kept : forall n i, i < dc_height c0 -> sled_get (height_key i) (sled_crash n (dc_blocks c)) = sled_get (height_key i) (dc_blocks c0);
  dd_rlog : sled_log (dc_refs c);
  dd_named : forall n h v, sled_get h (dc_refs c0) = Some v -> sled_get h (sled_crash n (dc_refs c)) = Some v \/
    exists j d, dc_height c0 <= j < dc_height c /\ sled_get (height_key j) (dc_blocks c) = Some d /\ sha256 d = h
}.
Lemma dur_deriv_add c0 c k i : dc_height c0 + N.of_nat k + 1 < 2 ^ 256 -> dur_deriv c0 c k -> dur_deriv c0 (fst (dc_add_block i c)) (S k).
Proof.
  intros Hk [H1 H2 H3 H4 H5 H6]. destruct (N.eq_dec (bi_height i) (dc_height c)) as [E|E].
  - rewrite dc_add_block_right by (try exact E; lia). cbn [fst dc_appended].
    assert (Hold : forall n h v, sled_get h (dc_refs c0) = Some v -> sled_get h (sled_crash n (dc_refs c)) = Some v \/ exists j d, dc_height c0 <= j < dc_height c + 1 /\
      sled_get (height_key j) (sled_insert (height_key (dc_height c)) (block_dump (DerivBlock i)) (dc_blocks c)) = Some d /\ sha256 d = h).
    { intros n h v Hv. destruct (H6 n h v Hv) as [G|(j & d & G1 & G2 & G3)]; [left; exact G|right; exists j, d]. split; [lia|]. split; [|exact G3].
      rewrite sled_get_insert, height_key_eqb by lia. destruct (N.eqb_spec j (dc_height c)); [lia|exact G2]. }
    split; cbn [dc_blocks dc_refs dc_cfg dc_height dc_appended].
    + apply log_commit, H1.
    + exact H2.
    + lia.
    + intros n j Hj. unfold sled_insert. destruct (log_crash_commit n [(height_key (dc_height c), block_dump (DerivBlock i))] _ H1) as [G|G]; rewrite G; [apply H4, Hj|].
      rewrite sled_get_commit1, height_key_eqb by lia. destruct (N.eqb_spec j (dc_height c)); [lia|]. rewrite <- (log_full _ H1). apply H4, Hj.
    + apply log_commit, H5.
    + intros n h v Hv. unfold sled_insert at 1. destruct (log_crash_commit n [(block_hash (DerivBlock i), height_key (dc_height c))] _ H5) as [G|G]; rewrite G; [apply Hold, Hv|].
      rewrite sled_get_commit1. destruct (bytes_eqb h (block_hash (DerivBlock i))) eqn:Eb.
      * right. apply bytes_eqb_eq in Eb. exists (dc_height c), (block_dump (DerivBlock i)). split; [lia|]. split; [rewrite sled_get_insert, bytes_eqb_refl; reflexivity|symmetry; exact Eb].
      * rewrite <- (log_full _ H5). apply Hold, Hv.
  - rewrite dc_add_block_wrong by exact E. cbn [fst]. split; try assumption. lia.
Qed.
Lemma dur_deriv_run p w c0 ops : forall t c k, dc_height c0 + N.of_nat (k + length ops) < 2 ^ 256 -> assoc_get w (t_derivs t) = Some c -> dur_deriv c0 c k ->
  Forall (fun o => o <> ODerivFlush w) ops ->
  exists c', assoc_get w (t_derivs (run p t ops)) = Some c' /\ dur_deriv c0 c' (k + length ops).
Proof.
  induction ops as [|o ops IH]; intros t c k Hk Hc HD Hf; cbn [length run fold_left] in *.
  - exists c. rewrite Nat.add_0_r. auto.
  - apply Forall_cons_iff in Hf as [Ho Hf]. fold (run p (fst (step p t o)) ops).
    replace (k + S (length ops))%nat with (S k + length ops)%nat in * by lia.
    destruct (step_deriv p t o w c Hc Ho) as [E|(i & E)].
    + eapply (IH _ c (S k)); [lia|exact E| |exact Hf]. destruct HD as [H1 H2 H3 H4 H5 H6]. split; try assumption. lia.
    + eapply (IH _ _ (S k)); [lia|exact E| |exact Hf]. apply dur_deriv_add; [lia|exact HD].
Qed.
Lemma run_derivs p ops : forall t L n, tree_inv t L -> derivs_inv p false L n t -> N.of_nat (length L + length ops) + 1 < 2 ^ 256 -> N.of_nat (n + length ops) + 1 < 2 ^ 256 ->
  Forall op_wf ops -> exists L', tree_inv (run p t ops) L' /\ derivs_inv p false L' (n + length ops) (run p t ops) /\ (length L' <= length L + length ops)%nat /\ (forall m, In m L -> In m L').
Proof.
  induction ops as [|o ops IH]; intros t L n HL HD H1 H2 W; cbn [length run fold_left] in *.
  - exists L. rewrite Nat.add_0_r. split; [exact HL|]. split; [exact HD|]. split; [lia|auto].
  - apply Forall_cons_iff in W as [Wo W]. fold (run p (fst (step p t o)) ops).
    pose proof (step_derivs p false L n t o HL ltac:(lia) HD ltac:(lia) Wo ltac:(intros E; discriminate E)) as HD1.
    destruct (step_main p t o L HL Wo ltac:(lia)) as (L1 & HL1 & Hg).
    assert (Hin : forall m, In m L -> In m L1) by (intros m Hm; destruct Hg as [->|(b & -> & _)]; [exact Hm|apply in_or_app; left; exact Hm]).
    assert (Hle : (length L1 <= length L + 1)%nat) by (destruct Hg as [->|(b & -> & _)]; [lia|rewrite app_length; cbn; lia]).
    assert (HD2 : derivs_inv p false L1 (S n) (fst (step p t o))) by (eapply derivs_inv_same; [exact HD1|exact Hin|lia|reflexivity|reflexivity]).
    destruct (IH _ L1 (S n) HL1 HD2 ltac:(lia) ltac:(lia) W) as (L' & I1 & I2 & I3 & I4). exists L'. split; [exact I1|].
    replace (n + S (length ops))%nat with (S n + length ops)%nat by lia. split; [exact I2|]. split; [lia|auto].
Qed.
Definition dsettle (c : deriv_chain) := MkDeriv (dc_blocks c) (dc_refs c) (dc_height c) (dc_genesis c) (dc_difficulty c) (file_settle (dc_cfg c)).
Lemma dsettle_inv p s L w c B : deriv_inv p s L w c B -> deriv_inv p s L w (dsettle c) B.
Proof. intros [H1 H2 H3 H4 H5 H6]. split; try assumption. Qed.
Lemma t_new_closed d t : t_new d = Ok t -> t_closed t = k_derivs d /\ t_derivs t = [].
Proof. unfold t_new. intros E. destruct (mc_new (k_main d)) as [m|e| |]; cbn [bind] in E; try discriminate E. injection E as <-. split; reflexivity. Qed.

Lemma deriv_survives p n t L w c ops s t' b : tree_inv t L -> (length L <= n + 1)%nat -> derivs_inv p false L n t -> few (n + length ops) -> is_array 33 w -> assoc_get w (t_derivs t) = Some c ->
  Forall op_wf ops -> Forall (fun o => o <> ODerivFlush w) ops ->
  t_new (t_crash s (run p (deriv_settle w (fst (step p t (ODerivFlush w)))) ops)) = Ok t' ->
  mc_get_last_block (t_main t') = Ok (Some b) ->
  exists c', snd (t_get_derivative_chain w t') = Ok c' /\
    dc_get_height c' = dc_get_height c /\ dc_genesis c' = dc_genesis c /\
    (forall i, i < dc_get_height c -> dc_find_raw_by_height i c' = dc_find_raw_by_height i c /\ dc_find_raw_by_height i c' <> None) /\
    dc_get_last_block c' = dc_get_last_block c /\
    (forall i d, i < dc_get_height c -> dc_find_raw_by_height i c = Some d -> dc_find_raw_by_hash (sha256 d) c = Ok (Some d) ->
      dc_find_raw_by_hash (sha256 d) c' = Ok (Some d) \/ exists x, info_wf x /\ collision d (block_dump (DerivBlock x))).
Proof.
  intros HL Hlen HD Hn Hw Hc W Hf Ho Hb. unfold few in Hn.
  destruct (derivs_inv_get _ _ _ _ _ _ _ HD Hc) as (_ & B & HB & HBl). pose proof (di_height _ _ _ _ _ _ HB) as Hh.
  set (t0 := deriv_settle w (fst (step p t (ODerivFlush w)))) in *.
  assert (E0 : t0 = with_derivs t (assoc_set w (dsettle (dc_flush c)) (assoc_set w (dc_flush c) (t_derivs t)))).
  { subst t0. cbn [step]. rewrite Hc. cbn [fst]. unfold deriv_settle. cbn [with_derivs t_derivs]. rewrite assoc_get_set, bytes_eqb_refl. reflexivity. }
  assert (HL0 : tree_inv t0 L) by (apply (tree_inv_ext t); try exact HL; rewrite E0; reflexivity).
  assert (HD0 : derivs_inv p false L n t0).
  { rewrite E0. change (derivs_inv p false L n (with_derivs (with_derivs t (assoc_set w (dc_flush c) (t_derivs t))) (assoc_set w (dsettle (dc_flush c)) (t_derivs (with_derivs t (assoc_set w (dc_flush c) (t_derivs t))))))).
    eapply derivs_inv_set; [|exact Hw|apply dsettle_inv, deriv_flush, HB|exact HBl]. eapply derivs_inv_set; [exact HD|exact Hw|apply deriv_flush, HB|exact HBl]. }
  assert (Hc0 : assoc_get w (t_derivs t0) = Some (dsettle (dc_flush c))) by (rewrite E0; cbn [with_derivs t_derivs]; rewrite assoc_get_set, bytes_eqb_refl; reflexivity).
  assert (HDD : dur_deriv c (dsettle (dc_flush c)) 0).
  { split.
    - reflexivity.
    - cbn [dsettle dc_cfg]. unfold file_settle. rewrite dc_cfg_flush. reflexivity.
    - cbn [dsettle dc_flush dc_height]. cbn. lia.
    - intros m i Hi. cbn [dsettle dc_flush dc_blocks dc_dump_config]. apply crash_flush.
    - reflexivity.
    - intros m h v Hv. left. cbn [dsettle dc_flush dc_refs dc_dump_config]. rewrite crash_flush. exact Hv. }
  destruct (dur_deriv_run p w c ops t0 _ 0 ltac:(cbn [Nat.add]; lia) Hc0 HDD Hf) as (c1 & Hc1 & [D1 D2 D3 D4 D5 D6]).
  destruct (run_derivs p ops t0 L n HL0 HD0 ltac:(lia) ltac:(lia) W) as (L1 & _ & HD1 & _).
  destruct (t_new_closed _ _ Ho) as [Ec Ed]. cbn [t_crash k_derivs] in Ec.
  assert (Hcl : assoc_get (hex_encode w) (t_closed t') = Some (dc_crash (sv_deriv s w) c1)).
  { rewrite Ec. unfold close_derivs. destruct HD1 as (N1 & N2 & _).
    apply (close_derivs_open (fun o c => dc_crash (sv_deriv s o) c) w c1); [exact N1|intros w' c' Hi; apply (N2 w' c' Hi)|].
    apply assoc_get_in, Hc1. }
  unfold t_get_derivative_chain. rewrite Ed. cbn [assoc_get]. rewrite Hb. cbn [bind unwrap_opt]. rewrite Hcl.
  destruct (sv_deriv s w) as [[sb sr] sc]. cbn [dc_crash].
  rewrite (dc_new_cfg _ _ (dc_height c) (dc_difficulty c) (dc_genesis c));
    [|lia|apply (di_diff _ _ _ _ _ _ HB)|apply (di_genesis _ _ _ _ _ _ HB)|cbn [dd_cfg]; rewrite D2; apply file_crash_settled].
  eexists. cbn [snd]. split; [reflexivity|]. cbn [dd_blocks dd_refs dd_cfg]. unfold dc_get_height. cbn [dc_height dc_genesis].
  split; [reflexivity|]. split; [reflexivity|].
  assert (Hk : forall i, i < dc_height c -> dc_find_raw_by_height i (MkDeriv (sled_crash sb (dc_blocks c1)) (sled_crash sr (dc_refs c1)) (dc_height c) (dc_genesis c) (dc_difficulty c) (file_crash sc (dc_cfg c1))) = dc_find_raw_by_height i c).
  { intros i Hi. unfold dc_find_raw_by_height. cbn [dc_height dc_blocks]. destruct (dc_height c <? i); [reflexivity|apply D4, Hi]. }
  split; [|split].
  - intros i Hi. rewrite (Hk i Hi). split; [reflexivity|]. destruct (nthN_ex B i) as (x & Hx); [lia|]. rewrite (deriv_find_raw _ _ _ _ _ _ _ _ HB Hx). discriminate.
  - unfold dc_get_last_block, dc_get_last_raw_block, u256_sub. cbn [dc_height]. destruct (N.eqb_spec (dc_height c) 0); [reflexivity|].
    destruct (N.leb_spec 1 (dc_height c)); [|lia]. cbn [bind]. rewrite Hk by lia. reflexivity.
  - intros i d Hi Hd Hh1. destruct (nthN_ex B i) as (x & Hx); [lia|]. pose proof (deriv_find_raw _ _ _ _ _ _ _ _ HB Hx) as Ed1. rewrite Hd in Ed1. injection Ed1 as Ed1.
    pose proof (co_heights _ _ _ _ _ _ _ (di_chain _ _ _ _ _ _ HB) i x Hx) as Hxi. assert (Hxw : info_wf x) by (pose proof (co_wf _ _ _ _ _ _ _ (di_chain _ _ _ _ _ _ HB)) as F; rewrite Forall_forall in F; apply F; eapply nth_error_In, Hx).
    assert (Hcol : forall y, info_wf y -> sha256 (block_dump (DerivBlock y)) = sha256 d -> y = x \/ collision d (block_dump (DerivBlock y))).
    { intros y Wy Ey. destruct (bytes_eq_dec d (block_dump (DerivBlock y))) as [Eq|Ne]; [left|right; split; [exact Ne|symmetry; exact Ey]].
      rewrite Ed1 in Eq. change (block_dump (DerivBlock x) = block_dump (DerivBlock y)) in Eq. apply block_dump_inj in Eq; [congruence|exact Hxw|exact Wy]. }
    unfold dc_find_raw_by_hash in Hh1. destruct (sled_get (sha256 d) (dc_refs c)) as [v|] eqn:Ev; [|discriminate Hh1].
    destruct (di_refs _ _ _ _ _ _ HB _ _ Ev) as (y & Wy & Ey & ->). destruct (Hcol y Wy (eq_sym Ey)) as [->|Hy]; [|right; exists y; split; assumption].
    destruct (D6 sr _ _ Ev) as [G|(j & d' & G1 & G2 & G3)].
    + left. unfold dc_find_raw_by_hash. cbn [dc_refs]. rewrite G. rewrite height_key_length in *. cbn [Nat.ltb Nat.leb] in *. rewrite from_height_key in * by (rewrite Hxi; lia). rewrite Hxi in *. rewrite Hk by lia. exact Hh1.
    + right. destruct (derivs_inv_get _ _ _ _ _ _ _ HD1 Hc1) as (_ & B1 & HB1 & _). pose proof (di_height _ _ _ _ _ _ HB1) as Hh2. destruct (nthN_ex B1 j) as (y & Hy); [lia|].
      pose proof (di_chain _ _ _ _ _ _ HB1) as C1. rewrite (co_blocks _ _ _ _ _ _ _ C1 j y Hy) in G2. injection G2 as <-.
      assert (Wy' : info_wf y) by (pose proof (co_wf _ _ _ _ _ _ _ C1) as F; rewrite Forall_forall in F; apply F; eapply nth_error_In, Hy).
      exists y. split; [exact Wy'|]. destruct (Hcol y Wy' G3) as [->|Hc2]; [|exact Hc2]. pose proof (co_heights _ _ _ _ _ _ _ C1 j x Hy). lia.
Qed.
(*@T C86: a derivative chain flushed through its handle, with the config write on disk, survives every crash before the
    next flush of that chain: asking for it again after the crash gives the flushed height and genesis hash, every flushed block and the same last block, and the blocks that were found by
    their hashes still are (or a block with the same hash as a flushed one is exhibited), provided the last block of the main chain can be read. *)
Lemma p_C86_flushed_derivative_survives_crash : forall p n t w c ops s t' b,
  reachable any_op p n t -> few (n + length ops) -> is_array 33 w -> assoc_get w (t_derivs t) = Some c ->
  Forall op_wf ops -> Forall (fun o => o <> ODerivFlush w) ops ->
  t_new (t_crash s (run p (deriv_settle w (fst (step p t (ODerivFlush w)))) ops)) = Ok t' ->
  mc_get_last_block (t_main t') = Ok (Some b) ->
  exists c', snd (t_get_derivative_chain w t') = Ok c' /\
    dc_get_height c' = dc_get_height c /\ dc_genesis c' = dc_genesis c /\
    (forall i, i < dc_get_height c -> dc_find_raw_by_height i c' = dc_find_raw_by_height i c /\ dc_find_raw_by_height i c' <> None) /\
    dc_get_last_block c' = dc_get_last_block c /\
    (forall i d, i < dc_get_height c -> dc_find_raw_by_height i c = Some d -> dc_find_raw_by_hash (sha256 d) c = Ok (Some d) ->
      dc_find_raw_by_hash (sha256 d) c' = Ok (Some d) \/ exists x, info_wf x /\ collision d (block_dump (DerivBlock x))).
Proof.
  intros p n t w c ops s t' b Hr Hn Hw Hc W Hf Ho Hb.
  destruct (reachable_derivs false _ _ _ _ Hr ltac:(intros ? _ ?; discriminate) ltac:(unfold few in *; lia)) as (L & HL & Hlen & HD).
  eapply deriv_survives; eassumption.
Qed.
(*@E
(* two blocks flushed, a third emitted after the flush is lost *)
Example C86_ex : let t := run Debug fresh [deriv_1; deriv_2] in
  match t_new (t_crash (svs 0 0 0 0 0 0) (run Debug (deriv_settle addrA (fst (step Debug t (ODerivFlush addrA)))) [OGetDeriv addrB; OFlush])) with
  | Ok t' => match mc_get_last_block (t_main t'), snd (t_get_derivative_chain addrA t') with Ok (Some _), Ok c => dc_get_height c | _, _ => 0 end
  | _ => 0 end = 2.
Proof. vm_compute. reflexivity. Qed.
@*)

Lemma unflushed_wf p t ops : unflushed p t ops -> Forall op_wf ops.
Proof. induction 1 as [|ops o H IH W _]; [constructor|]. apply Forall_app. split; [exact IH|repeat constructor; exact W]. Qed.
(*@T C87, what works: if the main chain is flushed once the chain is open, and then the chain itself, both with their config writes on
    disk, then after every crash before the next flush the chain is found again with the same genesis hash, and the main chain still
    has the block with that hash, unless a SHA-256 collision was stored.
    Missing: a chain flushed on its own, see [C87_detached_refuted]. *)
Lemma p_C87_attached_after_crash_partial : forall p n t w c ops s t' b,
  reachable any_op p n t -> few (n + length ops) -> is_array 33 w -> assoc_get w (t_derivs t) = Some c ->
  unflushed p (deriv_settle w (fst (step p (t_settle (t_flush t)) (ODerivFlush w)))) ops -> Forall (fun o => o <> ODerivFlush w) ops ->
  t_new (t_crash s (run p (deriv_settle w (fst (step p (t_settle (t_flush t)) (ODerivFlush w)))) ops)) = Ok t' ->
  mc_get_last_block (t_main t') = Ok (Some b) ->
  exists c', snd (t_get_derivative_chain w t') = Ok c' /\ dc_genesis c' = dc_genesis c /\
    ((exists d, mc_find_raw_by_hash (dc_genesis c') (t_main t') = Ok (Some d) /\ sha256 d = dc_genesis c') \/ exists d d', collision d d').
Proof.
  intros p n t w c ops s t' b Hr Hn Hw Hc Hu Hf Ho Hb.
  destruct (reachable_derivs false _ _ _ _ Hr ltac:(intros ? _ ?; discriminate) ltac:(unfold few in *; lia)) as (L & HL & Hlen & HD).
  destruct (derivs_inv_get _ _ _ _ _ _ _ HD Hc) as (_ & B & HB & HBl). destruct (di_genesis _ _ _ _ _ _ HB) as [_ (m & Hm & Hmg)].
  pose proof (flush_tree t L HL) as HL1.
  assert (HD1 : derivs_inv p false L n (t_settle (t_flush t))) by (eapply derivs_inv_same; [exact HD|auto|lia|reflexivity|reflexivity]).
  destruct (deriv_survives p n (t_settle (t_flush t)) L w c ops s t' b HL1 Hlen HD1 Hn Hw Hc (unflushed_wf _ _ _ Hu) Hf Ho Hb) as (c' & E1 & _ & E2 & _).
  exists c'. split; [exact E1|]. split; [exact E2|]. rewrite E2.
  assert (Em : t_main (deriv_settle w (fst (step p (t_settle (t_flush t)) (ODerivFlush w)))) = t_main (t_settle (t_flush t))).
  { cbn [step]. change (t_derivs (t_settle (t_flush t))) with (t_derivs t). rewrite Hc. cbn [fst]. unfold deriv_settle. cbn [with_derivs t_derivs].
    rewrite assoc_get_set, bytes_eqb_refl. reflexivity. }
  destruct (lookups_survive p n t _ ops s t' Hr Em Hu Hn Ho) as [_ F].
  pose proof (main_find_raw_hash _ L (dc_genesis c) (ti_main _ _ HL) ltac:(unfold few in *; lia)) as G.
  destruct (mc_find_raw_by_hash (dc_genesis c) (t_main t)) as [[d|]|e| |] eqn:Ed; try contradiction.
  - destruct G as (i & x & _ & -> & Hx). destruct (F _ _ Ed) as [G|(d' & G)]; [left; eauto|right; eauto].
  - destruct (G m Hm Hmg).
Qed.
(*@E
Example C87_ex : let t := run Debug fresh [emit_good; OGetDeriv addrA] in
  match t_new (t_crash (svs 0 0 0 0 0 0) (run Debug (deriv_settle addrA (fst (step Debug (t_settle (t_flush t)) (ODerivFlush addrA)))) [])) with
  | Ok t' => match snd (t_get_derivative_chain addrA t') with Ok c => (dc_get_height c, mc_find_raw_by_hash (dc_genesis c) (t_main t')) | _ => (7, Ok None) end
  | _ => (7, Ok None) end = (0, Ok (Some (block_dump (last_of (run Debug fresh [emit_good]))))).
Proof. vm_compute. reflexivity. Qed.
@*)
(*@T C87 fails: a chain opened on a new main block and flushed through its handle, while the main chain is not flushed.  A crash loses the main
    block and keeps the chain, whose genesis hash then names no block: every first emission on it is refused, whatever the proof of work and time. *)
Lemma p_C87_detached_refuted : exists n t s t' c,
  reachable any_op Debug n t /\ few n /\ t_new (t_crash s t) = Ok t' /\ snd (t_get_derivative_chain addrA t') = Ok c /\ dc_get_height c = 0 /\
  mc_find_raw_by_hash (dc_genesis c) (t_main t') = Ok None /\
  forall p pow ts, snd (t_emmit_new_derivative_block p pow addrA ts t') = Err EChainFindByHash.
Proof.
  pose (s := MkSurv 0 0 0 3 0 0 0 0 (fun _ => (5, 5, 5)%nat)).
  assert (Hr : reachable any_op Debug 4 (run Debug fresh [OFlush; emit_good; OGetDeriv addrA; ODerivFlush addrA])).
  { apply (reach_call any_op Debug 3 (run Debug fresh [OFlush; emit_good; OGetDeriv addrA]) (ODerivFlush addrA)).
    - apply (reach_call any_op Debug 2 (run Debug fresh [OFlush; emit_good]) (OGetDeriv addrA)).
      + apply (reach_call any_op Debug 1 (run Debug fresh [OFlush]) emit_good).
        * apply (reach_call any_op Debug 0 fresh OFlush); [apply reach_open; vm_compute; reflexivity|exact I|exact I].
        * repeat split; try (repeat constructor; fail); vm_compute; repeat constructor.
        * exact I.
      + repeat split; try (repeat constructor; fail); vm_compute; repeat constructor.
      + exact I.
    - repeat split; try (repeat constructor; fail); vm_compute; repeat constructor.
    - exact I. }
  exists 4%nat. eexists. exists s. do 2 eexists. split; [exact Hr|]. split; [unfold few; lia|]. split; [vm_compute; reflexivity|].
  split; [vm_compute; reflexivity|]. split; [vm_compute; reflexivity|]. split; [vm_compute; reflexivity|]. intros p pow ts. vm_compute. reflexivity.
Qed.
