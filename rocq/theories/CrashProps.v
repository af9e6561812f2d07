(** Proofs of the crash and reopen theorems. *)
From Coq Require Import Lia ZifyBool ZifyNat ZifyN.
From Verif Require Import Base Sha256 Merkle Tools Transaction Block Sled Chain Tree Spec Reach LedgerSpec CrashSpec Demo.
From Verif Require Import BaseFacts ToolsFacts MerkleFacts DiffFacts CodecFacts SledFacts ChainFacts TreeFacts LedgerFacts DerivFacts CrashFacts.

(** ** Opening after a crash *)
Lemma t_new_settled s t L0 : dur_inv (t_main t) L0 -> 0 < N.of_nat (length L0) < 2 ^ 256 ->
  exists t', t_new (t_crash s t) = Ok t' /\ mc_height (t_main t') = N.of_nat (length L0) /\
    mc_blocks (t_main t') = sled_crash (sv_blocks s) (mc_blocks (t_main t)) /\
    mc_refs (t_main t') = sled_crash (sv_refs s) (mc_refs (t_main t)) /\
    mc_txs (t_main t') = sled_crash (sv_txs s) (mc_txs (t_main t)).
Proof.
  intros [D1 _ _] Hl. unfold t_new. cbn [t_crash k_main].
  rewrite (mc_new_settled (mc_crash s (t_main t)) (N.of_nat (length L0)) BEGINNING_DIFFICULTY); [|cbn [mc_crash md_cfg]; rewrite D1; apply file_crash_settled|exact Hl|reflexivity].
  cbn [bind]. eexists. split; [reflexivity|]. cbn [t_main mc_height mc_blocks mc_refs mc_txs mc_crash md_blocks md_refs md_txs]. repeat split.
Qed.

Lemma last_cases (L0 : list block) t0 : tree_inv t0 L0 -> exists b, nthN L0 (N.of_nat (length L0) - 1) = Some b.
Proof.
  intros H. exists (last L0 genesis). apply nthN_last, (tree_inv_ne _ _ H).
Qed.

Lemma flush_tree t L : tree_inv t L -> tree_inv (t_settle (t_flush t)) L.
Proof. intros H. apply (tree_inv_ext t); try exact H; reflexivity. Qed.

(*@T C59. Once a flush has completed and its file writes have reached the disk, every crash
   before the next flush leaves a directory that opens again, at the flushed height, with every
   flushed block, looked up by height, unchanged, the same last block and every flushed
   transaction still stored.  [s] says how much of the unflushed writes survived. *)
Lemma p_C59_flushed_blocks_survive_crash : forall p n t ops s,
  reachable any_op p n t -> unflushed p (t_settle (t_flush t)) ops -> few (n + length ops) ->
  exists t', t_new (t_crash s (run p (t_settle (t_flush t)) ops)) = Ok t' /\
    mc_get_height (t_main t') = mc_get_height (t_main t) /\
    (forall i, i < mc_get_height (t_main t) ->
       mc_find_raw_by_height i (t_main t') = mc_find_raw_by_height i (t_main t) /\
       mc_find_raw_by_height i (t_main t') <> None) /\
    mc_get_last_block (t_main t') = mc_get_last_block (t_main t) /\
    (forall h, mc_transaction_exists h (t_main t) = true -> mc_transaction_exists h (t_main t') = true).
Proof.
  intros p n t ops s Hr Hu Hn. destruct (reachable_crash _ _ _ _ Hr) as (L0 & HL & Hlen & HC); [unfold few in *; lia|]. unfold few in Hn.
  pose proof (tree_inv_ne _ _ HL) as Hne. assert (0 < N.of_nat (length L0)) by (destruct L0; [contradiction|cbn [length]; lia]).
  pose proof (flush_tree t L0 HL) as HL1. destruct (dur_start t L0 HL) as [HD HT].
  assert (HC1 : crash_inv (t_main (t_settle (t_flush t))) L0).
  { destruct (crash_inv_flush _ _ (ti_main _ _ HL) HC) as [F1 F2 F3 F4 F5]. split; assumption. }
  destruct (dur_run p _ L0 ops HL1 HC1 HD Hu ltac:(lia)) as (L & R1 & R2 & R3 & R4 & R5).
  destruct (t_new_settled s _ L0 R4 ltac:(lia)) as (t' & E & E1 & E2 & E3 & E4). exists t'. split; [exact E|].
  pose proof (mi_height _ _ (ti_main _ _ HL)) as Hh. unfold mc_get_height.
  assert (Hb : forall i, i < mc_height (t_main t) -> mc_find_raw_by_height i (t_main t') = mc_find_raw_by_height i (t_main t) /\ mc_find_raw_by_height i (t_main t') <> None).
  { intros i Hi. destruct (nthN_ex L0 i) as (b & Eb); [lia|].
    rewrite (main_find_raw _ L0 i (ti_main _ _ HL)) by lia. rewrite Eb. cbn [option_map].
    assert (G : mc_find_raw_by_height i (t_main t') = Some (block_dump b)).
    { unfold mc_find_raw_by_height. rewrite E1, E2. destruct (N.ltb_spec (N.of_nat (length L0)) i); [lia|]. apply (du_blocks _ _ R4), Eb. }
    rewrite G. split; [reflexivity|discriminate]. }
  split; [rewrite E1, Hh; reflexivity|]. split; [exact Hb|]. split.
  - unfold mc_get_last_block, mc_get_last_raw_block, u256_sub. rewrite E1, Hh.
    destruct (N.leb_spec 1 (N.of_nat (length L0))); [|lia]. cbn [bind]. rewrite (proj1 (Hb (N.of_nat (length L0) - 1) ltac:(lia))). reflexivity.
  - intros h Ht. unfold mc_transaction_exists, sled_contains. rewrite E4. pose proof (R5 h (HT h Ht) (sv_txs s)) as G.
    destruct (sled_get h (sled_crash (sv_txs s) _)); [reflexivity|contradiction].
Qed.
(*@E
(** One block is flushed, another one emitted and a transfer made, then all unflushed writes are lost,
    or the block is kept: the flushed height comes back both times. *)
Example C59_ex_calls :
  let t0 := run Debug fresh [emit_good] in
  unflushed Debug (t_settle (t_flush t0)) [OEmitMain (repeat 7 32) addrA [txh] 1597926000] /\
  map (fun s => match t_new (t_crash s (run Debug (t_settle (t_flush t0)) [OEmitMain (repeat 7 32) addrA [txh] 1597926000])) with
    | Ok t' => mc_get_height (t_main t') | _ => 0 end) [svs 0 0 0 0 0 0; svs 1 0 0 0 0 0; svs 1 1 1 1 1 1] = [2; 2; 2].
Proof.
  split; [|vm_compute; reflexivity].
  apply (unflushed_snoc _ _ []); [constructor| |].
  - repeat split; try (repeat constructor; fail); vm_compute; repeat constructor.
  - intros (i & root & E). vm_compute in E. discriminate E.
Qed.
@*)

(** ** Reopening at any crash point *)
Lemma mc_new_cases d m : mc_new d = Ok m ->
  (mc_blocks m = md_blocks d /\ mc_refs m = md_refs d /\ mc_txs m = md_txs d) \/
  (mc_blocks m = sled_insert (height_key 0) (block_dump genesis) (md_blocks d) /\
   mc_refs m = sled_insert (block_hash genesis) (height_key 0) (md_refs d) /\ mc_txs m = md_txs d).
Proof.
  unfold mc_new. destruct (mc_read_config (md_cfg d)) as [[h df]|e| |]; cbn [bind]; try discriminate.
  destruct (N.eqb_spec h 0) as [->|_]; intros E; [right|left; injection E as <-; auto].
  rewrite genesis_eq in E. cbn [bind] in E.
  rewrite mc_add_block_right in E; [|reflexivity|cbn [mc_height]; lia]. cbn [change_context bind] in E. injection E as <-.
  cbn [mc_appended mc_blocks mc_refs mc_txs mc_height]. auto.
Qed.

Lemma crash_reads s t t' L : tree_inv t L -> crash_inv (t_main t) L -> t_new (t_crash s t) = Ok t' ->
  (forall i d, i < 2 ^ 256 -> sled_get (height_key i) (mc_blocks (t_main t')) = Some d -> exists b, nthN L i = Some b /\ d = block_dump b) /\
  (forall h v, sled_get h (mc_refs (t_main t')) = Some v -> exists i b, nthN L i = Some b /\ block_hash b = h /\ v = height_key i).
Proof.
  intros HL HC E. unfold t_new in E. destruct (mc_new (k_main (t_crash s t))) as [m|e| |] eqn:Em; cbn [bind] in E; try discriminate E.
  injection E as <-. cbn [t_main]. cbn [t_crash k_main] in Em. pose proof (ti_gen _ _ HL) as Hg.
  destruct (mc_new_cases _ _ Em) as [(E1 & E2 & _)|(E1 & E2 & _)]; rewrite E1, E2; cbn [mc_crash md_blocks md_refs]; split.
  - intros i d. apply (ci_blocks _ _ HC).
  - intros h v. apply (ci_refs _ _ HC).
  - intros i d Hi. unfold sled_insert. rewrite sled_get_commit1, height_key_eqb by lia. destruct (N.eqb_spec i 0) as [->|_].
    + intros Ed. injection Ed as <-. exists genesis. split; [exact Hg|reflexivity].
    + apply (ci_blocks _ _ HC), Hi.
  - intros h v. unfold sled_insert. rewrite sled_get_commit1. destruct (bytes_eqb h (block_hash genesis)) eqn:Eh.
    + apply bytes_eqb_eq in Eh as ->. intros Ed. injection Ed as <-. exists 0, genesis. split; [exact Hg|split; reflexivity].
    + apply (ci_refs _ _ HC).
Qed.

(*@T C61. Right after a crash, whatever survived, and a successful reopen, lookups by hash and by
   height still give only correct answers: a block found under a hash has that hash, a block found at a
   height is the one that was there before the crash.
   Missing: what happens when blocks are added afterwards, see [C61_stale_reference_after_crash_refuted]. *)
Lemma p_C61_lookups_after_crash_partial : forall p n t s t',
  reachable any_op p n t -> few n -> t_new (t_crash s t) = Ok t' ->
  (forall h, match mc_find_raw_by_hash h (t_main t') with
             | Ok (Some d) => sha256 d = h /\ mc_find_raw_by_hash h (t_main t) <> Ok None
             | Ok None => True | _ => False end) /\
  (forall i d, i < 2 ^ 256 -> mc_find_raw_by_height i (t_main t') = Some d -> mc_find_raw_by_height i (t_main t) = Some d).
Proof.
  intros p n t s t' Hr Hn E. destruct (reachable_crash _ _ _ _ Hr Hn) as (L & HL & Hlen & HC). unfold few in Hn.
  destruct (crash_reads s t t' L HL HC E) as [R1 R2]. split.
  - intros h. unfold mc_find_raw_by_hash at 1. destruct (sled_get h (mc_refs (t_main t'))) as [v|] eqn:Ev; [|exact I].
    destruct (R2 h v Ev) as (i & b & Hb & Hh & ->). rewrite height_key_length. change (Nat.ltb 32 32) with false. cbn iota.
    pose proof (nthN_some _ _ _ Hb). rewrite from_height_key by lia.
    destruct (mc_find_raw_by_height i (t_main t')) as [d|] eqn:Ed; [|exact I].
    unfold mc_find_raw_by_height in Ed. destruct (mc_height (t_main t') <? i); [discriminate|].
    destruct (R1 i d ltac:(lia) Ed) as (b' & Hb' & ->). rewrite Hb in Hb'. injection Hb' as <-. split; [exact Hh|].
    pose proof (main_find_raw_hash (t_main t) L h (ti_main _ _ HL) ltac:(lia)) as G. intros G0. rewrite G0 in G. apply (G b); [eapply nthN_in, Hb|exact Hh].
  - intros i d Hi Ed. unfold mc_find_raw_by_height in Ed. destruct (mc_height (t_main t') <? i); [discriminate|].
    destruct (R1 i d Hi Ed) as (b & Hb & ->). rewrite (main_find_raw (t_main t) L i (ti_main _ _ HL)) by lia. rewrite Hb. reflexivity.
Qed.
(*@E
(** After a crash that kept the reference but not the block, nothing is found under the hash;
    the genesis block still is. *)
Example C61_ex_lookups :
  let t := run Debug fresh [OFlush; emit_good] in
  match t_new (t_crash (svs 0 1 0 3 0 0) t) with
  | Ok t' => (mc_find_raw_by_hash (block_hash (last_of t)) (t_main t'),
              mc_find_raw_by_hash (block_hash (last_of fresh)) (t_main t'))
  | _ => (Panic, Panic) end = (Ok None, Ok (Some (block_dump (last_of fresh)))).
Proof. vm_compute. reflexivity. Qed.
@*)

(*@T C61 fails once the chain is extended after the crash: the reference of a lost block survives and points at
   the height where another block is put; looking up the hash of the lost block returns that other block. *)
Lemma p_C61_stale_reference_after_crash_refuted : exists n t s t' o h d,
  reachable any_op Debug n t /\ few n /\ t_new (t_crash s t) = Ok t' /\ op_wf o /\
  mc_find_raw_by_hash h (t_main (fst (step Debug t' o))) = Ok (Some d) /\ sha256 d <> h.
Proof.
  set (t1 := run Debug fresh [OFlush; emit_good]).
  assert (Hw : forall o, In o [emit_good; emit_bad] -> op_wf o).
  { intros o [<-|[<-|[]]]; repeat split; try (repeat constructor; fail); vm_compute; repeat constructor. }
  assert (Hr : reachable any_op Debug 2 t1).
  { apply (reach_call any_op Debug 1 (run Debug fresh [OFlush]) emit_good); [|apply Hw; left; reflexivity|exact I].
    apply (reach_call any_op Debug 0 fresh OFlush); [|exact I|exact I]. apply reach_open. vm_compute. reflexivity. }
  assert (Hc : exists t', t_new (t_crash (svs 0 1 0 3 0 0) t1) = Ok t' /\
    match mc_find_raw_by_hash (block_hash (last_of t1)) (t_main (fst (step Debug t' emit_bad))) with
    | Ok (Some d) => bytes_eqb (sha256 d) (block_hash (last_of t1)) = false | _ => False end).
  { eexists. split; [vm_compute; reflexivity|]. vm_compute. reflexivity. }
  destruct Hc as (t' & E & G).
  destruct (mc_find_raw_by_hash (block_hash (last_of t1)) (t_main (fst (step Debug t' emit_bad)))) as [[d|]|e| |] eqn:Ed; try contradiction.
  exists 2%nat, t1, (svs 0 1 0 3 0 0), t', emit_bad, (block_hash (last_of t1)), d.
  split; [exact Hr|]. split; [unfold few; lia|]. split; [exact E|]. split; [apply Hw; right; left; reflexivity|]. split; [exact Ed|].
  apply bytes_eqb_neq, G.
Qed.

(** ** Crashing inside flush *)
(*@T C60 fails: the config file is truncated before it is rewritten.  A crash in between leaves
   an empty config and the chain can no longer be opened. *)
Lemma p_C60_truncated_config_refuted : exists n t x s,
  reachable any_op Debug n t /\ few n /\ In x (flush_points t) /\ t_new (t_crash s x) = Err EChainInit.
Proof.
  exists 0%nat, fresh, (with_main fresh (mc_dump_config (t_main fresh))), (svs 0 0 0 1 0 0).
  split; [apply reach_open; vm_compute; reflexivity|]. split; [unfold few; lia|]. split; [right; left; reflexivity|]. vm_compute. reflexivity.
Qed.

(*@T C60 fails in another way: the config, with the new height, is written before the blocks are flushed.  A crash in
   between leaves a chain that opens but whose last block is missing; the next emission panics. *)
Lemma p_C60_height_ahead_of_blocks_refuted : exists n t x s t' o,
  reachable any_op Debug n t /\ few n /\ In x (flush_points t) /\ t_new (t_crash s x) = Ok t' /\
  mc_get_last_block (t_main t') = Ok None /\ op_wf o /\ snd (step Debug t' o) = Panic.
Proof.
  exists 0%nat, fresh, (with_main fresh (mc_dump_config (t_main fresh))), (svs 0 0 0 3 0 0).
  eexists. exists emit_good. split; [apply reach_open; vm_compute; reflexivity|]. split; [unfold few; lia|]. split; [right; left; reflexivity|].
  split; [vm_compute; reflexivity|]. split; [vm_compute; reflexivity|].
  split; [repeat split; try (repeat constructor; fail); vm_compute; repeat constructor|]. vm_compute. reflexivity.
Qed.

(*@T C60, later part of a flush: once the config write has reached the disk and the blocks are flushed, a crash at any later
   point of the flush leaves a chain that opens at the same height with every block readable.
   Missing: the points before, where it fails as refuted above. *)
Lemma p_C60_late_flush_crash_partial : forall p n t x s,
  reachable any_op p n t -> few n -> In x (skipn 2 (flush_points t)) ->
  exists t', t_new (t_crash s (t_settle x)) = Ok t' /\
    mc_get_height (t_main t') = mc_get_height (t_main t) /\
    (forall i, mc_find_raw_by_height i (t_main t') = mc_find_raw_by_height i (t_main t)) /\
    mc_get_last_block (t_main t') = mc_get_last_block (t_main t).
Proof.
  intros p n t x s Hr Hn Hx. destruct (reachable_crash _ _ _ _ Hr Hn) as (L & HL & Hlen & HC). unfold few in Hn.
  pose proof (tree_inv_ne _ _ HL) as Hne. assert (0 < N.of_nat (length L)) by (destruct L; [contradiction|cbn [length]; lia]).
  pose proof (mi_height _ _ (ti_main _ _ HL)) as Hh.
  assert (G : mc_blocks (t_main x) = sled_flush (mc_blocks (t_main t)) /\ mc_cfg (t_main x) = mc_cfg (mc_flush (t_main t))).
  { cbn [flush_points skipn In] in Hx. destruct Hx as [<-|[<-|[<-|[<-|[]]]]]; split; reflexivity. }
  destruct G as [G1 G2]. unfold t_new. cbn [t_crash k_main].
  rewrite (mc_new_settled (mc_crash s (t_main (t_settle x))) (mc_height (t_main t)) BEGINNING_DIFFICULTY);
    [|cbn [mc_crash md_cfg t_settle with_main t_main mc_cfg]; rewrite G2; unfold file_settle; rewrite mc_cfg_flush, (ti_diff _ _ HL);
      apply file_crash_settled|lia|reflexivity].
  cbn [bind]. eexists. split; [reflexivity|]. cbn [t_main]. unfold mc_get_height. cbn [mc_height]. split; [reflexivity|].
  assert (Hb : forall i, mc_find_raw_by_height i (MkMain (md_blocks (mc_crash s (t_main (t_settle x)))) (md_refs (mc_crash s (t_main (t_settle x)))) (md_txs (mc_crash s (t_main (t_settle x)))) (mc_height (t_main t)) BEGINNING_DIFFICULTY (md_cfg (mc_crash s (t_main (t_settle x))))) = mc_find_raw_by_height i (t_main t)).
  { intros i. unfold mc_find_raw_by_height. cbn [mc_height mc_blocks]. cbn [mc_crash md_blocks t_settle with_main t_main mc_blocks]. rewrite G1, crash_flush. reflexivity. }
  split; [exact Hb|]. unfold mc_get_last_block, mc_get_last_raw_block. cbn [mc_height].
  destruct (u256_sub (mc_height (t_main t)) 1); cbn [bind]; try reflexivity. rewrite Hb. reflexivity.
Qed.
(*@E
Example C60_ex_late :
  let t := run Debug fresh [emit_good] in
  map (fun x => match t_new (t_crash (svs 0 0 0 0 0 0) (t_settle x)) with Ok t' => bytes_eqb (block_dump (last_of t')) (block_dump (last_of t)) | _ => false end)
    (skipn 2 (flush_points t)) = [true; true; true; true].
Proof. vm_compute. reflexivity. Qed.
@*)

(** ** Derivative chains *)
(*@T C58 fails: the flush of the tree does not flush derivative chains, and never writes their config.  After a
   clean shutdown and restart a chain with a block reads as empty, attached to the current last main block. *)
Lemma p_C58_flush_forgets_derivatives_refuted : exists n t w c t' c',
  reachable any_op Debug n t /\ few n /\ snd (t_get_derivative_chain w t) = Ok c /\
  t_new (t_close (t_flush t)) = Ok t' /\ snd (t_get_derivative_chain w t') = Ok c' /\
  dc_get_height c = 1 /\ dc_get_height c' = 0.
Proof.
  assert (Hr : reachable any_op Debug 1 (run Debug fresh [deriv_1])).
  { apply (reach_call any_op Debug 0 fresh deriv_1); [apply reach_open; vm_compute; reflexivity| |exact I].
    repeat split; try (repeat constructor; fail); vm_compute; repeat constructor. }
  exists 1%nat, (run Debug fresh [deriv_1]), addrA. do 3 eexists. split; [exact Hr|]. split; [unfold few; lia|].
  split; [vm_compute; reflexivity|]. split; [vm_compute; reflexivity|]. split; [vm_compute; reflexivity|]. split; vm_compute; reflexivity.
Qed.

(*@T C58, what works: if the chain itself was flushed ([DerivativeChain::flush] on the handle), then after a clean restart
   asking for the chain gives the same height, the same genesis hash and the same blocks by height and by hash, provided the
   last block of the main chain can be read.
   Missing: this is not what [BlockChainTree::flush] does, see [C58_flush_forgets_derivatives_refuted]. *)
Lemma p_C58_flushed_derivative_survives_partial : forall p n t w c t' b,
  reachable any_op p n t -> few n -> is_array 33 w ->
  assoc_get w (t_derivs t) = Some c ->
  t_new (t_close (t_flush (fst (step p t (ODerivFlush w))))) = Ok t' ->
  mc_get_last_block (t_main t') = Ok (Some b) ->
  exists c', snd (t_get_derivative_chain w t') = Ok c' /\
    dc_get_height c' = dc_get_height c /\ dc_genesis c' = dc_genesis c /\ dc_difficulty c' = dc_difficulty c /\
    (forall i, dc_find_raw_by_height i c' = dc_find_raw_by_height i c) /\
    (forall h, dc_find_raw_by_hash h c' = dc_find_raw_by_hash h c).
Proof.
  intros p n t w c t' b Hr Hn Hw Hc Ho Hb.
  destruct (reachable_derivs false _ _ _ _ Hr ltac:(intros ? _ ?; discriminate) Hn) as (L & HL & Hlen & HD). unfold few in Hn.
  destruct (derivs_inv_get _ _ _ _ _ _ _ HD Hc) as (_ & B & HB & HBl).
  set (t1 := fst (step p t (ODerivFlush w))) in *.
  assert (Et1 : t1 = with_derivs t (assoc_set w (dc_flush c) (t_derivs t))) by (subst t1; cbn [step]; rewrite Hc; reflexivity).
  assert (HL1 : tree_inv t1 L) by (apply (tree_inv_ext t); try exact HL; rewrite Et1; reflexivity).
  assert (HD1 : derivs_inv p false L n t1) by (rewrite Et1; eapply derivs_inv_set; [exact HD|exact Hw|apply deriv_flush, HB|exact HBl]).
  destruct (reopen_main t1 L HL1 ltac:(lia)) as (t2 & E2 & HL2 & _ & _ & _ & _ & _ & _ & _ & _ & Ed & Ec).
  rewrite Ho in E2. injection E2 as <-.
  assert (Hcl : assoc_get (hex_encode w) (t_closed t') = Some (dc_close (dc_flush c))).
  { rewrite Ec. unfold close_derivs. destruct HD1 as (N1 & N2 & _).
    apply (close_derivs_open (fun _ => dc_close) w (dc_flush c)); [exact N1|intros w' c' Hi; apply (N2 w' c' Hi)|].
    apply assoc_get_in. rewrite Et1. cbn [with_derivs t_derivs]. rewrite assoc_get_set, bytes_eqb_refl. reflexivity. }
  unfold t_get_derivative_chain. rewrite Ed. cbn [assoc_get]. rewrite Hb. cbn [bind unwrap_opt]. rewrite Hcl.
  rewrite (dc_new_cfg _ _ (dc_height c) (dc_difficulty c) (dc_genesis c));
    [|rewrite (di_height _ _ _ _ _ _ HB); lia|apply (di_diff _ _ _ _ _ _ HB)|apply (di_genesis _ _ _ _ _ _ HB)|].
  - eexists. cbn [snd]. split; [reflexivity|]. cbn [dc_get_height dc_height dc_genesis dc_difficulty].
    unfold dc_get_height. cbn [dc_height]. split; [reflexivity|]. split; [reflexivity|]. split; [reflexivity|].
    assert (Hf : forall i, dc_find_raw_by_height i (MkDeriv (dd_blocks (dc_close (dc_flush c))) (dd_refs (dc_close (dc_flush c))) (dc_height c) (dc_genesis c) (dc_difficulty c) (dd_cfg (dc_close (dc_flush c)))) = dc_find_raw_by_height i c) by (intros i; reflexivity).
    split; [exact Hf|]. intros h. reflexivity.
  - cbn [dc_close dd_cfg file_settle file_cur f_pend last f_dur]. exact (dc_cfg_flush c).
Qed.
(*@E
Example C58_ex_flushed :
  let t := run Debug fresh [deriv_1; deriv_2] in
  match t_new (t_close (t_flush (fst (step Debug t (ODerivFlush addrA))))) with
  | Ok t' => match mc_get_last_block (t_main t'), snd (t_get_derivative_chain addrA t') with
             | Ok (Some _), Ok c => dc_get_height c | _, _ => 0 end
  | _ => 0 end = 2.
Proof. vm_compute. reflexivity. Qed.
@*)

(** ** Balances *)
Definition commits (s s' : sled) : Prop := s' = s \/ exists b, s' = sled_commit b s.
Lemma led_tx_commits s r : commits s (fst (led_tx s r)).
Proof. destruct r; [right; eexists; reflexivity|left; reflexivity..]. Qed.
Lemma on_summary_commits f t : (forall s, commits s (fst (f s))) ->
  commits (t_summary t) (t_summary (fst (t_on_summary f t))) /\ t_gas (fst (t_on_summary f t)) = t_gas t.
Proof. intros H. unfold t_on_summary. specialize (H (t_summary t)). destruct (f (t_summary t)). split; [exact H|reflexivity]. Qed.
Lemma on_gas_commits f t : (forall s, commits s (fst (f s))) ->
  commits (t_gas t) (t_gas (fst (t_on_gas f t))) /\ t_summary (fst (t_on_gas f t)) = t_summary t.
Proof. intros H. unfold t_on_gas. specialize (H (t_gas t)). destruct (f (t_gas t)). split; [exact H|reflexivity]. Qed.
Lemma send_amount_commits x y a t :
  commits (t_summary t) (t_summary (fst (t_send_amount x y a t))) /\ t_gas (fst (t_send_amount x y a t)) = t_gas t.
Proof.
  unfold t_send_amount. destruct (bytes_eqb x y); [split; [left|]; reflexivity|].
  apply on_summary_commits. intros s. apply led_tx_commits.
Qed.

Lemma step_commits p t o L : tree_inv t L -> op_wf o -> N.of_nat (length L) + 1 < 2 ^ 256 -> ~ flushes p t o ->
  commits (t_summary t) (t_summary (fst (step p t o))) /\ commits (t_gas t) (t_gas (fst (step p t o))).
Proof.
  intros H Hwf Hlen Hnf.
  assert (Hsame : forall t', t_summary t' = t_summary t -> t_gas t' = t_gas t -> commits (t_summary t) (t_summary t') /\ commits (t_gas t) (t_gas t')).
  { intros t' -> ->. split; left; reflexivity. }
  assert (HA : forall f, (forall s, commits s (fst (f s))) -> commits (t_summary t) (t_summary (fst (t_on_summary f t))) /\ commits (t_gas t) (t_gas (fst (t_on_summary f t)))).
  { intros f Hf. destruct (on_summary_commits f t Hf) as [A1 A2]. split; [exact A1|left; exact A2]. }
  assert (HG : forall f, (forall s, commits s (fst (f s))) -> commits (t_summary t) (t_summary (fst (t_on_gas f t))) /\ commits (t_gas t) (t_gas (fst (t_on_gas f t)))).
  { intros f Hf. destruct (on_gas_commits f t Hf) as [A1 A2]. split; [left; exact A2|exact A1]. }
  destruct o; cbn [step ret_unit ret_block fst].
  - apply HA. intros s. apply led_tx_commits.
  - apply HA. intros s. apply led_tx_commits.
  - apply HA. intros s. apply led_tx_commits.
  - destruct (send_amount_commits from to a t) as [A1 A2]. split; [exact A1|left; exact A2].
  - apply HG. intros s. apply led_tx_commits.
  - apply HG. intros s. apply led_tx_commits.
  - apply HG. intros s. apply led_tx_commits.
  - unfold t_send_transaction. match goal with |- context [match ?x with Ok _ => _ | Err _ => _ | Panic => _ | UB => _ end] => destruct x as [g|e| |] end;
      try (apply Hsame; reflexivity).
    set (t1 := with_main t _). destruct (send_amount_commits (tx_sender tx) (tx_receiver tx) (tx_amount tx) t1) as [A1 A2].
    destruct (t_send_amount (tx_sender tx) (tx_receiver tx) (tx_amount tx) t1) as [t2 r]. cbn [fst] in A1, A2.
    change (t_summary t1) with (t_summary t) in A1. change (t_gas t1) with (t_gas t) in A2.
    destruct r as [u|e| |]; cbn [fst]; try (split; [exact A1|left; exact A2]).
    unfold t_sub_gas. destruct (on_gas_commits (led_sub (tx_sender tx) g) t2) as [B1 B2]; [intros s; apply led_tx_commits|].
    rewrite B2. split; [exact A1|]. rewrite A2 in B1. exact B1.
  - destruct Hwf as (W1 & W2 & W3 & W4).
    destruct (t_emmit_new_main_block p pow founder txs ts t) as [t' r] eqn:E. cbn [fst].
    pose proof (emit_main_tree p t L _ _ _ _ _ _ H Hlen W1 W2 W3 W4 E) as S.
    destruct r as [b|e| |]; try (apply Hsame; rewrite S; reflexivity).
    destruct S as (_ & _ & _ & _ & _ & _ & _ & _ & ->). destruct b as [fee root i l|i|i root]; try (apply Hsame; reflexivity).
    exfalso. apply Hnf. exists i, root. cbn [step ret_block snd]. rewrite E. reflexivity.
  - destruct (emit_deriv_ledgers p pow founder ts t) as (E1 & E2 & _). apply Hsame; assumption.
  - destruct (get_deriv_ledgers owner t) as (E1 & E2 & _). destruct (t_get_derivative_chain owner t). apply Hsame; assumption.
  - destruct (add_new_block_ledgers b txs t) as (E1 & E2 & _). apply Hsame; assumption.
  - apply Hsame; reflexivity.
  - destruct (assoc_get owner (t_derivs t)); [|apply Hsame; reflexivity]. destruct (dc_add_block i d). apply Hsame; reflexivity.
  - destruct (Hnf I).
  - destruct (Hnf I).
  - destruct (assoc_get owner (t_derivs t)); apply Hsame; reflexivity.
Qed.

Lemma ops_firstn p t ops o k : (k <= length ops)%nat -> run p t (firstn k (ops ++ [o])) = run p t (firstn k ops).
Proof. intros H. rewrite firstn_app. replace (k - length ops)%nat with 0%nat by lia. cbn [firstn]. rewrite app_nil_r. reflexivity. Qed.

Lemma crash_prefix p t L0 ops : tree_inv t L0 -> ledgers_ok t -> pend (t_summary t) = [] -> pend (t_gas t) = [] ->
  unflushed p t ops -> N.of_nat (length L0 + length ops) + 1 < 2 ^ 256 ->
  (exists L, tree_inv (run p t ops) L /\ (length L <= length L0 + length ops)%nat) /\ ledgers_ok (run p t ops) /\
  (forall n, exists k, (k <= length ops)%nat /\ forall w, sled_get w (sled_crash n (t_summary (run p t ops))) = sled_get w (t_summary (run p t (firstn k ops)))) /\
  (forall n, exists k, (k <= length ops)%nat /\ forall w, sled_get w (sled_crash n (t_gas (run p t ops))) = sled_get w (t_gas (run p t (firstn k ops)))).
Proof.
  intros HL HO Hs Hg Hu. induction Hu as [|ops o Hu IH Hwf Hnf]; intros Hlen.
  - split; [exists L0; split; [exact HL|cbn; lia]|]. split; [exact HO|].
    split; intros n; exists 0%nat; (split; [lia|]); intros w; cbn [run fold_left firstn];
      [rewrite <- (crash_full (t_summary t)) by apply (lo_summary _ HO)|rewrite <- (crash_full (t_gas t)) by apply (lo_gas _ HO)];
      unfold sled_crash; rewrite ?Hs, ?Hg, !firstn_nil; reflexivity.
  - rewrite app_length in *. cbn [length] in *. destruct IH as ((L & HLr & Hl) & HOr & IS & IG); [lia|]. rewrite run_snoc.
    destruct (step_main p _ o L HLr Hwf ltac:(lia)) as (L' & HL' & Hgr).
    assert (Hl' : (length L' <= length L0 + (length ops + 1))%nat) by (destruct Hgr as [->|(b & -> & _)]; rewrite ?app_length; cbn [length]; lia).
    pose proof (step_ledgers p _ o L HLr Hwf ltac:(lia) HOr) as HO'.
    destruct (step_commits p _ o L HLr Hwf ltac:(lia) Hnf) as [CS CG].
    split; [exists L'; split; [exact HL'|exact Hl']|]. split; [exact HO'|].
    assert (Hall : forall (f : bct -> sled), sled_ok (f (run p t ops)) -> commits (f (run p t ops)) (f (fst (step p (run p t ops) o))) ->
      (forall n, exists k, (k <= length ops)%nat /\ forall w, sled_get w (sled_crash n (f (run p t ops))) = sled_get w (f (run p t (firstn k ops)))) ->
      forall n, exists k, (k <= length ops + 1)%nat /\ forall w, sled_get w (sled_crash n (f (fst (step p (run p t ops) o)))) = sled_get w (f (run p t (firstn k (ops ++ [o]))))).
    { intros f Hok Hc IHf n. destruct (IHf n) as (k & Hk & Ek).
      destruct Hc as [E|(b & E)]; [exists k; split; [lia|]; intros w; rewrite E, ops_firstn by exact Hk; apply Ek|].
      destruct (crash_commit n b _ Hok) as [G|G].
      - exists k. split; [lia|]. intros w. rewrite E, G, ops_firstn by exact Hk. apply Ek.
      - exists (length ops + 1)%nat. split; [lia|]. intros w. rewrite firstn_all2 by (rewrite app_length; cbn; lia). rewrite run_snoc, E. apply G. }
    split; [apply (Hall t_summary); [apply (lo_summary _ HOr)|exact CS|exact IS]|apply (Hall t_gas); [apply (lo_gas _ HOr)|exact CG|exact IG]].
Qed.

(*@T C68. After a crash and reopen, the amounts are exactly those of some moment between two calls since the last
   flush, for all accounts at once, and so is the gas: no half-made transfer is ever recovered.  The exception is the root
   account, which is set again to the amount of a cycle when the chain reopens with only its first block. *)
Lemma p_C68_balances_after_crash : forall p n t ops s t',
  reachable any_op p n t -> unflushed p (t_flush t) ops -> few (n + length ops) ->
  t_new (t_crash s (run p (t_flush t) ops)) = Ok t' ->
  (exists k, (k <= length ops)%nat /\ forall w, w <> ROOT_PUBLIC_ADDRESS \/ mc_get_height (t_main t') <> 1 ->
     t_get_amount w t' = t_get_amount w (run p (t_flush t) (firstn k ops))) /\
  (exists k, (k <= length ops)%nat /\ forall w,
     t_get_gas w t' = t_get_gas w (run p (t_flush t) (firstn k ops))).
Proof.
  intros p n t ops s t' Hr Hu Hn E. destruct (reachable_inv _ _ _ _ Hr) as (L & HL & Hlen); [unfold few in *; lia|].
  pose proof (reachable_ledgers _ _ _ _ Hr ltac:(unfold few in *; lia)) as HO. unfold few in Hn.
  assert (HL1 : tree_inv (t_flush t) L) by (apply (tree_inv_ext t); try exact HL; reflexivity).
  assert (HO1 : ledgers_ok (t_flush t)).
  { destruct HO as [O1 O2 O3 O4]. split; cbn [t_flush t_summary t_old_summary t_gas t_old_gas]; apply led_ok_flush; assumption. }
  destruct (crash_prefix p _ L ops HL1 HO1 eq_refl eq_refl Hu ltac:(lia)) as (_ & _ & IS & IG).
  unfold t_new in E. destruct (mc_new (k_main (t_crash s (run p (t_flush t) ops)))) as [m|e| |]; cbn [bind] in E; try discriminate E. injection E as <-.
  destruct (IS (sv_summary s)) as (k & Hk & Ek). destruct (IG (sv_gas s)) as (k' & Hk' & Ek'). split.
  - exists k. split; [exact Hk|]. intros w Hw. unfold t_get_amount, led_get. cbn [t_summary t_main] in *. rewrite <- Ek.
    cbn [t_crash k_summary]. destruct (N.eqb_spec (mc_get_height m) 1) as [E1|_]; [|reflexivity].
    destruct Hw as [Hw|Hw]; [|contradiction]. rewrite sled_get_commit1, (proj2 (bytes_eqb_neq _ _) Hw). reflexivity.
  - exists k'. split; [exact Hk'|]. intros w. unfold t_get_gas, led_get. cbn [t_gas]. rewrite <- Ek'. reflexivity.
Qed.
(*@E
(** Two transfers after a flush; the crash keeps one of them. *)
Example C68_ex_transfers :
  let ops := [OSendAmount addrA addrB 5; OSendAmount addrA addrB 7] in
  let t := funded in
  match t_new (t_crash (svs 0 0 0 3 1 0) (run Debug (t_flush t) ops)) with
  | Ok t' => (t_get_amount addrA t', t_get_amount addrB t', t_get_gas addrA t')
  | _ => (Panic, Panic, Panic) end = (Ok 999999995, Ok 5, Ok (10 ^ 18)).
Proof. vm_compute. reflexivity. Qed.
@*)

(*@T C69. A transfer and its gas charge are written to different databases: a crash after [send_transaction] returned
   can keep the transfer and lose the charge. *)
Lemma p_C69_crash_splits_transfer_and_gas_refuted : exists n t tx s t',
  reachable any_op Debug n t /\ few n /\ tx_wf tx /\ snd (step Debug (t_flush t) (OSendTx tx)) = Ok RUnit /\
  t_new (t_crash s (fst (step Debug (t_flush t) (OSendTx tx)))) = Ok t' /\
  t_get_amount (tx_receiver tx) t = Ok 0 /\ t_get_amount (tx_receiver tx) t' = Ok (tx_amount tx) /\
  t_get_gas (tx_sender tx) t' = t_get_gas (tx_sender tx) t.
Proof.
  assert (Hr : reachable any_op Debug 2 funded).
  { apply (reach_call any_op Debug 1 (run Debug fresh [OAddAmount addrA 1000000000]) (OAddGas addrA (10 ^ 18))).
    - apply (reach_call any_op Debug 0 fresh (OAddAmount addrA 1000000000)); [apply reach_open; vm_compute; reflexivity| |exact I].
      split; [repeat constructor|]. vm_compute. reflexivity.
    - split; [repeat constructor|]. vm_compute. reflexivity.
    - exact I. }
  exists 2%nat, funded, (demo_tx 1000 (repeat 1 64)), (svs 0 0 0 3 1 0). eexists.
  split; [exact Hr|]. split; [unfold few; lia|]. split; [repeat split; try (repeat constructor; fail); vm_compute; repeat constructor|].
  split; [vm_compute; reflexivity|]. split; [vm_compute; reflexivity|]. split; [vm_compute; reflexivity|]. split; vm_compute; reflexivity.
Qed.
