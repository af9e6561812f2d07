(** Comparing blocks. *)
From Coq Require Import Lia ZifyBool ZifyNat ZifyN Permutation Sorted.
From Verif Require Import Base Sha256 Merkle Tools Transaction Block Sled Chain Tree Spec Reach Demo BlockOrd.
From Verif Require Import BaseFacts ToolsFacts MerkleFacts DiffFacts CodecFacts SledFacts ChainFacts TreeFacts ValidateProps MainProps.

(*@T C104, what holds of the comparison: a total order on timestamps; [==], [cmp] and [partial_cmp] agree. *)
Lemma p_C104_laws_partial : forall a b c : block,
  (block_eq a b = true <-> block_cmp a b = Eq) /\ block_partial_cmp a b = Some (block_cmp a b) /\
  block_cmp b a = CompOpp (block_cmp a b) /\
  (block_cmp a b = Lt -> block_cmp b c = Lt -> block_cmp a c = Lt) /\ (block_cmp a b = Eq -> block_cmp a c = block_cmp b c) /\
  (block_cmp a b = Eq <-> bi_timestamp (get_info a) = bi_timestamp (get_info b)) /\
  (block_cmp a b = Lt <-> bi_timestamp (get_info a) < bi_timestamp (get_info b)).
Proof.
  intros a b c. unfold block_eq, block_partial_cmp, block_cmp. rewrite N.eqb_eq, N.compare_eq_iff.
  split; [tauto|]. split; [reflexivity|]. split; [apply N.compare_antisym|]. rewrite !N.compare_lt_iff. split; [lia|]. split; [intros ->; reflexivity|]. split; [tauto|]. tauto.
Qed.
(*@E
Example C104_laws_ex : let a := last_of fresh in let b := emitted Debug fresh emit_good in block_cmp a b = Lt /\ block_cmp b a = Gt /\ block_eq a b = false /\ block_eq a a = true.
Proof. vm_compute. auto. Qed.
@*)
Lemma sorted_cmp L : StronglySorted (fun a b => bi_timestamp (get_info a) <= bi_timestamp (get_info b)) L -> StronglySorted (fun a b => block_cmp a b <> Gt) L.
Proof.
  intros S. induction S as [|x L S IH F]; constructor; [exact IH|]. eapply Forall_impl; [|exact F].
  intros y Hy. unfold block_cmp. rewrite N.compare_gt_iff. cbv beta in Hy. lia.
Qed.
Lemma emitted_sorted n t L : reachable no_raw_main Debug n t -> few n ->
  (forall i b, nth_error L i = Some b -> mc_find_by_height (N.of_nat i) (t_main t) = Ok (Some b)) ->
  StronglySorted (fun a b => bi_timestamp (get_info a) <= bi_timestamp (get_info b)) L.
Proof.
  intros Hr Hn Hf. apply Sorted_StronglySorted; [intros x y z; lia|].
  pose proof (p_C38_timestamps_partial n t Hr Hn) as P. assert (Q : forall k b b', nth_error L k = Some b -> nth_error L (S k) = Some b' -> bi_timestamp (get_info b) <= bi_timestamp (get_info b')).
  { intros k b b' Hb Hb'. apply (P (N.of_nat k)); [apply Hf, Hb|]. replace (N.of_nat k + 1) with (N.of_nat (S k)) by lia. apply Hf, Hb'. }
  clear P Hf. induction L as [|x L IH]; constructor; [apply IH; intros k; apply (Q (S k))|]. destruct L as [|y L]; constructor. exact (Q 0%nat x y eq_refl eq_refl).
Qed.
Lemma sorted_ts (L L' : list block) : StronglySorted (fun a b => bi_timestamp (get_info a) <= bi_timestamp (get_info b)) L -> StronglySorted (fun a b => bi_timestamp (get_info a) <= bi_timestamp (get_info b)) L' ->
  Permutation L L' -> map (fun b => bi_timestamp (get_info b)) L = map (fun b => bi_timestamp (get_info b)) L'.
Proof.
  intros S S' P. apply (Permutation_map (fun b => bi_timestamp (get_info b))) in P.
  assert (M : forall K, StronglySorted (fun a b => bi_timestamp (get_info a) <= bi_timestamp (get_info b)) K -> StronglySorted N.le (map (fun b => bi_timestamp (get_info b)) K)).
  { intros K H. induction H as [|x K H IH F]; cbn [map]; constructor; [exact IH|]. apply Forall_map. exact F. }
  apply M in S. apply M in S'. clear M. revert S S' P. generalize (map (fun b => bi_timestamp (get_info b)) L) (map (fun b => bi_timestamp (get_info b)) L'). clear L L'.
  intros l l' S. revert l'. induction S as [|x l S IH F]; intros l' S' P.
  - apply Permutation_nil in P. now subst.
  - destruct S' as [|y l' S' F']; [apply Permutation_sym, Permutation_nil in P; discriminate|].
    assert (x = y). { assert (In y (x :: l)) as [->|A] by (eapply Permutation_in; [apply Permutation_sym, P|now left]); [reflexivity|].
      assert (In x (y :: l')) as [->|B] by (eapply Permutation_in; [apply P|now left]); [reflexivity|]. rewrite Forall_forall in F, F'. specialize (F _ A). specialize (F' _ B). lia. }
    subst y. f_equal. apply IH; [exact S'|]. eapply Permutation_cons_inv, P.
Qed.

(*@T C104, Debug build, blocks made only by emissions: the chain in the order of heights is sorted by the comparison, and sorting any rearrangement of it gives back the same sequence of timestamps. *)
Lemma p_C104_height_order_partial : forall n t L, reachable no_raw_main Debug n t -> few n -> mc_get_height (t_main t) = N.of_nat (length L) ->
  (forall i b, nth_error L i = Some b -> mc_find_by_height (N.of_nat i) (t_main t) = Ok (Some b)) ->
  (forall i j a b, (i <= j)%nat -> nth_error L i = Some a -> nth_error L j = Some b -> block_cmp a b <> Gt) /\
  (forall L', Permutation L L' -> StronglySorted (fun a b => block_cmp a b <> Gt) L' ->
     map (fun b => bi_timestamp (get_info b)) L' = map (fun b => bi_timestamp (get_info b)) L) /\
  (forall L', Permutation L L' -> StronglySorted (fun a b => block_cmp a b = Lt) L -> StronglySorted (fun a b => block_cmp a b <> Gt) L' -> L' = L).
Proof.
  intros n t L Hr Hn _ Hf. pose proof (emitted_sorted n t L Hr Hn Hf) as S.
  assert (W : forall L', StronglySorted (fun a b => block_cmp a b <> Gt) L' -> StronglySorted (fun a b => bi_timestamp (get_info a) <= bi_timestamp (get_info b)) L').
  { intros L' H. induction H as [|x l H IH F]; constructor; [exact IH|]. eapply Forall_impl; [|exact F]. intros y Hy. unfold block_cmp in Hy. rewrite N.compare_gt_iff in Hy. lia. }
  split; [|split].
  - pose proof (sorted_cmp _ S) as C. clear -C. induction C as [|x l C IH F]; intros i j a b Hij Ha Hb; [destruct i; discriminate|].
    destruct i as [|i], j as [|j]; cbn in Ha, Hb; try lia.
    + injection Ha as <-. injection Hb as <-. unfold block_cmp. rewrite N.compare_refl. discriminate.
    + injection Ha as <-. rewrite Forall_forall in F. apply F. eapply nth_error_In, Hb.
    + apply (IH i j a b); [lia|exact Ha|exact Hb].
  - intros L' P S'. symmetry. apply sorted_ts; auto.
  - intros L' P St S'. apply W in S'. pose proof (sorted_ts _ _ S S' P) as E.
    assert (U : forall x y, In x L -> In y L -> bi_timestamp (get_info x) = bi_timestamp (get_info y) -> x = y).
    { clear -St. induction St as [|z l St IH F]; intros x y [] [] E; subst; auto; rewrite Forall_forall in F.
      - specialize (F _ H0). unfold block_cmp in F. rewrite N.compare_lt_iff in F. lia.
      - specialize (F _ H). unfold block_cmp in F. rewrite N.compare_lt_iff in F. lia. }
    assert (I : forall x, In x L' -> In x L) by (intros x; apply Permutation_in, Permutation_sym, P).
    assert (I0 : forall x, In x L -> In x L) by auto. clear -E U I I0. revert I I0 E. generalize L at 2 4 5. intros K. revert L'.
    induction K as [|x K IH]; intros [|y L'] I I0 E; try discriminate; [reflexivity|]. cbn [map] in E. injection E as E1 E2. f_equal.
    + symmetry. apply U; [apply I0; now left|apply I; now left|exact E1].
    + apply IH; [intros z Hz; apply I; now right|intros z Hz; apply I0; now right|exact E2].
Qed.
(*@E
Example C104_height_order_ex : let t := fst (step Debug fresh emit_good) in let L := [last_of fresh; emitted Debug fresh emit_good] in
  reachable no_raw_main Debug 1 t /\ mc_get_height (t_main t) = 2 /\ mc_find_by_height 0 (t_main t) = Ok (nth_error L 0) /\ mc_find_by_height 1 (t_main t) = Ok (nth_error L 1) /\
  block_cmp (last_of fresh) (emitted Debug fresh emit_good) = Lt.
Proof. split; [apply reach_call; [apply fresh_reachable|repeat split; repeat constructor; reflexivity|exact I]|]. vm_compute. repeat split. Qed.
@*)

(*@T C104 is false as stated, in every build: an emission with the timestamp of the tip is accepted, and the new block, with another hash and the tip as its parent, is [==] to the tip. *)
Lemma p_C104_same_refuted : forall p, exists t a b,
  reachable no_raw_main p 1 t /\ mc_find_by_height 0 (t_main t) = Ok (Some a) /\ mc_find_by_height 1 (t_main t) = Ok (Some b) /\
  block_eq a b = true /\ a <> b /\ bi_previous_hash (get_info b) <> bi_previous_hash (get_info a).
Proof.
  intros p. set (o := OEmitMain (repeat 3 32) addrA [txh] 1597924800).
  exists (fst (step p fresh o)), (last_of fresh), (emitted p fresh o).
  split; [apply reach_call; [apply fresh_reachable|repeat split; repeat constructor; reflexivity|exact I]|].
  destruct p; (split; [vm_compute; reflexivity|]; split; [vm_compute; reflexivity|]; split; [vm_compute; reflexivity|]; split; intros E; vm_compute in E; discriminate).
Qed.
(*@T ... and in a Release build a block can be smaller than its parent. *)
Lemma p_C104_order_refuted : exists t a b,
  reachable no_raw_main Release 1 t /\ mc_find_by_height 0 (t_main t) = Ok (Some a) /\ mc_find_by_height 1 (t_main t) = Ok (Some b) /\
  block_cmp a b = Gt.
Proof.
  set (o := OEmitMain (repeat 3 32) addrA [txh] 5).
  exists (fst (step Release fresh o)), (last_of fresh), (emitted Release fresh o).
  split; [apply reach_call; [apply fresh_reachable|repeat split; repeat constructor; reflexivity|exact I]|].
  split; [vm_compute; reflexivity|]. split; vm_compute; reflexivity.
Qed.
