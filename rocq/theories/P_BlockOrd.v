(** Property C104: comparing blocks.
    Only theorem statements (closed by [exact]), examples showing that their
    premises are met, and the assumptions of each theorem. *)
From Coq Require Import Lia ZifyBool ZifyNat ZifyN Permutation Sorted.
From Verif Require Import Base Sha256 Merkle Tools Transaction Block Sled Chain Tree Spec Reach Demo BlockOrd.
From Verif Require Import BaseFacts ToolsFacts MerkleFacts DiffFacts CodecFacts SledFacts ChainFacts TreeFacts ValidateProps MainProps.
From Verif Require Import BlockOrdProps.

(** C104, what holds of the comparison: a total order on timestamps; [==], [cmp] and [partial_cmp] agree. *)
Theorem C104_laws_partial : forall a b c : block,
  (block_eq a b = true <-> block_cmp a b = Eq) /\ block_partial_cmp a b = Some (block_cmp a b) /\
  block_cmp b a = CompOpp (block_cmp a b) /\
  (block_cmp a b = Lt -> block_cmp b c = Lt -> block_cmp a c = Lt) /\ (block_cmp a b = Eq -> block_cmp a c = block_cmp b c) /\
  (block_cmp a b = Eq <-> bi_timestamp (get_info a) = bi_timestamp (get_info b)) /\
  (block_cmp a b = Lt <-> bi_timestamp (get_info a) < bi_timestamp (get_info b)).
Proof. exact p_C104_laws_partial. Qed.
Print Assumptions C104_laws_partial.

Example C104_laws_ex : let a := last_of fresh in let b := emitted Debug fresh emit_good in block_cmp a b = Lt /\ block_cmp b a = Gt /\ block_eq a b = false /\ block_eq a a = true.
Proof. vm_compute. auto. Qed.

(** C104, Debug build, blocks made only by emissions: the chain in the order of heights is sorted by the comparison, and sorting any rearrangement of it gives back the same sequence of timestamps. *)
Theorem C104_height_order_partial : forall n t L, reachable no_raw_main Debug n t -> few n -> mc_get_height (t_main t) = N.of_nat (length L) ->
  (forall i b, nth_error L i = Some b -> mc_find_by_height (N.of_nat i) (t_main t) = Ok (Some b)) ->
  (forall i j a b, (i <= j)%nat -> nth_error L i = Some a -> nth_error L j = Some b -> block_cmp a b <> Gt) /\
  (forall L', Permutation L L' -> StronglySorted (fun a b => block_cmp a b <> Gt) L' ->
     map (fun b => bi_timestamp (get_info b)) L' = map (fun b => bi_timestamp (get_info b)) L) /\
  (forall L', Permutation L L' -> StronglySorted (fun a b => block_cmp a b = Lt) L -> StronglySorted (fun a b => block_cmp a b <> Gt) L' -> L' = L).
Proof. exact p_C104_height_order_partial. Qed.
Print Assumptions C104_height_order_partial.

Example C104_height_order_ex : let t := fst (step Debug fresh emit_good) in let L := [last_of fresh; emitted Debug fresh emit_good] in
  reachable no_raw_main Debug 1 t /\ mc_get_height (t_main t) = 2 /\ mc_find_by_height 0 (t_main t) = Ok (nth_error L 0) /\ mc_find_by_height 1 (t_main t) = Ok (nth_error L 1) /\
  block_cmp (last_of fresh) (emitted Debug fresh emit_good) = Lt.
Proof. split; [apply reach_call; [apply fresh_reachable|repeat split; repeat constructor; reflexivity|exact I]|]. vm_compute. repeat split. Qed.

(** C104 is false as stated, in every build: an emission with the timestamp of the tip is accepted, and the new block, with another hash and the tip as its parent, is [==] to the tip. *)
Theorem C104_same_refuted : forall p, exists t a b,
  reachable no_raw_main p 1 t /\ mc_find_by_height 0 (t_main t) = Ok (Some a) /\ mc_find_by_height 1 (t_main t) = Ok (Some b) /\
  block_eq a b = true /\ a <> b /\ bi_previous_hash (get_info b) <> bi_previous_hash (get_info a).
Proof. exact p_C104_same_refuted. Qed.
Print Assumptions C104_same_refuted.

(** ... and in a Release build a block can be smaller than its parent. *)
Theorem C104_order_refuted : exists t a b,
  reachable no_raw_main Release 1 t /\ mc_find_by_height 0 (t_main t) = Ok (Some a) /\ mc_find_by_height 1 (t_main t) = Ok (Some b) /\
  block_cmp a b = Gt.
Proof. exact p_C104_order_refuted. Qed.
Print Assumptions C104_order_refuted.

