(** Property C90: any number of crashes, derivative chains.
    Only theorem statements (closed by [exact]), examples showing that their
    premises are met, and the assumptions of each theorem. *)
From Coq Require Import Lia ZifyBool ZifyNat ZifyN.
From Verif Require Import Base Sha256 Merkle Tools Transaction Block Sled Chain Tree Spec Reach CrashSpec DcrashSpec HistSpec Demo.
From Verif Require Import BaseFacts ToolsFacts MerkleFacts DiffFacts CodecFacts SledFacts ChainFacts TreeFacts DerivFacts CrashFacts CodecProps MainProps DcrashProps HistProps.
From Verif Require Import DhistProps.

(** C90: if the blocks of derivative chains are only made by emission, then every derivative chain that opens, after any number of crashes, is a row of readable blocks
    of its owner, each linked to the one before it (hash, height, difficulty, work).
    Missing: crashes inside a flush of the chain between the writing of its config and the flush of its blocks, see [C90_window_refuted]. *)
Theorem C90_derivative_linked_after_crashes_partial : forall p n t0 t w c, t_new disk_empty = Ok t0 -> later no_raw_deriv p t0 n t -> few n ->
  is_array 33 w -> snd (t_get_derivative_chain w t) = Ok c ->
  exists B,
    dc_get_height c = N.of_nat (length B) /\
    (forall i x, nth_error B i = Some x -> dc_find_by_height (N.of_nat i) c = Ok (Some (DerivBlock x)) /\ bi_height x = N.of_nat i /\ bi_founder x = w) /\
    dc_get_last_block c = Ok (match B with [] => None | x :: _ => Some (DerivBlock (last B x)) end) /\
    chained (deriv_link p) B.
Proof. exact p_C90_derivative_linked_after_crashes_partial. Qed.
Print Assumptions C90_derivative_linked_after_crashes_partial.

(* one block flushed, a second lost in a crash, emitted again after it *)
Example C90_ex :
  let t1 := deriv_settle addrA (run Debug fresh [deriv_1; ODerivFlush addrA]) in
  let t2 := run Debug t1 [deriv_2] in
  let t3 := match t_new (t_crash (svs 0 0 0 0 0 0) t2) with Ok t => t | _ => t2 end in
  let t4 := run Debug t3 [deriv_2] in
  map (fun t => match snd (t_get_derivative_chain addrA t) with Ok c => dc_get_height c | _ => 9 end) [t1; t2; t3; t4] = [1; 2; 1; 2].
Proof. vm_compute. reflexivity. Qed.

(** C90, flushed blocks: a block of a derivative chain that has once been flushed through the handle, with the config write on disk, is never lost: whenever the
    chain opens later, after any calls, restarts and any number of crashes, it has at least that height, the same genesis hash and those blocks. *)
Theorem C90_flushed_derivative_blocks_are_never_lost : forall p n m t0 t w c t' c', t_new disk_empty = Ok t0 ->
  later any_op p t0 n t -> is_array 33 w -> assoc_get w (t_derivs t) = Some c ->
  later any_op p (deriv_settle w (fst (step p t (ODerivFlush w)))) m t' -> few (n + m) ->
  snd (t_get_derivative_chain w t') = Ok c' ->
  dc_get_height c <= dc_get_height c' /\ dc_genesis c' = dc_genesis c /\
  forall i, i < dc_get_height c -> dc_find_raw_by_height i c' = dc_find_raw_by_height i c /\ dc_find_raw_by_height i c <> None.
Proof. exact p_C90_flushed_derivative_blocks_are_never_lost. Qed.
Print Assumptions C90_flushed_derivative_blocks_are_never_lost.

(** C90 fails at the one point left out: a crash inside a flush of a derivative chain, after the config was written and before the blocks are
    flushed, can leave a chain of height 1 without a last block.  Every later emission for that owner is refused, whatever the proof of work and time. *)
Theorem C90_window_refuted : exists n t0 t x s t' c, t_new disk_empty = Ok t0 /\ later no_raw_deriv Debug t0 n t /\ few n /\
  In x (deriv_flush_points addrA t) /\ t_new (t_crash s x) = Ok t' /\
  snd (t_get_derivative_chain addrA t') = Ok c /\ dc_get_height c = 1 /\ dc_get_last_block c = Ok None /\
  forall p pow ts b, snd (t_emmit_new_derivative_block p pow addrA ts t') <> Ok b.
Proof. exact p_C90_window_refuted. Qed.
Print Assumptions C90_window_refuted.

