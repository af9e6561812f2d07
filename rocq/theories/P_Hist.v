(** Properties C88, C89: any number of crashes, main chain.
    Only theorem statements (closed by [exact]), examples showing that their
    premises are met, and the assumptions of each theorem. *)
From Coq Require Import Lia ZifyBool ZifyNat ZifyN.
From Verif Require Import Base Sha256 Merkle Tools Transaction Block Sled Chain Tree Spec Reach CrashSpec DcrashSpec HistSpec Demo.
From Verif Require Import BaseFacts ToolsFacts MerkleFacts DiffFacts CodecFacts SledFacts ChainFacts TreeFacts CrashFacts CodecProps MainProps DcrashProps.
From Verif Require Import HistProps.

(** C88: a block of the main chain that has once been flushed, with the config write on disk, is never lost: it is found at its height after
    every continuation of the history, with any calls, restarts and any number of crashes. *)
Theorem C88_flushed_blocks_are_never_lost : forall p n m t0 t t', t_new disk_empty = Ok t0 ->
  later any_op p t0 n t -> later any_op p (t_settle (t_flush t)) m t' -> few (n + m) ->
  mc_get_height (t_main t) <= mc_get_height (t_main t') /\
  forall i, i < mc_get_height (t_main t) ->
    mc_find_raw_by_height i (t_main t') = mc_find_raw_by_height i (t_main t) /\ mc_find_raw_by_height i (t_main t) <> None.
Proof. exact p_C88_flushed_blocks_are_never_lost. Qed.
Print Assumptions C88_flushed_blocks_are_never_lost.

(** C89: after any history, with any number of earlier crashes, every crash, whatever survives, either leaves a
    directory that does not open (the config file is cut short) or a main chain that is a non-empty initial part of the chain before the crash. *)
Theorem C89_crash_truncates : forall p n t0 t s t', t_new disk_empty = Ok t0 -> later any_op p t0 n t -> few n ->
  t_new (t_crash s t) = Ok t' ->
  1 <= mc_get_height (t_main t') <= mc_get_height (t_main t) /\
  forall i, i < mc_get_height (t_main t') ->
    mc_find_raw_by_height i (t_main t') = mc_find_raw_by_height i (t_main t) /\ mc_find_raw_by_height i (t_main t) <> None.
Proof. exact p_C89_crash_truncates. Qed.
Print Assumptions C89_crash_truncates.

(** C89, links: if main-chain blocks are only made by emission, the main chain starts with the genesis block and every block is linked to the one
    before it (hash, height, difficulty, work), and the last block can be read, after any number of crashes.
    Missing: crashes inside a flush between the writing of the config and the flush of the blocks, see [C89_window_refuted]. *)
Theorem C89_linked_after_crashes_partial : forall p n t0 t, t_new disk_empty = Ok t0 -> later no_raw_main p t0 n t -> few n ->
  exists L g,
    genesis_block = Ok g /\ hd_error L = Some g /\
    mc_get_height (t_main t) = N.of_nat (length L) /\
    (forall i b, nth_error L i = Some b -> mc_find_by_height (N.of_nat i) (t_main t) = Ok (Some b)) /\
    mc_get_last_block (t_main t) = Ok (Some (last L g)) /\
    chained (main_link p) L.
Proof. exact p_C89_linked_after_crashes_partial. Qed.
Print Assumptions C89_linked_after_crashes_partial.

(* flush, emit, crash losing the block, emit again, flush, crash *)
Example C88_ex :
  let reopened s t := match t_new (t_crash s t) with Ok t' => t' | _ => t end in
  let t1 := t_settle (run Debug fresh [OFlush]) in
  let t2 := run Debug t1 [emit_good] in
  let t3 := reopened (svs 0 0 0 0 0 0) t2 in
  let t4 := t_settle (run Debug t3 [emit_good; OMainFlush]) in
  let t5 := reopened (svs 0 1 0 0 0 0) t4 in
  map (fun t => mc_get_height (t_main t)) [t1; t2; t3; t4; t5] = [1; 2; 1; 2; 2].
Proof. vm_compute. reflexivity. Qed.

(** C89 fails at the one point left out: a crash inside a flush after the config was written and before the blocks are flushed can leave
    a chain whose last block does not exist. *)
Theorem C89_window_refuted : exists t0 x s t', t_new disk_empty = Ok t0 /\ In x (flush_points t0) /\ t_new (t_crash s x) = Ok t' /\
  mc_get_height (t_main t') = 1 /\ mc_get_last_block (t_main t') = Ok None /\
  forall p pow founder txs ts, snd (t_emmit_new_main_block p pow founder txs ts t') = Panic.
Proof. exact p_C89_window_refuted. Qed.
Print Assumptions C89_window_refuted.

(** C89 fails above the end of the chain: after a crash that kept a block but not the config, the chain has height 1 and a block is
    still found at height 1; it is not part of the chain, and the next emission replaces it. *)
Theorem C89_ghost_block_refuted : exists n t0 t s t' d, t_new disk_empty = Ok t0 /\ later no_raw_main Debug t0 n t /\ few n /\ t_new (t_crash s t) = Ok t' /\
  mc_get_height (t_main t') = 1 /\ mc_find_raw_by_height 1 (t_main t') = Some d /\
  mc_find_raw_by_height 1 (t_main (fst (step Debug t' emit_bad))) <> Some d.
Proof. exact p_C89_ghost_block_refuted. Qed.
Print Assumptions C89_ghost_block_refuted.

