(** Property C77: flushes concurrent with other calls.
    Only theorem statements (closed by [exact]), examples showing that their
    premises are met, and the assumptions of each theorem. *)
From Coq Require Import Lia ZifyBool ZifyNat ZifyN.
From Verif Require Import Base Sha256 Tools Transaction Block Sled Chain Tree Spec Reach LedgerSpec CrashSpec Conc ConcTree ConcSpec ConcFlush FlushSpec Demo.
From Verif Require Import BaseFacts ToolsFacts CodecFacts SledFacts ChainFacts TreeFacts LedgerFacts CrashFacts ConcFacts.
From Verif Require Import FlushProps.

(** C77.  A flush running alone, in seven steps, does what the sequential flush does. *)
Theorem C77_flush_alone : forall t,
  flush_exec (repeat 0%nat 7) t [FFlush] = (MkShared (with_main t (mc_flush (t_main t))) false, [FDone]).
Proof. exact p_C77_flush_alone. Qed.
Print Assumptions C77_flush_alone.

(** C77.  One flush among any other calls that are not flushes: when it has returned and its
   file writes have reached the disk, every crash leaves a directory that opens again, at a height at least that at which the
   flush was called, with every block below that height as it was, and with every transaction stored when the flush was called.
   Missing from the full claim: other flushes at the same time (refuted below). *)
Theorem C77_flush_saves_partial : forall ok p n t calls k sch1 sch2 s1 ts1 s2 ts2 sv,
  reachable ok p n t -> few n -> only_flush k calls ->
  flush_exec sch1 t calls = (s1, ts1) -> nth_error ts1 k = Some FOpen ->
  exec flush_step sch2 (s1, ts1) = (s2, ts2) -> nth_error ts2 k = Some FDone ->
  exists t', t_new (t_crash sv (t_settle (sh_tree s2))) = Ok t' /\
    mc_get_height (t_main (sh_tree s1)) <= mc_get_height (t_main t') <= mc_get_height (t_main (sh_tree s2)) /\
    (forall i, i < mc_get_height (t_main t') ->
       mc_find_raw_by_height i (t_main t') = mc_find_raw_by_height i (t_main (sh_tree s2)) /\
       mc_find_raw_by_height i (t_main t') <> None) /\
    (forall h, mc_transaction_exists h (t_main (sh_tree s1)) = true -> mc_transaction_exists h (t_main t') = true).
Proof. exact p_C77_flush_saves_partial. Qed.
Print Assumptions C77_flush_saves_partial.

(** C77.  Any number of flushes among other calls: when all calls have returned, and at
   least one was a flush, the directory opens again after closing, at a height between that at the start and that at the end, with
   every block below it as it was.  Missing from the full claim: the height reached may be smaller than when a flush was called. *)
Theorem C77_flushes_reopen_partial : forall ok p n t calls sch s ts,
  reachable ok p n t -> few n -> In FFlush calls ->
  flush_exec sch t calls = (s, ts) -> (forall th, In th ts -> finished th = true) ->
  exists t', t_new (t_close (sh_tree s)) = Ok t' /\
    mc_get_height (t_main t) <= mc_get_height (t_main t') <= mc_get_height (t_main (sh_tree s)) /\
    (forall i, i < mc_get_height (t_main t') ->
       mc_find_raw_by_height i (t_main t') = mc_find_raw_by_height i (t_main (sh_tree s)) /\
       mc_find_raw_by_height i (t_main t') <> None).
Proof. exact p_C77_flushes_reopen_partial. Qed.
Print Assumptions C77_flushes_reopen_partial.

(** One block is being added while a flush runs; the flush saves it when it comes between, and the crash that loses all unflushed
    writes does not matter. *)
Example C77_ex_alone : snd (flush_exec (repeat 0%nat 7) fresh [FFlush]) = [FDone].
Proof. vm_compute. reflexivity. Qed.
Example C77_ex_single :
  let calls := [FFlush; FCall (CAddBlock flush_block)] in
  let height_after sch := match t_new (t_crash (svs 0 0 0 0 0 0) (t_settle (sh_tree (fst (flush_exec sch fresh calls))))) with
    | Ok t' => mc_get_height (t_main t') | _ => 0 end in
  only_flush 0 calls /\
  map height_after [[0; 1; 1; 1; 1; 0; 0; 0; 0; 0; 0]; [0; 0; 1; 1; 1; 1; 0; 0; 0; 0; 0]]%nat = [2; 1] /\
  snd (flush_exec [0; 1; 1; 1; 1; 0; 0; 0; 0; 0; 0]%nat fresh calls) = [FDone; FTh (TDone (CAddBlock flush_block) (Ok CRUnit))].
Proof. cbn zeta. split; [split; [reflexivity|intros [|[|j]] Hj; [contradiction|discriminate|destruct j; discriminate]]|]. split; vm_compute; reflexivity. Qed.

(** C77.  Two flushes at once: the second is called when the chain has two blocks and returns; when the first has returned
   too, the directory is that of a chain with one block, and the block added before the second flush was called is gone. *)
Theorem C77_flush_saves_refuted : exists t b sch1 sch2,
  let calls := [FFlush; FFlush; FCall (CAddBlock b)] in
  reachable any_op Debug 0 t /\
  (let '(s1, ts1) := flush_exec sch1 t calls in
   ts1 = [FWriteHeight 1; FOpen; FTh (TDone (CAddBlock b) (Ok CRUnit))] /\ mc_get_height (t_main (sh_tree s1)) = 2 /\
   (let '(s2, ts2) := exec flush_step sch2 (s1, ts1) in
    ts2 = [FDone; FDone; FTh (TDone (CAddBlock b) (Ok CRUnit))] /\ mc_get_height (t_main (sh_tree s2)) = 2 /\
    exists t', t_new (t_close (sh_tree s2)) = Ok t' /\ mc_get_height (t_main t') = 1 /\
      (exists b', snd (mc_add_block b' (t_main t')) = Ok tt /\ b' <> b /\
         mc_find_raw_by_height 1 (fst (mc_add_block b' (t_main t'))) = Some (block_dump b')))).
Proof. exact p_C77_flush_saves_refuted. Qed.
Print Assumptions C77_flush_saves_refuted.

