(** Property C95: handles of a derivative chain.
    Only theorem statements (closed by [exact]), examples showing that their
    premises are met, and the assumptions of each theorem. *)
From Coq Require Import Lia ZifyBool ZifyNat ZifyN Permutation.
From Verif Require Import Base Sha256 Tools Transaction Block Sled Chain Tree Spec Reach ConcSpec Conc ConcFlush Cancel ConcDeriv ConcDerivSpec Demo.
From Verif Require Import BaseFacts ToolsFacts MerkleFacts DiffFacts CodecFacts SledFacts ChainFacts TreeFacts DerivFacts ConcFacts ConcDerivFacts.
From Verif Require Import FlushProps MainProps.
From Verif Require Import ConcDerivProps.

(** C95.  Every call, whatever the schedule of any number of additions, reads, flushes and emissions on the handles of a derivative chain, returns what
   the whole call returns when it is made alone at some moment of the run before it returns (for additions, emissions and reads of the
   last block: a moment at which nobody is inside [add_block]).  Two exceptions: an emission whose height was taken meanwhile fails with
   the chain's error, and a look-up by hash when two blocks with the same hash are exhibited. *)
Theorem C95_linearizable : forall p founder t ch calls schedule k c r,
  is_array 33 founder -> chain_filled ch -> refs_named ch -> Forall dcall_wf calls -> dc_height ch + N.of_nat (length calls) < 2 ^ 256 ->
  let '(s, ts) := deriv_exec p founder (t_main t) schedule ch calls in
  nth_error ts k = Some (QDone c r) ->
  let moment := at_a_moment p founder (t_main t) schedule ch calls k in
  nth_error calls k = Some c /\
  (moment (fun s => r = snd (dcall_run p founder t c (ds_chain s)) /\ (takes_lock c = true -> ds_locked s = false)) \/
   (exists w tm i, c = DEmit w tm /\ r = Err EChainAddingBlock /\ bi_height i < dc_height (ds_chain s) /\
      moment (fun s => ds_locked s = false /\ bi_height i = dc_height (ds_chain s) /\ snd (dcall_run p founder t c (ds_chain s)) = Ok (DMade (DerivBlock i)))) \/
   (exists h, c = DByHash h /\ exists a b, collision a b)).
Proof. exact p_C95_linearizable. Qed.
Print Assumptions C95_linearizable.

(* The second block of a chain is emitted next to a reader and a flush; the same emission is raced by an addition through a handle and fails. *)
Example C95_linearizable_ex :
  let t := run Debug fresh [deriv_1] in
  let no := MkDeriv sled_empty sled_empty 0 [] [] file_absent in
  let ch := match assoc_get addrA (t_derivs t) with Some c => c | None => no end in
  let i := MkInfo 1597926001 (repeat 0 32) (repeat 0 32) 1 (repeat 0 32) addrA in
  let e := DEmit (repeat 4 32) 1597926000 in
  reachable any_op Debug 1 t /\ few 1 /\ assoc_get addrA (t_derivs t) = Some ch /\ dc_height ch = 1 /\
  (match nth_error (snd (deriv_exec Debug addrA (t_main t) [0; 2; 0; 1; 0; 2; 0; 0; 1; 1; 0; 0; 2; 0; 0; 1; 2; 2; 2; 2; 2]%nat ch [e; DLast; DFlush])) 0 with
   | Some (QDone _ (Ok (DMade b))) => bi_height (get_info b) = 1 | _ => False end) /\
  nth_error (snd (deriv_exec Debug addrA (t_main t) [0; 0; 0; 0; 1; 1; 1; 1; 1; 0]%nat ch [e; DAdd i])) 0 = Some (QDone e (Err EChainAddingBlock)).
Proof.
  assert (R : reachable any_op Debug 1 (run Debug fresh [deriv_1])).
  { apply (reach_call any_op Debug 0 fresh deriv_1 (fresh_reachable _ _)); [repeat split; repeat constructor|exact I]. }
  split; [exact R|]. split; [reflexivity|]. split; [vm_compute; reflexivity|]. split; [vm_compute; reflexivity|]. split; vm_compute; reflexivity.
Qed.

(** C95.  After any schedule the headers whose addition or emission returned success, in some order, have the consecutive heights from the initial
   one up to the current one, each is found at its height, earlier blocks are unchanged, and whenever nobody is inside [add_block] the chain is
   what adding these headers one after the other gives. *)
Theorem C95_contiguous : forall p founder m ch calls schedule,
  is_array 33 founder -> chain_filled ch -> Forall dcall_wf calls -> dc_height ch + N.of_nat (length calls) < 2 ^ 256 ->
  let '(s, ts) := deriv_exec p founder m schedule ch calls in
  exists accepted, Permutation accepted (flat_map dadded ts) /\
    dc_height (ds_chain s) = dc_height ch + N.of_nat (length accepted) /\
    (forall k i, nth_error accepted k = Some i -> bi_height i = dc_height ch + N.of_nat k /\
       dc_find_raw_by_height (dc_height ch + N.of_nat k) (ds_chain s) = Some (block_dump (DerivBlock i))) /\
    (forall j, j < dc_height ch -> dc_find_raw_by_height j (ds_chain s) = dc_find_raw_by_height j ch) /\
    ((forall th, In th ts -> inside_add th = false) -> same_contents (add_infos accepted ch) (ds_chain s)).
Proof. exact p_C95_contiguous. Qed.
Print Assumptions C95_contiguous.

(* Two additions and an emission compete for height 1. *)
Example C95_contiguous_ex :
  let t := run Debug fresh [deriv_1] in
  let no := MkDeriv sled_empty sled_empty 0 [] [] file_absent in
  let ch := match assoc_get addrA (t_derivs t) with Some c => c | None => no end in
  let i := MkInfo 1597926001 (repeat 0 32) (repeat 0 32) 1 (repeat 0 32) addrA in
  let r := deriv_exec Debug addrA (t_main t) [0; 2; 0; 1; 2; 0; 2; 2; 0; 2; 2; 1; 1; 0; 1; 1; 0; 0; 1; 1]%nat ch [DEmit (repeat 4 32) 1597926000; DAdd i; DAdd i] in
  flat_map dadded (snd r) = [i] /\ dc_height (ds_chain (fst r)) = 2 /\ existsb inside_add (snd r) = false.
Proof. split; [vm_compute; reflexivity|]. split; vm_compute; reflexivity. Qed.

(** C95.  Running alone, step by step, each call does what the sequential model does. *)
Theorem C95_alone : forall p founder t ch c, length (dc_difficulty ch) = 32%nat ->
  exists n, deriv_exec p founder (t_main t) (repeat 0%nat n) ch [c] =
    (MkDs (fst (dcall_run p founder t c ch)) false false, [QDone c (snd (dcall_run p founder t c ch))]).
Proof. exact p_C95_alone. Qed.
Print Assumptions C95_alone.

Example C95_alone_ex :
  let t := run Debug fresh [deriv_1] in
  let no := MkDeriv sled_empty sled_empty 0 [] [] file_absent in
  let ch := match assoc_get addrA (t_derivs t) with Some c => c | None => no end in
  let i := MkInfo 1597926001 (repeat 0 32) (repeat 0 32) 1 (repeat 0 32) addrA in
  length (dc_difficulty ch) = 32%nat /\
  deriv_exec Debug addrA (t_main t) (repeat 0%nat 8) ch [DEmit (repeat 4 32) 1597926000] =
  (MkDs (fst (dcall_run Debug addrA t (DEmit (repeat 4 32) 1597926000) ch)) false false, [QDone (DEmit (repeat 4 32) 1597926000) (snd (dcall_run Debug addrA t (DEmit (repeat 4 32) 1597926000) ch))]).
Proof. split; vm_compute; reflexivity. Qed.

(** C95.  No deadlock: whatever has happened so far, a continuation of the schedule finishes every call. *)
Theorem C95_no_deadlock : forall p founder m ch calls schedule, exists rest,
  forall th, In th (snd (deriv_exec p founder m (schedule ++ rest) ch calls)) -> exists c r, th = QDone c r.
Proof. exact p_C95_no_deadlock. Qed.
Print Assumptions C95_no_deadlock.

(* An emission stopped inside [add_block] blocks the reader until it goes on. *)
Example C95_no_deadlock_ex :
  let t := run Debug fresh [deriv_1] in
  let no := MkDeriv sled_empty sled_empty 0 [] [] file_absent in
  let ch := match assoc_get addrA (t_derivs t) with Some c => c | None => no end in
  let i := MkInfo 1597926001 (repeat 0 32) (repeat 0 32) 1 (repeat 0 32) addrA in
  let calls := [DEmit (repeat 4 32) 1597926000; DLast] in
  nth_error (snd (deriv_exec Debug addrA (t_main t) [0; 0; 0; 0; 0; 1; 1; 1]%nat ch calls)) 1 = Some (QStart DLast) /\
  (match snd (deriv_exec Debug addrA (t_main t) ([0; 0; 0; 0; 0; 1; 1; 1] ++ [0; 0; 0; 0; 1; 1; 1])%nat ch calls) with [QDone _ (Ok _); QDone _ (Ok _)] => True | _ => False end).
Proof. split; vm_compute; [reflexivity|exact I]. Qed.

(** C95.  Any number of flushes through the handles among other calls: when all calls have returned, and at least one was a flush, the chain's directory, closed
   and opened again (whatever block hash the opening caller offers), is a chain with the same genesis hash and difficulty, at a height between that at the start and
   that at the end, with every block below it as it was. *)
Theorem C95_flushes_reopen : forall p founder m ch calls schedule offered,
  is_array 33 founder -> is_array 32 (dc_difficulty ch) -> is_array 32 (dc_genesis ch) ->
  chain_filled ch -> Forall dcall_wf calls -> dc_height ch + N.of_nat (length calls) < 2 ^ 256 -> In DFlush calls ->
  let '(s, ts) := deriv_exec p founder m schedule ch calls in
  (forall th, In th ts -> exists c r, th = QDone c r) ->
  exists ch', dc_new (dc_close (ds_chain s)) offered = Ok ch' /\ dc_genesis ch' = dc_genesis ch /\ dc_difficulty ch' = dc_difficulty ch /\
    dc_height ch <= dc_height ch' <= dc_height (ds_chain s) /\
    (forall j, j < dc_height ch' -> dc_find_raw_by_height j ch' = dc_find_raw_by_height j (ds_chain s) /\ dc_find_raw_by_height j ch' <> None).
Proof. exact p_C95_flushes_reopen. Qed.
Print Assumptions C95_flushes_reopen.

Example C95_flushes_reopen_ex :
  let t := run Debug fresh [deriv_1] in
  let no := MkDeriv sled_empty sled_empty 0 [] [] file_absent in
  let ch := match assoc_get addrA (t_derivs t) with Some c => c | None => no end in
  let i := MkInfo 1597926001 (repeat 0 32) (repeat 0 32) 1 (repeat 0 32) addrA in
  let r := deriv_exec Debug addrA (t_main t) [0; 0; 1; 1; 1; 1; 2; 1; 2; 0; 2; 2; 0; 2; 0; 0; 0; 2; 2]%nat ch [DFlush; DAdd i; DFlush] in
  snd r = [QDone DFlush (Ok DUnit); QDone (DAdd i) (Ok DUnit); QDone DFlush (Ok DUnit)] /\
  match dc_new (dc_close (ds_chain (fst r))) (repeat 9 32) with Ok c => dc_height c = 2 | _ => False end.
Proof. split; vm_compute; reflexivity. Qed.

(** C95, refuted.  Two flushes may overlap: one reads the height, blocks are added, the other flush runs from start to end, and then the first one writes the
   height it read into the file.  All calls succeed, yet the chain is reopened below the height it had when the second flush was called. *)
Theorem C95_flush_height_refuted : ~ (forall p founder m ch calls before after k offered,
  is_array 33 founder -> is_array 32 (dc_difficulty ch) -> is_array 32 (dc_genesis ch) ->
  chain_filled ch -> Forall dcall_wf calls -> dc_height ch + N.of_nat (length calls) < 2 ^ 256 ->
  nth_error (snd (deriv_exec p founder m before ch calls)) k = Some (QStart DFlush) ->
  let '(s, ts) := deriv_exec p founder m (before ++ after) ch calls in
  (forall th, In th ts -> exists c r, th = QDone c (Ok r)) ->
  forall ch', dc_new (dc_close (ds_chain s)) offered = Ok ch' -> dc_height (ds_chain (fst (deriv_exec p founder m before ch calls))) <= dc_height ch').
Proof. exact p_C95_flush_height_refuted. Qed.
Print Assumptions C95_flush_height_refuted.

(** C95.  Every open derivative chain of a reachable tree is filled, its references were made for blocks, and its difficulty and genesis hash have 32 bytes. *)
Theorem C95_reachable : forall p n t w ch, reachable any_op p n t -> few n -> assoc_get w (t_derivs t) = Some ch ->
  is_array 33 w /\ is_array 32 (dc_difficulty ch) /\ is_array 32 (dc_genesis ch) /\ chain_filled ch /\ refs_named ch.
Proof. exact p_C95_reachable. Qed.
Print Assumptions C95_reachable.

Example C95_reachable_ex : exists ch, assoc_get addrA (t_derivs (run Debug fresh [deriv_1])) = Some ch /\ dc_height ch = 1.
Proof. eexists. split; vm_compute; reflexivity. Qed.

