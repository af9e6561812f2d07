(** Property C107: failing operations, killed processes and failing openings.
    Only theorem statements (closed by [exact]), examples showing that their
    premises are met, and the assumptions of each theorem. *)
From Coq Require Import Lia ZifyBool ZifyNat ZifyN.
From Verif Require Import Base Sha256 Merkle Tools Transaction Block Sled Chain Tree Spec Reach QuietSpec Conc ConcTree ConcFlush ConcEmit Cancel ConcDeriv CrashSpec HistSpec Io IoSpec LifeSpec Demo.
From Verif Require Import BaseFacts ToolsFacts MerkleFacts DiffFacts CodecFacts SledFacts ChainFacts TreeFacts LedgerFacts CrashFacts ConcFacts EmitFacts IoFacts CodecProps MainProps DcrashProps HistProps LifeFacts.
From Verif Require Import LifeProps.

(** C107: whatever fails and whenever the process is killed, only blocks and transactions given to the node are found: everything found
   at a height is the dump of a block of that height, at height 0 of the first block; the chain is never empty. *)
Theorem C107_nothing_else_is_found : forall p n h, life any_faults p (Down disk_empty) n (Up h) ->
  1 <= mc_get_height (t_main (h_tree h)) < 2 ^ 256 /\
  forall i d, mc_find_raw_by_height i (t_main (h_tree h)) = Some d ->
    exists b, block_wf b /\ bi_height (get_info b) = i /\ d = block_dump b /\ (i = 0 -> genesis_block = Ok b).
Proof. exact p_C107_nothing_else_is_found. Qed.
Print Assumptions C107_nothing_else_is_found.

(** C107: a block or transaction of the main chain that was once flushed, with the config file on disk, is found ever after, through any calls,
   failing operations, closings, crashes and openings, successful or not; the chain is never shorter than then. *)
Theorem C107_flushed_is_never_lost : forall p n m h h', life any_faults p (Down disk_empty) n (Up h) -> life any_faults p (Up (saved h)) m (Up h') ->
  mc_get_height (t_main (h_tree h)) <= mc_get_height (t_main (h_tree h')) /\
  (forall i, i < mc_get_height (t_main (h_tree h)) -> mc_find_raw_by_height i (t_main (h_tree h')) = mc_find_raw_by_height i (t_main (h_tree h))) /\
  forall k tx, mc_get_transaction k (t_main (h_tree h)) = Ok (Some tx) ->
    mc_get_transaction k (t_main (h_tree h')) = Ok (Some tx) \/ exists d tx', collision d (tx_dump tx').
Proof. exact p_C107_flushed_is_never_lost. Qed.
Print Assumptions C107_flushed_is_never_lost.

(** C107: a closing or a crash only shortens the main chain: after any calls during which operations failed, crashes and openings that failed,
   a tree opened on what a closing or a crash left (at once, or after further failing openings, crashes and closings without calls in between)
   has a prefix of the blocks, at least the first one.
   Missing: calls in which the flush of the blocks fails without effect, or that are killed before it, after the config has been written; see
   [C107_broken_link_refuted]. *)
Theorem C107_only_shortened_partial : forall p n m h h' d, life blocks_flushed p (Down disk_empty) n (Up h) -> few n ->
  (d = t_close (h_tree h) \/ exists s, d = t_crash s (h_tree h)) -> life no_calls p (Down d) m (Up h') ->
  1 <= mc_get_height (t_main (h_tree h')) <= mc_get_height (t_main (h_tree h)) /\
  forall i, i < mc_get_height (t_main (h_tree h')) ->
    mc_find_raw_by_height i (t_main (h_tree h')) = mc_find_raw_by_height i (t_main (h_tree h)) /\ mc_find_raw_by_height i (t_main (h_tree h)) <> None.
Proof. exact p_C107_only_shortened_partial. Qed.
Print Assumptions C107_only_shortened_partial.

(** C107: if blocks of the main chain only come from emission, the main chain is linked from the first block on (hash, height, difficulty, work), every
   block of it can be read, whatever failed and whenever the process was killed or an opening failed.
   Missing: as in [C107_only_shortened_partial]. *)
Theorem C107_linked_partial : forall p n h, life emitted_only p (Down disk_empty) n (Up h) -> few n ->
  exists L g,
    genesis_block = Ok g /\ hd_error L = Some g /\
    mc_get_height (t_main (h_tree h)) = N.of_nat (length L) /\
    (forall i b, nth_error L i = Some b -> mc_find_by_height (N.of_nat i) (t_main (h_tree h)) = Ok (Some b)) /\
    mc_get_last_block (t_main (h_tree h)) = Ok (Some (last L g)) /\
    chained (main_link p) L.
Proof. exact p_C107_linked_partial. Qed.
Print Assumptions C107_linked_partial.

(** C107 fails without that restriction: two blocks are lost in a crash that keeps their entries in the database but not the config; two other blocks are
   emitted in their place; the flush of the chain writes the config and is killed before the blocks are flushed, and of the two blocks only the first survives.
   The chain opened then has three blocks, of which the third is the lost one, whose previous hash is not the hash of the second; it can be read, and the next
   block is emitted on top of it. *)
Theorem C107_broken_link_refuted : exists n h s h' b1 b2 d,
  life (fun _ o _ => no_raw_main o) Debug (Down disk_empty) n (Up h) /\ life no_calls Debug (Down (t_crash s (h_tree h))) 0 (Up h') /\
  mc_get_height (t_main (h_tree h)) = 3 /\ mc_get_height (t_main (h_tree h')) = 3 /\
  mc_find_by_height 1 (t_main (h_tree h')) = Ok (Some b1) /\ mc_find_by_height 2 (t_main (h_tree h')) = Ok (Some b2) /\
  bi_previous_hash (get_info b2) <> block_hash b1 /\
  mc_find_raw_by_height 2 (t_main (h_tree h)) = Some d /\ d <> block_dump b2 /\
  exists o h'' b3, no_raw_main o /\ io_after (io_step Debug o) [] h' = h'' /\ mc_get_height (t_main (h_tree h'')) = 4 /\
    mc_get_last_block (t_main (h_tree h'')) = Ok (Some b3) /\ bi_previous_hash (get_info b3) = block_hash b2.
Proof. exact p_C107_broken_link_refuted. Qed.
Print Assumptions C107_broken_link_refuted.

(* emit, a flush that fails at its first write, crash, an opening that fails, an opening, emit, flush, crash, opening *)
Example C107_ex :
  let call o fs h := io_after (io_step Debug o) fs h in
  let reopened fs d h := match io_result t_new_io fs d with Ok t => opened t | _ => h end in
  let h0 := opened fresh in
  let h1 := call OFlush [] h0 in
  let h2 := call OFlush [Fine; Fails 1] (call emit_good [] h1) in
  let d2 := t_crash (svs 9 9 9 0 9 9) (h_tree h2) in
  let d3 := disk_settle (io_after t_new_io [Fine; Fails 0] d2) in
  let h3 := reopened [] d3 h0 in
  let h4 := call OFlush [] (call emit_bad [] h3) in
  let h5 := reopened [] (t_crash (svs 0 0 0 9 0 0) (h_tree h4)) h0 in
  map (fun h => (mc_get_height (t_main (h_tree h)), match mc_find_by_height 1 (t_main (h_tree h)) with Ok (Some b) => hd 0 (bi_pow (get_info b)) | _ => 0 end)) [h1; h2; h3; h4; h5] =
    [(1, 0); (2, 3); (1, 3); (2, 5); (2, 5)].
Proof. vm_compute. reflexivity. Qed.

