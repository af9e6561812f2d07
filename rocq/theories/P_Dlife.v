(** Property C109: derivative chains, failing operations, killed processes and failing openings.
    Only theorem statements (closed by [exact]), examples showing that their
    premises are met, and the assumptions of each theorem. *)
From Coq Require Import Lia ZifyBool ZifyNat ZifyN.
From Verif Require Import Base Sha256 Merkle Tools Transaction Block Sled Chain Tree Spec Reach QuietSpec Conc ConcTree ConcFlush ConcEmit Cancel ConcDeriv CrashSpec DcrashSpec HistSpec Io IoSpec LifeSpec DlifeSpec Demo.
From Verif Require Import BaseFacts ToolsFacts MerkleFacts DiffFacts CodecFacts SledFacts ChainFacts TreeFacts LedgerFacts CrashFacts ConcFacts EmitFacts DerivFacts IoFacts IoSure CodecProps MainProps DcrashProps HistProps DhistProps LifeFacts DlifeFacts.
From Verif Require Import DlifeProps.

(** C109: whatever fails and whenever the process is killed, everything found at a height of a derivative chain is the dump of a header of that height given to the
   node or made by it, and can be read. *)
Theorem C109_nothing_else_is_found : forall p n h w c, life any_faults p (Down disk_empty) n (Up h) -> assoc_get w (t_derivs (h_tree h)) = Some c ->
  dc_get_height c < 2 ^ 256 /\
  forall i d, dc_find_raw_by_height i c = Some d ->
    exists x, info_wf x /\ bi_height x = i /\ d = block_dump (DerivBlock x) /\ dc_find_by_height i c = Ok (Some (DerivBlock x)).
Proof. exact p_C109_nothing_else_is_found. Qed.
Print Assumptions C109_nothing_else_is_found.

(** C109: if nothing is added through a handle, every block found in the derivative chain of an owner has that owner as founder. *)
Theorem C109_founder : forall p n h w c, life demitted p (Down disk_empty) n (Up h) -> assoc_get w (t_derivs (h_tree h)) = Some c ->
  forall i d, dc_find_raw_by_height i c = Some d -> exists x, bi_founder x = w /\ bi_height x = i /\ d = block_dump (DerivBlock x).
Proof. exact p_C109_founder. Qed.
Print Assumptions C109_founder.

(** C109: a block of a derivative chain that was once flushed through its handle, with the config file on disk, is found ever after, through any calls, failing operations,
   closings, crashes and openings, successful or not; the chain is never shorter than then and keeps its genesis hash.  The config file of a derivative chain, once
   it exists, can be opened; otherwise see [C109_config_refuted]. *)
Theorem C109_flushed_is_never_lost : forall p n m h w c h' c', life any_faults p (Down disk_empty) n (Up h) -> assoc_get w (t_derivs (h_tree h)) = Some c ->
  life derivs_open p (Up (deriv_saved p w h)) m (Up h') -> assoc_get w (t_derivs (h_tree h')) = Some c' ->
  dc_get_height c <= dc_get_height c' /\ dc_genesis c' = dc_genesis c /\
  forall i, i < dc_get_height c -> dc_find_raw_by_height i c' = dc_find_raw_by_height i c.
Proof. exact p_C109_flushed_is_never_lost. Qed.
Print Assumptions C109_flushed_is_never_lost.

(** C109: if the blocks of derivative chains only come from emission, every open derivative chain is a row of readable blocks of its owner, each linked to the one before it
   (hash, height, difficulty, work), whatever failed and whenever the process was killed or an opening failed.
   Missing: calls that fail to open the config file of a derivative chain, see [C109_config_refuted]; flushes of a derivative chain in which the flush of its blocks fails without
   effect, or that are killed before it, after the config has been written, see [C109_window_refuted]. *)
Theorem C109_linked_partial : forall p n h w c, life demitted_only p (Down disk_empty) n (Up h) -> few n -> assoc_get w (t_derivs (h_tree h)) = Some c ->
  exists B,
    dc_get_height c = N.of_nat (length B) /\
    (forall i x, nth_error B i = Some x -> dc_find_by_height (N.of_nat i) c = Ok (Some (DerivBlock x)) /\ bi_height x = N.of_nat i /\ bi_founder x = w) /\
    dc_get_last_block c = Ok (match B with [] => None | x :: _ => Some (DerivBlock (last B x)) end) /\
    chained (deriv_link p) B.
Proof. exact p_C109_linked_partial. Qed.
Print Assumptions C109_linked_partial.

(** C109 fails when the config file of a derivative chain that exists cannot be opened: a chain of two blocks was flushed and the config is on disk; after a restart the file
   cannot be opened once, the chain counts as empty, and a block is emitted in the place of the first one.  After the next restart the chain has two blocks again: the first is not
   the flushed one, and the second has a previous hash that is not the hash of the first. *)
Theorem C109_config_refuted : exists n m h c h' c' b0 b1,
  life demitted Debug (Down disk_empty) n (Up h) /\ assoc_get addrA (t_derivs (h_tree h)) = Some c /\
  life demitted Debug (Up (deriv_saved Debug addrA h)) m (Up h') /\ assoc_get addrA (t_derivs (h_tree h')) = Some c' /\
  dc_get_height c = 2 /\ dc_get_height c' = 2 /\ dc_find_raw_by_height 0 c' <> dc_find_raw_by_height 0 c /\
  dc_find_by_height 0 c' = Ok (Some b0) /\ dc_find_by_height 1 c' = Ok (Some b1) /\ bi_previous_hash (get_info b1) <> block_hash b0.
Proof. exact p_C109_config_refuted. Qed.
Print Assumptions C109_config_refuted.

(** C109 fails when a flush of a derivative chain is killed after the config was written and before the blocks are flushed: the chain opened then has height 1 and no block. *)
Theorem C109_window_refuted : exists n m h s h' c,
  life (fun h o fs => no_raw_deriv o /\ derivs_open h o fs) Debug (Down disk_empty) n (Up h) /\
  life (fun h o fs => no_raw_deriv o /\ derivs_open h o fs) Debug (Down (t_crash s (h_tree h))) m (Up h') /\ assoc_get addrA (t_derivs (h_tree h')) = Some c /\
  dc_get_height c = 1 /\ dc_find_by_height 0 c = Ok None /\ dc_get_last_block c = Ok None.
Proof. exact p_C109_window_refuted. Qed.
Print Assumptions C109_window_refuted.

(* one block flushed, a second one emitted and a flush that fails, crash, an opening that fails, an opening: the first block is there; a block is emitted again *)
Example C109_ex :
  let call o fs h := io_after (io_step Debug o) fs h in
  let reopened fs d h := match io_result t_new_io fs d with Ok t => opened t | _ => h end in
  let h0 := opened fresh in
  let h1 := deriv_saved Debug addrA (call deriv_1 [] h0) in
  let h2 := call (ODerivFlush addrA) [Fine; Fine; Fails 7] (call deriv_2 [] h1) in
  let d2 := t_crash (MkSurv 0 0 0 0 0 0 0 0 (fun _ => (1, 0, 0)%nat)) (h_tree h2) in
  let d3 := disk_settle (io_after t_new_io [Fine; Fails 0] d2) in
  let h3 := call (OGetDeriv addrA) [] (reopened [] d3 h0) in
  let h4 := call deriv_2 [Fails 1] h3 in
  let h5 := call deriv_2 [] h4 in
  map (fun h => match assoc_get addrA (t_derivs (h_tree h)) with Some c => (dc_get_height c, match dc_get_last_block c with Ok (Some b) => hd 0 (bi_pow (get_info b)) | _ => 0 end) | None => (9, 9) end) [h1; h2; h3; h4; h5] =
    [(1, 1); (2, 4); (1, 1); (1, 1); (2, 4)].
Proof. vm_compute. reflexivity. Qed.

