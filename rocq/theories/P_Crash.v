(** Crashes and reopening.
    Only theorem statements (closed by [exact]), examples showing that their
    premises are met, and the assumptions of each theorem. *)
From Coq Require Import Lia ZifyBool ZifyNat ZifyN.
From Verif Require Import Base Sha256 Merkle Tools Transaction Block Sled Chain Tree Spec Reach LedgerSpec CrashSpec Demo.
From Verif Require Import BaseFacts ToolsFacts MerkleFacts DiffFacts CodecFacts SledFacts ChainFacts TreeFacts LedgerFacts DerivFacts CrashFacts.
From Verif Require Import CrashProps.

(** C59. Once a flush has completed and its file writes have reached the disk, every crash
   before the next flush leaves a directory that opens again, at the flushed height, with every
   flushed block, looked up by height, unchanged, the same last block and every flushed
   transaction still stored.  [s] says how much of the unflushed writes survived. *)
Theorem C59_flushed_blocks_survive_crash : forall p n t ops s,
  reachable any_op p n t -> unflushed p (t_settle (t_flush t)) ops -> few (n + length ops) ->
  exists t', t_new (t_crash s (run p (t_settle (t_flush t)) ops)) = Ok t' /\
    mc_get_height (t_main t') = mc_get_height (t_main t) /\
    (forall i, i < mc_get_height (t_main t) ->
       mc_find_raw_by_height i (t_main t') = mc_find_raw_by_height i (t_main t) /\
       mc_find_raw_by_height i (t_main t') <> None) /\
    mc_get_last_block (t_main t') = mc_get_last_block (t_main t) /\
    (forall h, mc_transaction_exists h (t_main t) = true -> mc_transaction_exists h (t_main t') = true).
Proof. exact p_C59_flushed_blocks_survive_crash. Qed.
Print Assumptions C59_flushed_blocks_survive_crash.

(** One block is flushed, another one emitted and a transfer made, then all unflushed writes are lost,
    or the block is kept: the flushed height comes back both times. *)
Example C59_ex_calls :
  let t0 := run Debug fresh [emit_good] in
  unflushed Debug (t_settle (t_flush t0)) [OEmitMain (repeat 7 32) addrA [txh] 1597926000] /\
  map (fun s => match t_new (t_crash s (run Debug (t_settle (t_flush t0)) [OEmitMain (repeat 7 32) addrA [txh] 1597926000])) with
    | Ok t' => mc_get_height (t_main t') | _ => 0 end) [svs 0 0 0 0 0 0; svs 1 0 0 0 0 0; svs 1 1 1 1 1 1] = [2; 2; 2].
Proof.
  split; [|vm_compute; reflexivity].
  apply (unflushed_snoc _ _ []); [constructor| |].
  - repeat split; try (repeat constructor; fail); vm_compute; repeat constructor.
  - intros (i & root & E). vm_compute in E. discriminate E.
Qed.

(** C61. Right after a crash, whatever survived, and a successful reopen, lookups by hash and by
   height still give only correct answers: a block found under a hash has that hash, a block found at a
   height is the one that was there before the crash.
   Missing: what happens when blocks are added afterwards, see [C61_stale_reference_after_crash_refuted]. *)
Theorem C61_lookups_after_crash_partial : forall p n t s t',
  reachable any_op p n t -> few n -> t_new (t_crash s t) = Ok t' ->
  (forall h, match mc_find_raw_by_hash h (t_main t') with
             | Ok (Some d) => sha256 d = h /\ mc_find_raw_by_hash h (t_main t) <> Ok None
             | Ok None => True | _ => False end) /\
  (forall i d, i < 2 ^ 256 -> mc_find_raw_by_height i (t_main t') = Some d -> mc_find_raw_by_height i (t_main t) = Some d).
Proof. exact p_C61_lookups_after_crash_partial. Qed.
Print Assumptions C61_lookups_after_crash_partial.

(** After a crash that kept the reference but not the block, nothing is found under the hash;
    the genesis block still is. *)
Example C61_ex_lookups :
  let t := run Debug fresh [OFlush; emit_good] in
  match t_new (t_crash (svs 0 1 0 3 0 0) t) with
  | Ok t' => (mc_find_raw_by_hash (block_hash (last_of t)) (t_main t'),
              mc_find_raw_by_hash (block_hash (last_of fresh)) (t_main t'))
  | _ => (Panic, Panic) end = (Ok None, Ok (Some (block_dump (last_of fresh)))).
Proof. vm_compute. reflexivity. Qed.

(** C61 fails once the chain is extended after the crash: the reference of a lost block survives and points at
   the height where another block is put; looking up the hash of the lost block returns that other block. *)
Theorem C61_stale_reference_after_crash_refuted : exists n t s t' o h d,
  reachable any_op Debug n t /\ few n /\ t_new (t_crash s t) = Ok t' /\ op_wf o /\
  mc_find_raw_by_hash h (t_main (fst (step Debug t' o))) = Ok (Some d) /\ sha256 d <> h.
Proof. exact p_C61_stale_reference_after_crash_refuted. Qed.
Print Assumptions C61_stale_reference_after_crash_refuted.

(** C60 fails: the config file is truncated before it is rewritten.  A crash in between leaves
   an empty config and the chain can no longer be opened. *)
Theorem C60_truncated_config_refuted : exists n t x s,
  reachable any_op Debug n t /\ few n /\ In x (flush_points t) /\ t_new (t_crash s x) = Err EChainInit.
Proof. exact p_C60_truncated_config_refuted. Qed.
Print Assumptions C60_truncated_config_refuted.

(** C60 fails in another way: the config, with the new height, is written before the blocks are flushed.  A crash in
   between leaves a chain that opens but whose last block is missing; the next emission panics. *)
Theorem C60_height_ahead_of_blocks_refuted : exists n t x s t' o,
  reachable any_op Debug n t /\ few n /\ In x (flush_points t) /\ t_new (t_crash s x) = Ok t' /\
  mc_get_last_block (t_main t') = Ok None /\ op_wf o /\ snd (step Debug t' o) = Panic.
Proof. exact p_C60_height_ahead_of_blocks_refuted. Qed.
Print Assumptions C60_height_ahead_of_blocks_refuted.

(** C60, later part of a flush: once the config write has reached the disk and the blocks are flushed, a crash at any later
   point of the flush leaves a chain that opens at the same height with every block readable.
   Missing: the points before, where it fails as refuted above. *)
Theorem C60_late_flush_crash_partial : forall p n t x s,
  reachable any_op p n t -> few n -> In x (skipn 2 (flush_points t)) ->
  exists t', t_new (t_crash s (t_settle x)) = Ok t' /\
    mc_get_height (t_main t') = mc_get_height (t_main t) /\
    (forall i, mc_find_raw_by_height i (t_main t') = mc_find_raw_by_height i (t_main t)) /\
    mc_get_last_block (t_main t') = mc_get_last_block (t_main t).
Proof. exact p_C60_late_flush_crash_partial. Qed.
Print Assumptions C60_late_flush_crash_partial.

Example C60_ex_late :
  let t := run Debug fresh [emit_good] in
  map (fun x => match t_new (t_crash (svs 0 0 0 0 0 0) (t_settle x)) with Ok t' => bytes_eqb (block_dump (last_of t')) (block_dump (last_of t)) | _ => false end)
    (skipn 2 (flush_points t)) = [true; true; true; true].
Proof. vm_compute. reflexivity. Qed.

(** C58 fails: the flush of the tree does not flush derivative chains, and never writes their config.  After a
   clean shutdown and restart a chain with a block reads as empty, attached to the current last main block. *)
Theorem C58_flush_forgets_derivatives_refuted : exists n t w c t' c',
  reachable any_op Debug n t /\ few n /\ snd (t_get_derivative_chain w t) = Ok c /\
  t_new (t_close (t_flush t)) = Ok t' /\ snd (t_get_derivative_chain w t') = Ok c' /\
  dc_get_height c = 1 /\ dc_get_height c' = 0.
Proof. exact p_C58_flush_forgets_derivatives_refuted. Qed.
Print Assumptions C58_flush_forgets_derivatives_refuted.

(** C58, what works: if the chain itself was flushed ([DerivativeChain::flush] on the handle), then after a clean restart
   asking for the chain gives the same height, the same genesis hash and the same blocks by height and by hash, provided the
   last block of the main chain can be read.
   Missing: this is not what [BlockChainTree::flush] does, see [C58_flush_forgets_derivatives_refuted]. *)
Theorem C58_flushed_derivative_survives_partial : forall p n t w c t' b,
  reachable any_op p n t -> few n -> is_array 33 w ->
  assoc_get w (t_derivs t) = Some c ->
  t_new (t_close (t_flush (fst (step p t (ODerivFlush w))))) = Ok t' ->
  mc_get_last_block (t_main t') = Ok (Some b) ->
  exists c', snd (t_get_derivative_chain w t') = Ok c' /\
    dc_get_height c' = dc_get_height c /\ dc_genesis c' = dc_genesis c /\ dc_difficulty c' = dc_difficulty c /\
    (forall i, dc_find_raw_by_height i c' = dc_find_raw_by_height i c) /\
    (forall h, dc_find_raw_by_hash h c' = dc_find_raw_by_hash h c).
Proof. exact p_C58_flushed_derivative_survives_partial. Qed.
Print Assumptions C58_flushed_derivative_survives_partial.

Example C58_ex_flushed :
  let t := run Debug fresh [deriv_1; deriv_2] in
  match t_new (t_close (t_flush (fst (step Debug t (ODerivFlush addrA))))) with
  | Ok t' => match mc_get_last_block (t_main t'), snd (t_get_derivative_chain addrA t') with
             | Ok (Some _), Ok c => dc_get_height c | _, _ => 0 end
  | _ => 0 end = 2.
Proof. vm_compute. reflexivity. Qed.

(** C68. After a crash and reopen, the amounts are exactly those of some moment between two calls since the last
   flush, for all accounts at once, and so is the gas: no half-made transfer is ever recovered.  The exception is the root
   account, which is set again to the amount of a cycle when the chain reopens with only its first block. *)
Theorem C68_balances_after_crash : forall p n t ops s t',
  reachable any_op p n t -> unflushed p (t_flush t) ops -> few (n + length ops) ->
  t_new (t_crash s (run p (t_flush t) ops)) = Ok t' ->
  (exists k, (k <= length ops)%nat /\ forall w, w <> ROOT_PUBLIC_ADDRESS \/ mc_get_height (t_main t') <> 1 ->
     t_get_amount w t' = t_get_amount w (run p (t_flush t) (firstn k ops))) /\
  (exists k, (k <= length ops)%nat /\ forall w,
     t_get_gas w t' = t_get_gas w (run p (t_flush t) (firstn k ops))).
Proof. exact p_C68_balances_after_crash. Qed.
Print Assumptions C68_balances_after_crash.

(** Two transfers after a flush; the crash keeps one of them. *)
Example C68_ex_transfers :
  let ops := [OSendAmount addrA addrB 5; OSendAmount addrA addrB 7] in
  let t := funded in
  match t_new (t_crash (svs 0 0 0 3 1 0) (run Debug (t_flush t) ops)) with
  | Ok t' => (t_get_amount addrA t', t_get_amount addrB t', t_get_gas addrA t')
  | _ => (Panic, Panic, Panic) end = (Ok 999999995, Ok 5, Ok (10 ^ 18)).
Proof. vm_compute. reflexivity. Qed.

(** C69. A transfer and its gas charge are written to different databases: a crash after [send_transaction] returned
   can keep the transfer and lose the charge. *)
Theorem C69_crash_splits_transfer_and_gas_refuted : exists n t tx s t',
  reachable any_op Debug n t /\ few n /\ tx_wf tx /\ snd (step Debug (t_flush t) (OSendTx tx)) = Ok RUnit /\
  t_new (t_crash s (fst (step Debug (t_flush t) (OSendTx tx)))) = Ok t' /\
  t_get_amount (tx_receiver tx) t = Ok 0 /\ t_get_amount (tx_receiver tx) t' = Ok (tx_amount tx) /\
  t_get_gas (tx_sender tx) t' = t_get_gas (tx_sender tx) t.
Proof. exact p_C69_crash_splits_transfer_and_gas_refuted. Qed.
Print Assumptions C69_crash_splits_transfer_and_gas_refuted.

