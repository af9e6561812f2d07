(** Properties C85-C87: transactions, lookups and derivative chains after crashes.
    Only theorem statements (closed by [exact]), examples showing that their
    premises are met, and the assumptions of each theorem. *)
From Coq Require Import Lia ZifyBool ZifyNat ZifyN.
From Verif Require Import Base Sha256 Merkle Tools Transaction Block Sled Chain Tree Spec Reach LedgerSpec CrashSpec DcrashSpec Demo.
From Verif Require Import BaseFacts ToolsFacts MerkleFacts DiffFacts CodecFacts SledFacts ChainFacts TreeFacts LedgerFacts DerivFacts CrashFacts CodecProps MainProps StoreProps CrashProps.
From Verif Require Import DcrashProps.

(** C85, nothing is made up: every transaction found after a crash, whatever survived, has the hash it is found
    under and something was stored under that hash before the crash. *)
Theorem C85_transactions_after_crash : forall ok p n t s t' h d, reachable ok p n t -> few n -> t_new (t_crash s t) = Ok t' ->
  mc_get_transaction_raw h (t_main t') = Some d -> sha256 d = h /\ mc_transaction_exists h (t_main t) = true.
Proof. exact p_C85_transactions_after_crash. Qed.
Print Assumptions C85_transactions_after_crash.

(** C85, flushed data: with [t], [ops], [s] as in C59, every transaction stored and every block found by hash at the time of the
    flush is found unchanged after the crash, unless a SHA-256 collision was stored. *)
Theorem C85_flushed_lookups_survive : forall p n t ops s t',
  reachable any_op p n t -> unflushed p (t_settle (t_flush t)) ops -> few (n + length ops) ->
  t_new (t_crash s (run p (t_settle (t_flush t)) ops)) = Ok t' ->
  (forall h d, mc_get_transaction_raw h (t_main t) = Some d ->
     mc_get_transaction_raw h (t_main t') = Some d \/ exists d', collision d d') /\
  (forall h d, mc_find_raw_by_hash h (t_main t) = Ok (Some d) ->
     mc_find_raw_by_hash h (t_main t') = Ok (Some d) \/ exists d', collision d d').
Proof. exact p_C85_flushed_lookups_survive. Qed.
Print Assumptions C85_flushed_lookups_survive.

Example C85_ex : let t := run Debug fresh [OAddTxs [demo_tx 3 (repeat 7 64)]; emit_good] in
  match t_new (t_crash (svs 0 0 0 0 0 0) (run Debug (t_settle (t_flush t)) [OAddTxs [demo_tx 4 (repeat 7 64)]])) with
  | Ok t' => (mc_transaction_exists (tx_hash (demo_tx 3 (repeat 7 64))) (t_main t'), mc_transaction_exists (tx_hash (demo_tx 4 (repeat 7 64))) (t_main t'))
  | _ => (false, false) end = (true, false).
Proof. vm_compute. reflexivity. Qed.

(** C86: a derivative chain flushed through its handle, with the config write on disk, survives every crash before the
    next flush of that chain: asking for it again after the crash gives the flushed height and genesis hash, every flushed block and the same last block, and the blocks that were found by
    their hashes still are (or a block with the same hash as a flushed one is exhibited), provided the last block of the main chain can be read. *)
Theorem C86_flushed_derivative_survives_crash : forall p n t w c ops s t' b,
  reachable any_op p n t -> few (n + length ops) -> is_array 33 w -> assoc_get w (t_derivs t) = Some c ->
  Forall op_wf ops -> Forall (fun o => o <> ODerivFlush w) ops ->
  t_new (t_crash s (run p (deriv_settle w (fst (step p t (ODerivFlush w)))) ops)) = Ok t' ->
  mc_get_last_block (t_main t') = Ok (Some b) ->
  exists c', snd (t_get_derivative_chain w t') = Ok c' /\
    dc_get_height c' = dc_get_height c /\ dc_genesis c' = dc_genesis c /\
    (forall i, i < dc_get_height c -> dc_find_raw_by_height i c' = dc_find_raw_by_height i c /\ dc_find_raw_by_height i c' <> None) /\
    dc_get_last_block c' = dc_get_last_block c /\
    (forall i d, i < dc_get_height c -> dc_find_raw_by_height i c = Some d -> dc_find_raw_by_hash (sha256 d) c = Ok (Some d) ->
      dc_find_raw_by_hash (sha256 d) c' = Ok (Some d) \/ exists x, info_wf x /\ collision d (block_dump (DerivBlock x))).
Proof. exact p_C86_flushed_derivative_survives_crash. Qed.
Print Assumptions C86_flushed_derivative_survives_crash.

(* two blocks flushed, a third emitted after the flush is lost *)
Example C86_ex : let t := run Debug fresh [deriv_1; deriv_2] in
  match t_new (t_crash (svs 0 0 0 0 0 0) (run Debug (deriv_settle addrA (fst (step Debug t (ODerivFlush addrA)))) [OGetDeriv addrB; OFlush])) with
  | Ok t' => match mc_get_last_block (t_main t'), snd (t_get_derivative_chain addrA t') with Ok (Some _), Ok c => dc_get_height c | _, _ => 0 end
  | _ => 0 end = 2.
Proof. vm_compute. reflexivity. Qed.

(** C87, what works: if the main chain is flushed once the chain is open, and then the chain itself, both with their config writes on
    disk, then after every crash before the next flush the chain is found again with the same genesis hash, and the main chain still
    has the block with that hash, unless a SHA-256 collision was stored.
    Missing: a chain flushed on its own, see [C87_detached_refuted]. *)
Theorem C87_attached_after_crash_partial : forall p n t w c ops s t' b,
  reachable any_op p n t -> few (n + length ops) -> is_array 33 w -> assoc_get w (t_derivs t) = Some c ->
  unflushed p (deriv_settle w (fst (step p (t_settle (t_flush t)) (ODerivFlush w)))) ops -> Forall (fun o => o <> ODerivFlush w) ops ->
  t_new (t_crash s (run p (deriv_settle w (fst (step p (t_settle (t_flush t)) (ODerivFlush w)))) ops)) = Ok t' ->
  mc_get_last_block (t_main t') = Ok (Some b) ->
  exists c', snd (t_get_derivative_chain w t') = Ok c' /\ dc_genesis c' = dc_genesis c /\
    ((exists d, mc_find_raw_by_hash (dc_genesis c') (t_main t') = Ok (Some d) /\ sha256 d = dc_genesis c') \/ exists d d', collision d d').
Proof. exact p_C87_attached_after_crash_partial. Qed.
Print Assumptions C87_attached_after_crash_partial.

Example C87_ex : let t := run Debug fresh [emit_good; OGetDeriv addrA] in
  match t_new (t_crash (svs 0 0 0 0 0 0) (run Debug (deriv_settle addrA (fst (step Debug (t_settle (t_flush t)) (ODerivFlush addrA)))) [])) with
  | Ok t' => match snd (t_get_derivative_chain addrA t') with Ok c => (dc_get_height c, mc_find_raw_by_hash (dc_genesis c) (t_main t')) | _ => (7, Ok None) end
  | _ => (7, Ok None) end = (0, Ok (Some (block_dump (last_of (run Debug fresh [emit_good]))))).
Proof. vm_compute. reflexivity. Qed.

(** C87 fails: a chain opened on a new main block and flushed through its handle, while the main chain is not flushed.  A crash loses the main
    block and keeps the chain, whose genesis hash then names no block: every first emission on it is refused, whatever the proof of work and time. *)
Theorem C87_detached_refuted : exists n t s t' c,
  reachable any_op Debug n t /\ few n /\ t_new (t_crash s t) = Ok t' /\ snd (t_get_derivative_chain addrA t') = Ok c /\ dc_get_height c = 0 /\
  mc_find_raw_by_hash (dc_genesis c) (t_main t') = Ok None /\
  forall p pow ts, snd (t_emmit_new_derivative_block p pow addrA ts t') = Err EChainFindByHash.
Proof. exact p_C87_detached_refuted. Qed.
Print Assumptions C87_detached_refuted.

