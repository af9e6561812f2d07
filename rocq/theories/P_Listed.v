(** Property C127: the transactions listed in blocks
    Only theorem statements (closed by [exact]), examples showing that their
    premises are met, and the assumptions of each theorem. *)
From Coq Require Import Lia ZifyBool ZifyNat ZifyN.
From Verif Require Import Base Sha256 Merkle Tools Transaction Block Sled Chain Tree Spec Reach LedgerSpec CrashSpec LiveSpec ListedSpec Demo.
From Verif Require Import BaseFacts ToolsFacts MerkleFacts CodecFacts SledFacts ChainFacts DiffFacts TreeFacts LedgerFacts StoreProps CrashFacts CrashProps DcrashProps.
From Verif Require Import ListedProps.

(** C127, callers that list only transactions they have stored: every transaction listed in a block can be retrieved, as long as the node runs and through clean restarts.
    Missing: the emission does not check it, see below. *)
Theorem C127_listed_partial : forall p n t k b h, careful p n t -> few n ->
  mc_find_by_height k (t_main t) = Ok (Some b) -> In h (listed b) -> retrievable h t.
Proof. exact p_C127_listed_partial. Qed.
Print Assumptions C127_listed_partial.

(** C127, the same after a crash, for the blocks that were there at the last complete flush. *)
Theorem C127_flushed_partial : forall p n t ops s t' k b h, careful p n t -> unflushed p (t_settle (t_flush t)) ops -> few (n + length ops) ->
  t_new (t_crash s (run p (t_settle (t_flush t)) ops)) = Ok t' -> k < mc_get_height (t_main t) ->
  mc_find_by_height k (t_main t') = Ok (Some b) -> In h (listed b) ->
  retrievable h t' \/ exists d d', collision d d'.
Proof. exact p_C127_flushed_partial. Qed.
Print Assumptions C127_flushed_partial.

Example C127_ex_listed : let x := demo_tx 3 (repeat 7 64) in let o := OEmitMain (repeat 4 32) addrA [tx_hash x] 1597925000 in
  let t1 := fst (step Debug fresh (OAddTxs [x])) in let t2 := fst (step Debug t1 o) in
  lists_known t1 o /\ option_map listed (match mc_find_by_height 1 (t_main t2) with Ok y => y | _ => None end) = Some [tx_hash x] /\
  mc_get_transaction (tx_hash x) (t_main t2) = Ok (Some x).
Proof. cbv zeta. split; [|split; vm_compute; reflexivity]. constructor; [vm_compute; reflexivity|constructor]. Qed.

Example C127_ex_flushed : let x := demo_tx 3 (repeat 7 64) in
  let t := run Debug fresh [OAddTxs [x]; OEmitMain (repeat 4 32) addrA [tx_hash x] 1597925000] in
  match t_new (t_crash (svs 0 0 0 0 0 0) (run Debug (t_settle (t_flush t)) [OAddTxs [demo_tx 4 (repeat 7 64)]])) with
  | Ok t' => option_map listed (match mc_find_by_height 1 (t_main t') with Ok y => y | _ => None end) = Some [tx_hash x] /\
             mc_get_transaction (tx_hash x) (t_main t') = Ok (Some x) /\ mc_get_transaction (tx_hash (demo_tx 4 (repeat 7 64))) (t_main t') = Ok None
  | _ => False end.
Proof. vm_compute. repeat split; reflexivity. Qed.

(** C127 is false when blocks are emitted with other hashes: nothing checks that a listed transaction is known. *)
Theorem C127_unknown_refuted : forall p, exists t b h, reachable emission_only p 1 t /\
  mc_find_by_height 1 (t_main t) = Ok (Some b) /\ In h (listed b) /\ mc_get_transaction h (t_main t) = Ok None.
Proof. exact p_C127_unknown_refuted. Qed.
Print Assumptions C127_unknown_refuted.

(** C127 is false for "once": a block can list a stored transaction twice, and the next block can list it again. *)
Theorem C127_twice_refuted : forall p, exists t b b' h, careful p 3 t /\
  mc_find_by_height 1 (t_main t) = Ok (Some b) /\ listed b = [h; h] /\ mc_find_by_height 2 (t_main t) = Ok (Some b') /\ listed b' = [h].
Proof. exact p_C127_twice_refuted. Qed.
Print Assumptions C127_twice_refuted.

(** C127 is false after a crash during a flush: the block is there, the transaction it lists is gone. *)
Theorem C127_crash_refuted : forall p, exists t x s t' b h, careful p 2 t /\ In x (flush_points t) /\ t_new (t_crash s x) = Ok t' /\
  mc_find_by_height 1 (t_main t') = Ok (Some b) /\ In h (listed b) /\ mc_get_transaction h (t_main t') = Ok None.
Proof. exact p_C127_crash_refuted. Qed.
Print Assumptions C127_crash_refuted.

