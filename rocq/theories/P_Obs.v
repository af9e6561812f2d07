(** Properties C113, C114: calls without a trace, calls that can be swapped.
    Only theorem statements (closed by [exact]), examples showing that their
    premises are met, and the assumptions of each theorem. *)
From Coq Require Import Lia ZifyBool ZifyNat ZifyN.
From Verif Require Import Base Sha256 Merkle Tools Transaction Block Sled Chain Tree Spec Reach LedgerSpec NodeSpec ProfileSpec ObsSpec Demo.
From Verif Require Import BaseFacts DerivFacts NodeProps ObsFacts.
From Verif Require Import ObsProps.

(** C113: take any history and any call in it that is a flush, or that failed, or that asked for a chain already asked for in this process.
    Without that call all later calls return the same and afterwards no query tells the two trees apart.  Excepted are transactions that
    panic and failing emissions of derivative blocks for an owner whose chain was not asked for before. *)
Theorem C113_no_trace_partial : forall p before o after, few (length (before ++ Call o :: after)) -> Forall (sane p) (before ++ Call o :: after) ->
  exists t t1 t2 rs0 r rs1 rs0' rs1', t_new disk_empty = Ok t /\
  code_run p t (before ++ Call o :: after) = Some (t1, rs0 ++ r :: rs1) /\ length rs0 = length (calls before) /\
  code_run p t (before ++ after) = Some (t2, rs0' ++ rs1') /\ Forall2 alike_result rs0 rs0' /\
  (traceless before o r -> Forall2 alike_result rs1 rs1' /\ alike t1 t2).
Proof. exact p_C113_no_trace_partial. Qed.
Print Assumptions C113_no_trace_partial.

(** C113: the exceptions are real.  A transaction whose transfer panics (the receiver would have more than 2^256-1) has not moved anything
    and is stored all the same ... *)
Theorem C113_transaction_refuted : exists evs tx t t1 t2 rs, t_new disk_empty = Ok t /\ Forall (sane Debug) (evs ++ [Call (OSendTx tx)]) /\
  code_run Debug t (evs ++ [Call (OSendTx tx)]) = Some (t1, rs ++ [Panic]) /\ code_run Debug t evs = Some (t2, rs) /\
  mc_transaction_exists (sha256 (tx_dump tx)) (t_main t1) = true /\ mc_transaction_exists (sha256 (tx_dump tx)) (t_main t2) = false /\
  forall w, t_get_amount w t1 = t_get_amount w t2 /\ t_get_gas w t1 = t_get_gas w t2.
Proof. exact p_C113_transaction_refuted. Qed.
Print Assumptions C113_transaction_refuted.

(** ... and an emission of a derivative block that is refused for lack of work still ties the owner's chain to the main block that was last then. *)
Theorem C113_derivative_refuted : exists o w t c c', t_new disk_empty = Ok t /\ sane Debug (Call o) /\ snd (step Debug t o) = Err ETreeWrongPow /\
  (exists t1 rs, code_run Debug t [Call o; Call emit_good] = Some (t1, rs) /\ snd (t_get_derivative_chain w t1) = Ok c) /\
  (exists t2 rs, code_run Debug t [Call emit_good] = Some (t2, rs) /\ snd (t_get_derivative_chain w t2) = Ok c') /\
  dc_genesis c = block_hash (last_of t) /\ dc_genesis c' <> dc_genesis c.
Proof. exact p_C113_derivative_refuted. Qed.
Print Assumptions C113_derivative_refuted.

(* A refused transfer, a refused block, a flush and asking again for an open chain: all without a trace. *)
Example C113_ex : let before := [Call (OAddAmount addrA 7); Call (OGetDeriv addrA)] in
  traceless before (OSubAmount addrA 9) (snd (step Debug (run Debug fresh [OAddAmount addrA 7; OGetDeriv addrA]) (OSubAmount addrA 9))) /\
  traceless before emit_bad (snd (step Debug (run Debug fresh [emit_good]) emit_bad)) /\
  traceless before OFlush (Ok RUnit) /\ traceless before (OGetDeriv addrA) (Ok RUnit) /\
  ~ traceless before (OAddAmount addrA 7) (snd (step Debug fresh (OAddAmount addrA 7))) /\
  ~ traceless [Restart] (OGetDeriv addrA) (Ok RUnit).
Proof. cbv zeta. split; [exact I|]. split; [vm_compute; exact I|]. split; [exact I|]. split; [reflexivity|]. split; [intros H; exact H|discriminate]. Qed.

(** C114: two neighbouring calls that work on different parts of the node can be swapped in any history: both return the same as before,
    all other calls return the same, and afterwards no query tells the two trees apart. *)
Theorem C114_swap : forall p before a b after, unrelated a b ->
  few (length (before ++ Call a :: Call b :: after)) -> Forall (sane p) (before ++ Call a :: Call b :: after) ->
  exists t t1 t2 rs0 ra rb rs1 rs0' ra' rb' rs1', t_new disk_empty = Ok t /\
  code_run p t (before ++ Call a :: Call b :: after) = Some (t1, rs0 ++ ra :: rb :: rs1) /\ length rs0 = length (calls before) /\
  code_run p t (before ++ Call b :: Call a :: after) = Some (t2, rs0' ++ rb' :: ra' :: rs1') /\
  Forall2 alike_result (rs0 ++ ra :: rb :: rs1) (rs0' ++ ra' :: rb' :: rs1') /\ alike t1 t2.
Proof. exact p_C114_swap. Qed.
Print Assumptions C114_swap.

(* Transfers and gas of different accounts, a transfer and a derivative block, two transactions of different senders; and two calls
   that are related and do not commute. *)
Example C114_ex : unrelated (OAddAmount addrA 5) (OSetAmount addrB 7) /\ unrelated (OSendAmount addrA addrB 5) (OSubGas addrA 3) /\
  unrelated deriv_1 (OSendAmount addrA addrB 5) /\ unrelated emit_good (OAddAmount addrA 5) /\
  (forall tx tx', tx_sender tx <> tx_sender tx' -> tx_sender tx <> tx_receiver tx' -> tx_receiver tx <> tx_sender tx' -> tx_receiver tx <> tx_receiver tx' ->
    sha256 (tx_dump tx) <> sha256 (tx_dump tx') -> unrelated (OSendTx tx) (OSendTx tx')) /\
  ~ unrelated (OAddAmount addrA 5) (OSetAmount addrA 7) /\
  t_get_amount addrA (run Debug fresh [OAddAmount addrA 5; OSetAmount addrA 7]) <> t_get_amount addrA (run Debug fresh [OSetAmount addrA 7; OAddAmount addrA 5]).
Proof.
  assert (N : addrA <> addrB) by (vm_compute; discriminate).
  split; [intros []; cbn; intuition congruence|]. split; [intros []; cbn; intuition congruence|]. split; [intros []; cbn; intuition congruence|].
  split; [intros []; cbn; intuition congruence|]. split; [intros tx tx' H1 H2 H3 H4 H5 []; cbn; intuition congruence|].
  split; [|vm_compute; discriminate]. intros U. destruct (U (PAmount addrA)) as [U1 _]. apply U1. cbn. auto.
Qed.

