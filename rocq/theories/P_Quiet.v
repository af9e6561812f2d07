(** Properties C83, C84: flushes and restarts are invisible.
    Only theorem statements (closed by [exact]), examples showing that their
    premises are met, and the assumptions of each theorem. *)
From Coq Require Import Lia ZifyBool ZifyNat ZifyN.
From Verif Require Import Base Sha256 Merkle Tools Transaction Block Sled Chain Tree Spec Reach QuietSpec Demo.
From Verif Require Import BaseFacts ToolsFacts MerkleFacts DiffFacts CodecFacts SledFacts ChainFacts TreeFacts LedgerFacts DerivFacts.
From Verif Require Import QuietProps.

(** C83: flushes are invisible. From any tree, with flushes of the tree, of the main chain and of derivative
    chains inserted anywhere among the calls, every other call returns the same, and at the end
    every question has the same answer as without them. *)
Theorem C83_flush_invisible : forall p t ops,
  let proper := filter (fun o => negb (flushing o)) ops in
  Forall2 same_result (results p t ops) (results p t proper) /\ same_answers (run p t ops) (run p t proper).
Proof. exact p_C83_flush_invisible. Qed.
Print Assumptions C83_flush_invisible.

Example C83_ex : length (results Debug fresh [OAddGas addrA 7; OFlush; emit_good; OMainFlush; OGetDeriv addrA; ODerivFlush addrA]) = 3%nat /\
  mc_get_height (t_main (run Debug fresh [OAddGas addrA 7; OFlush; emit_good; OMainFlush])) = 2.
Proof. vm_compute. auto. Qed.

(** C84, for restarts at heights above 1: what the main calls return and every answer about the
    main chain and the balances depend on the main calls made, not on flushes, restarts and derivative calls in between. *)
Theorem C84_restart_invisible_partial : forall p n n' ops rs rs' t t', few n -> few n' ->
  session p n ops rs t -> session p n' ops rs' t' ->
  rs = rs' /\ same_main (t_main t) (t_main t') /\ same_balances t t'.
Proof. exact p_C84_restart_invisible_partial. Qed.
Print Assumptions C84_restart_invisible_partial.

(** C84 is false of the code for a restart before the first emitted block: a transfer refused in the one
    history is made in the other. *)
Theorem C84_early_restart_refuted : forall p, exists t t', t_new disk_empty = Ok t /\
  let spent := run p t [OSendAmount ROOT_PUBLIC_ADDRESS addrA COINS_PER_CYCLE] in
  t_new (t_close (t_flush spent)) = Ok t' /\
  snd (step p spent (OSendAmount ROOT_PUBLIC_ADDRESS addrA 1)) = Panic /\
  snd (step p t' (OSendAmount ROOT_PUBLIC_ADDRESS addrA 1)) = Ok RUnit.
Proof. exact p_C84_early_restart_refuted. Qed.
Print Assumptions C84_early_restart_refuted.

(** C84 is false of the code for derivative chains: blocks emitted after the chain was opened are
    forgotten by a clean restart, so that the next emission is refused in one history and accepted in the other. *)
Theorem C84_derivative_restart_refuted : forall p, exists t', let t := run p fresh [deriv_1; emit_good] in
  reachable any_op p 2 t /\ mc_get_height (t_main t) <> 1 /\ t_new (t_close (t_flush t)) = Ok t' /\
  ~ same_answers t t'.
Proof. exact p_C84_derivative_restart_refuted. Qed.
Print Assumptions C84_derivative_restart_refuted.

(* two sessions with the same main calls *)
Example C84_ex : exists t t', t_new disk_empty = Ok t /\
  session Debug 2 [OAddGas addrA 7; emit_good] [Ok RUnit; snd (step Debug (run Debug t [OAddGas addrA 7]) emit_good)] (run Debug t [OAddGas addrA 7; emit_good]) /\
  session Debug 4 [OAddGas addrA 7; emit_good] [Ok RUnit; snd (step Debug (run Debug t [OFlush; OAddGas addrA 7; deriv_1]) emit_good)] t'.
Proof.
  exists fresh. eexists. split; [vm_compute; reflexivity|].
  assert (W1 : op_wf (OAddGas addrA 7)) by (repeat split; repeat constructor; reflexivity).
  assert (W2 : op_wf emit_good) by (repeat split; repeat constructor; reflexivity).
  assert (W3 : op_wf deriv_1) by (repeat split; repeat constructor; reflexivity).
  assert (S0 : session Debug 0 [] [] fresh) by (apply session_open; vm_compute; reflexivity).
  split.
  - apply (session_call _ _ _ _ _ emit_good (session_call _ _ _ _ _ (OAddGas addrA 7) S0 W1 eq_refl) W2 eq_refl).
  - assert (S1 : session Debug 4 [OAddGas addrA 7; emit_good] [Ok RUnit; snd (step Debug (run Debug fresh [OFlush; OAddGas addrA 7; deriv_1]) emit_good)] (run Debug fresh [OFlush; OAddGas addrA 7; deriv_1; emit_good]))
      by apply (session_call _ _ _ _ _ emit_good (session_other _ _ _ _ _ deriv_1 (session_call _ _ _ _ _ (OAddGas addrA 7) (session_other _ _ _ _ _ OFlush S0 I eq_refl) W1 eq_refl) W3 eq_refl) W2 eq_refl).
    eapply session_reopen; [exact S1|vm_compute; discriminate|vm_compute; reflexivity].
Qed.

