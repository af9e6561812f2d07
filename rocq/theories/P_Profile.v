(** Property C112: checked and unchecked builds.
    Only theorem statements (closed by [exact]), examples showing that their
    premises are met, and the assumptions of each theorem. *)
From Coq Require Import Lia ZifyBool ZifyNat ZifyN.
From Verif Require Import Base Sha256 Merkle Tools Transaction Block Sled Chain Tree Spec Reach LedgerSpec NodeSpec ProfileSpec Demo.
From Verif Require Import BaseFacts ToolsFacts MerkleFacts DiffFacts CodecFacts SledFacts ChainFacts TreeFacts.
From Verif Require Import ProfileProps.

(** C112: on any tree a call has the same effect and the same result in both builds, unless it is an emission that panics in
    the checked build. *)
Theorem C112_call_partial : forall t o,
  step Debug t o = step Release t o \/ (emission o = true /\ snd (step Debug t o) = Panic).
Proof. exact p_C112_call_partial. Qed.
Print Assumptions C112_call_partial.

(** C112: a history of calls and careful restarts in which no emission panics in the checked build goes exactly the same way in
    the unchecked build. *)
Theorem C112_history_partial : forall evs t t' rs, code_run Debug t evs = Some (t', rs) -> no_emission_panics (calls evs) rs ->
  code_run Release t evs = Some (t', rs).
Proof. exact p_C112_history_partial. Qed.
Print Assumptions C112_history_partial.

(** C112: validation gives the same verdict in both builds, unless the checked build panics. *)
Theorem C112_validate_partial : forall b prev, validate Debug b prev = Panic \/ validate Debug b prev = validate Release b prev.
Proof. exact p_C112_validate_partial. Qed.
Print Assumptions C112_validate_partial.

(** C112: but the builds differ.  With a clock that went back the checked build panics where the unchecked build makes a block,
    takes the wrapped difference for a long time without blocks and eases the work ... *)
Theorem C112_refuted : exists t o b, t_new disk_empty = Ok t /\ op_wf o /\ snd (step Debug t o) = Panic /\ snd (step Release t o) = Ok (RBlock b) /\
  bi_timestamp (get_info b) < bi_timestamp (get_info (last_of t)).
Proof. exact p_C112_refuted. Qed.
Print Assumptions C112_refuted.

(** ... and a checked node panics on validating a block that an unchecked node made and finds valid. *)
Theorem C112_validate_refuted : exists t o b, t_new disk_empty = Ok t /\ op_wf o /\ snd (step Release t o) = Ok (RBlock b) /\
  validate Release b (Some (last_of t)) = Ok true /\ validate Debug b (Some (last_of t)) = Panic.
Proof. exact p_C112_validate_refuted. Qed.
Print Assumptions C112_validate_refuted.

Example C112_ex : let evs := [Call (OAddAmount addrA 7); Call (OSubAmount addrA 9); Restart; Call emit_good; Call emit_bad; Call deriv_2] in
  exists t' rs, code_run Debug fresh evs = Some (t', rs) /\ no_emission_panics (calls evs) rs /\ code_run Release fresh evs = Some (t', rs) /\
  map (fun r => match r with Ok (RBlock _) => 2 | Ok _ => 1 | Err _ => 4 | Panic => 5 | UB => 6 end) rs = [1; 5; 2; 4; 2].
Proof.
  cbv zeta. do 2 eexists. split; [vm_compute; reflexivity|]. split; [|split; [vm_compute; reflexivity|vm_compute; reflexivity]].
  repeat (apply Forall2_cons; [vm_compute; discriminate|]). constructor.
Qed.

