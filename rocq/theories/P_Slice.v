(** Property C116: histories of which only some calls are kept.
    Only theorem statements (closed by [exact]), examples showing that their
    premises are met, and the assumptions of each theorem. *)
From Coq Require Import Lia ZifyBool ZifyNat ZifyN.
From Verif Require Import Base Sha256 Tools Transaction Block Sled Chain Tree Spec Reach LedgerSpec NodeSpec ProfileSpec ObsSpec SliceSpec Demo.
From Verif Require Import BaseFacts ToolsFacts SledFacts ChainFacts TreeFacts LedgerFacts NodeFacts NodeProps ObsFacts.
From Verif Require Import SliceProps.

(** C116.  Take any set of parts of a node (amounts and gas of accounts, the main chain, transactions, derivative chains) and any history in which every call is either confined to
   these parts or changes none of them.  Leaving out the calls of the second sort changes neither the results of the others nor, at the end, anything one can ask about these parts.
   (The place where a new derivative chain starts is the main chain's last block, so a set with derivative chains must contain the main chain.) *)
Theorem C116_independent : forall p Q l, sliced Q l -> (forall w, Q (PSide w) -> Q PBlocks) -> few (length l) -> Forall (sane p) (map snd l) ->
  exists t t1 t2 rs rs', t_new disk_empty = Ok t /\ code_run p t (map snd l) = Some (t1, rs) /\ code_run p t (remaining l) = Some (t2, rs') /\
    Forall2 alike_result (remaining_results l rs) rs' /\ forall q, Q q -> alike_part q t1 t2.
Proof. exact p_C116_independent. Qed.
Print Assumptions C116_independent.

(* What happens to the amounts of two accounts does not depend on the block, the derivative block and the gifts to a third account made in between. *)
Example C116_ex :
  let Q := fun q => q = PAmount addrA \/ q = PAmount addrB in
  let l := [(true, Call (OAddAmount addrA 100)); (false, Call emit_good); (true, Call (OSendAmount addrA addrB 30)); (false, Call (OAddAmount ROOT_PUBLIC_ADDRESS 5));
            (true, Restart); (false, Call deriv_1); (true, Call (OSubAmount addrB 31)); (false, Call (OAddGas addrA 3))] in
  sliced Q l /\ (forall w, Q (PSide w) -> Q PBlocks) /\ few (length l) /\ Forall (sane Debug) (map snd l) /\
  remaining l = [Call (OAddAmount addrA 100); Call (OSendAmount addrA addrB 30); Restart; Call (OSubAmount addrB 31)] /\
  held addrA (n_amounts (fst (n_run Debug n_start (map snd l)))) = 70 /\ n_height (fst (n_run Debug n_start (map snd l))) = 2 /\
  ~ may_keep Q emit_good /\ ~ may_drop Q (OSendAmount addrA ROOT_PUBLIC_ADDRESS 1).
Proof.
  assert (NA : addrA <> ROOT_PUBLIC_ADDRESS) by (vm_compute; discriminate). assert (NB : addrB <> ROOT_PUBLIC_ADDRESS) by (vm_compute; discriminate).
  cbv zeta. split.
  { unfold sliced. repeat (apply Forall_cons; [first [split; [reflexivity|right; intros [E|E]; congruence] | intros []; cbn; intuition congruence]|]). constructor. }
  split; [intros w [E|E]; discriminate|]. split; [reflexivity|]. split.
  { cbn [map snd]. repeat (apply Forall_cons; [repeat split; try reflexivity; repeat constructor; reflexivity|]). constructor. }
  split; [reflexivity|]. split; [vm_compute; reflexivity|]. split; [vm_compute; reflexivity|]. split.
  - intros K. destruct (K PBlocks (or_introl I)) as [E|E]; discriminate.
  - intros D. exact (D (PAmount addrA) (or_introl eq_refl) (or_introl eq_refl)).
Qed.

