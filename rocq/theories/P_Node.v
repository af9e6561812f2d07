(** Property C111: the code is an abstract node.
    Only theorem statements (closed by [exact]), examples showing that their
    premises are met, and the assumptions of each theorem. *)
From Coq Require Import Lia ZifyBool ZifyNat ZifyN.
From Verif Require Import Base Sha256 Merkle Tools Transaction Block Sled Chain Tree Spec Reach LedgerSpec NodeSpec Demo.
From Verif Require Import BaseFacts ToolsFacts MerkleFacts DiffFacts CodecFacts SledFacts ChainFacts TreeFacts LedgerFacts DerivFacts NodeFacts NodeSim.
From Verif Require Import NodeProps.

(** C111: whatever is called and however often the process is restarted with care, the code returns what the abstract node
    returns, and afterwards every question is answered from the state of the abstract node. *)
Theorem C111_refinement : forall p evs, few (length evs) -> Forall (sane p) evs ->
  exists t t' rs, t_new disk_empty = Ok t /\ code_run p t evs = Some (t', rs) /\
  let '(n, answered) := n_run p n_start evs in Forall2 same_answer rs answered /\ answers t' n.
Proof. exact p_C111_refinement. Qed.
Print Assumptions C111_refinement.

(* A run with two restarts: three derivative blocks and one main block are made, a transfer is made and one overdraft and one
   block without work are refused. *)
Example C111_ex :
  let evs := [Call (OAddAmount addrA 1000000000); Call (OAddGas addrA (10 ^ 18)); Call (OSendTx (demo_tx 1000 (repeat 7 64))); Call deriv_1;
    Restart; Call emit_good; Call deriv_2; Restart; Call (OSubAmount addrB 2000); Call emit_bad; Call deriv_2; Call (OGetDeriv addrA)] in
  few (length evs) /\ Forall (sane Debug) evs /\
  let '(n, l) := n_run Debug n_start evs in
  n_height n = 2 /\ length (snd (n_chain addrA n)) = 3%nat /\ held addrA (n_amounts n) = 999999000 /\ held addrB (n_amounts n) = 1000 /\
  held ROOT_PUBLIC_ADDRESS (n_amounts n) = COINS_PER_CYCLE /\ length (n_txs n) = 1%nat /\
  map (fun a => match a with Ok AUnit => 1 | Ok (ABlock _) => 2 | Ok (AChain _) => 3 | Err _ => 4 | Panic => 5 | UB => 6 end) l = [1; 1; 1; 2; 2; 2; 5; 4; 2; 3].
Proof.
  cbv zeta. split; [reflexivity|]. split.
  - repeat (apply Forall_cons; [repeat split; try reflexivity; repeat constructor; reflexivity|]). constructor.
  - vm_compute. repeat split.
Qed.

