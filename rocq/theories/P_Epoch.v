(** Property C36: epoch boundaries are reachable.
    Only theorem statements (closed by [exact]), examples showing that their
    premises are met, and the assumptions of each theorem. *)
From Coq Require Import Lia ZifyBool ZifyNat ZifyN.
From Verif Require Import Base Sha256 Merkle Tools Transaction Block Sled Chain Tree Spec Reach Demo.
From Verif Require Import BaseFacts ToolsFacts MerkleFacts DiffFacts CodecFacts SledFacts ChainFacts TreeFacts ValidateProps MainProps.
From Verif Require Import EpochDemo.

(** C36 is not vacuous on the summarize side: an epoch boundary is reachable by calls and
    an emission there makes a summarize block. *)
Theorem C36_epoch_reached : forall p, exists t pow founder ts i root,
  reachable main_kinds p (N.to_nat 999999) t /\ is_array 32 pow /\ is_array 33 founder /\ u64_ok ts /\
  mc_get_height (t_main t) = 1000000 /\
  snd (t_emmit_new_main_block p pow founder [] ts t) = Ok (SummBlock i root) /\ bi_height i = 1000000.
Proof. exact p_C36_epoch_reached. Qed.
Print Assumptions C36_epoch_reached.

