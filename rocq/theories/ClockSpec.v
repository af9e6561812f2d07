(** What the timestamps of blocks decide.  Definitions only. *)
From Verif Require Import Base Sha256 Tools Transaction Block Sled Chain Tree Spec Reach LedgerSpec NodeSpec.

(** The targets of blocks made at the times [ts], the first of them after a block with target [v] made at time [a].  A gap that no block can bridge ends the list. *)
Fixpoint targets (p : profile) (v a : N) (ts : list N) : list N :=
  match ts with
  | [] => []
  | t :: ts => match seconds p a t with
               | Some s => next_target (s ?= 600) v :: targets p (next_target (s ?= 600) v) t ts
               | None => []
               end
  end.
Definition stamp (b : block) : N := bi_timestamp (get_info b).
Definition target (b : block) : N := be_val (bi_difficulty (get_info b)).
(** Zero bits asked of the next block's work. *)
Definition bits (b : block) : N := leading_zero_bits (bi_difficulty (get_info b)).
(** The block at height [i] of the main chain. *)
Definition block_at (t : bct) (i : N) (b : block) : Prop := mc_find_by_height i (t_main t) = Ok (Some b).
(** The fee the block names. *)
Definition fee_of (b : block) : option N := match b with TxBlock fee _ _ _ => Some fee | _ => None end.
