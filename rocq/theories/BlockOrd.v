(** Comparing blocks.  Model file: definitions only. *)
From Verif Require Import Base Block.

(** block.rs:597-601 [eq] of [dyn Block] *)
Definition block_eq (a b : block) : bool := bi_timestamp (get_info a) =? bi_timestamp (get_info b).
(** block.rs:609-613 [cmp] *)
Definition block_cmp (a b : block) : comparison := N.compare (bi_timestamp (get_info a)) (bi_timestamp (get_info b)).
(** block.rs:603-607 [partial_cmp] *)
Definition block_partial_cmp (a b : block) : option comparison := Some (N.compare (bi_timestamp (get_info a)) (bi_timestamp (get_info b))).
