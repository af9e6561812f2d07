(** Notions used in the statements about what a block commits to.  Definitions only. *)
From Verif Require Import Base Sha256 Tools Transaction Block Sled Chain Tree Spec Reach CrashSpec Io IoSpec LifeSpec DlifeSpec.

(** [b] is the block of the main chain of [t] at height [i]. *)
Definition block_at (t : bct) (i : N) (b : block) : Prop :=
  i < mc_get_height (t_main t) /\ mc_find_by_height i (t_main t) = Ok (Some b).
(** The same for a derivative chain. *)
Definition dblock_at (c : deriv_chain) (i : N) (b : block) : Prop :=
  i < dc_get_height c /\ dc_find_by_height i c = Ok (Some b).

(** [h] came about from an empty directory by calls, failing operations, kills and openings, main-chain blocks being made by emission only. *)
Definition emitted_node (p : profile) (h : host) : Prop := exists n, few n /\ life emitted_only p (Down disk_empty) n (Up h).
(** The same with blocks of derivative chains being made by emission only. *)
Definition demitted_node (p : profile) (h : host) : Prop := exists n, few n /\ life demitted_only p (Down disk_empty) n (Up h).
