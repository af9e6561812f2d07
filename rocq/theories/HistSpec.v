(** Histories with any number of crashes.  Definitions only. *)
From Verif Require Import Base Tools Transaction Block Sled Chain Tree Spec Reach CrashSpec DcrashSpec.

(** The states the flush of the derivative chain of [w] goes through, chain.rs:559-575: config written, then
    blocks, then references. *)
Definition deriv_flush_points (w : bytes) (t : bct) : list bct :=
  match assoc_get w (t_derivs t) with
  | None => [t]
  | Some c =>
      let put c := with_derivs t (assoc_set w c (t_derivs t)) in
      let c1 := dc_dump_config c in
      let c2 := MkDeriv (sled_flush (dc_blocks c1)) (dc_refs c1) (dc_height c1) (dc_genesis c1) (dc_difficulty c1) (dc_cfg c1) in
      [t; put c1; put c2; put (dc_flush c)]
  end.

(** [t] is reached from [t0] by [n] calls, each allowed by [ok], with any number of clean restarts, of moments at which
    the writes to a config file reach the disk, and of crashes, each followed by a successful opening.  A crash happens between calls or
    inside a flush after its second step (the blocks are flushed).  Whatever survives a crash is arbitrary each time.
    Crashes inside the other calls are covered: a call that does not flush makes at most one write to each
    of the databases, and a crash may lose the latest writes. *)
Inductive later (ok : op -> Prop) (p : profile) (t0 : bct) : nat -> bct -> Prop :=
| later_refl : later ok p t0 0 t0
| later_call : forall n t o, later ok p t0 n t -> op_wf o -> ok o -> later ok p t0 (S n) (fst (step p t o))
| later_reopen : forall n t t', later ok p t0 n t -> t_new (t_close (t_flush t)) = Ok t' -> later ok p t0 n t'
| later_settle : forall n t, later ok p t0 n t -> later ok p t0 n (t_settle t)
| later_settle_deriv : forall n t w, later ok p t0 n t -> is_array 33 w -> later ok p t0 n (deriv_settle w t)
| later_crash : forall n t s t', later ok p t0 n t -> t_new (t_crash s t) = Ok t' -> later ok p t0 n t'
| later_crash_flush : forall n t x s t', later ok p t0 n t -> In x (skipn 2 (flush_points t)) ->
    t_new (t_crash s x) = Ok t' -> later ok p t0 n t'
| later_crash_deriv : forall n t w x s t', later ok p t0 n t -> is_array 33 w -> In x (skipn 2 (deriv_flush_points w t)) ->
    t_new (t_crash s x) = Ok t' -> later ok p t0 n t'.
