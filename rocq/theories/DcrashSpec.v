(** Crashes and derivative chains.  Definitions only. *)
From Verif Require Import Base Tools Transaction Block Sled Chain Tree Spec Reach.

(** The writes to the config file of the chain of [w] have reached the disk. *)
Definition deriv_settle (w : bytes) (t : bct) : bct :=
  match assoc_get w (t_derivs t) with
  | None => t
  | Some c => with_derivs t (assoc_set w (MkDeriv (dc_blocks c) (dc_refs c) (dc_height c) (dc_genesis c)
      (dc_difficulty c) (file_settle (dc_cfg c))) (t_derivs t))
  end.
