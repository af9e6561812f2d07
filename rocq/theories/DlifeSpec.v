(** Derivative chains in histories in which I/O operations fail, processes are killed and openings fail.  Definitions only. *)
From Verif Require Import Base Tools Transaction Block Sled Chain Tree Spec Reach DcrashSpec Io IoSpec LifeSpec.

(** A call that opens a derivative chain can open its config file if there is one (it is the fourth operation then). *)
Definition derivs_open (h : host) (o : op) (fs : list fault) : Prop :=
  match o with
  | OGetDeriv w | OEmitDeriv _ w _ => assoc_get w (t_derivs (h_tree h)) = None -> deriv_config_opens fs
  | _ => True
  end.
(** If the flush of the blocks of a derivative chain fails (or the process is killed there), the blocks have been flushed nevertheless.  It is the fifth
    operation of the flush of the chain. *)
Definition dblocks_flushed (h : host) (o : op) (fs : list fault) : Prop :=
  match o with ODerivFlush _ => nth 4 fs Fine <> Fails 0 | _ => True end.
(** Blocks of derivative chains only come from emission. *)
Definition demitted (h : host) (o : op) (fs : list fault) : Prop := no_raw_deriv o.
Definition demitted_only (h : host) (o : op) (fs : list fault) : Prop := no_raw_deriv o /\ derivs_open h o fs /\ dblocks_flushed h o fs.
(** [h] after a flush of the chain of [w] in which nothing failed and once its config file is on disk. *)
Definition deriv_saved (p : profile) (w : bytes) (h : host) : host := with_host h (deriv_settle w (fst (step p (h_tree h) (ODerivFlush w)))).
