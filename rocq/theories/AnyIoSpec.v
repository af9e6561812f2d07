(** Notions used in the statements about directories with any contents when I/O operations fail.  Definitions only. *)
From Verif Require Import Base Tools Transaction Block Sled Chain Tree Spec Reach NodeSpec AnyDirSpec Io IoSpec LifeSpec.

(** No process has the databases open: nothing is pending. *)
Definition at_rest (d : disk) : Prop :=
  sled_flush (md_blocks (k_main d)) = md_blocks (k_main d) /\ sled_flush (md_txs (k_main d)) = md_txs (k_main d) /\
  forall w k, In (w, k) (k_derivs d) -> sled_flush (dd_blocks k) = dd_blocks k.

(** Trees opened on a directory with any contents, called with faults in between, closed or killed and opened again, also after openings
    that failed or were killed. *)
Inductive any_history (p : profile) : host -> Prop :=
| any_open : forall d fs t, any_left p d -> io_result t_new_io fs d = Ok t -> any_history p (opened t)
| any_call : forall h o fs, any_history p h -> op_wf o -> any_history p (io_after (io_step p o) fs h)
(** The directories such histories leave. *)
with any_left (p : profile) : disk -> Prop :=
| left_any : forall d, any_disk d -> at_rest d -> any_left p d
| left_closed : forall h, any_history p h -> any_left p (t_close (h_tree h))
| left_crashed : forall h s, any_history p h -> any_left p (t_crash s (h_tree h))
| left_failed : forall d fs, any_left p d -> (forall t, io_result t_new_io fs d <> Ok t) -> any_left p (disk_settle (io_after t_new_io fs d))
| left_killed : forall d fs s, any_left p d -> any_left p (disk_crash s (io_after t_new_io fs d)).

(** The height an opening of [d] starts from: what the config file says, 0 when there is none or it cannot be opened. *)
Definition config_height (fs : list fault) (d : disk) (h : N) : Prop :=
  match file_cur (md_cfg (k_main d)) with
  | Some c => (config_opens fs /\ (64 <= length c)%nat /\ h = be_val (firstn 32 c)) \/ (~ config_opens fs /\ h = 0)
  | None => h = 0
  end.
