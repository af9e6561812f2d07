(** Histories in which I/O operations fail, processes are killed and openings fail.  Definitions only. *)
From Verif Require Import Base Tools Transaction Block Sled Chain Tree Spec Reach CrashSpec Io IoSpec.

(** A process with an open tree, or no process and what is on disk. *)
Inductive machine := Up (h : host) | Down (d : disk).

(** A crash while a tree is being opened; the config files are only read then. *)
Definition disk_crash (s : survivors) (d : disk) : disk :=
  let m := k_main d in
  MkDisk (MkMainDisk (sled_crash (sv_blocks s) (md_blocks m)) (sled_crash (sv_refs s) (md_refs m)) (sled_crash (sv_txs s) (md_txs m)) (md_cfg m))
    (sled_crash (sv_summary s) (k_summary d)) (sled_crash (sv_old_summary s) (k_old_summary d))
    (sled_crash (sv_gas s) (k_gas d)) (sled_crash (sv_old_gas s) (k_old_gas d)) (k_derivs d).

(** [life ok p a n b]: from [a] to [b] with [n] calls.  Every call and every opening meets faults; [ok] restricts the calls
    with their faults in the state they are made in.  The process ends by closing the tree or by a crash, whatever survives.  A crash inside a
    call or opening after some of its operations is a call whose next operation fails without effect, followed by a crash.
    A config file that exists can be opened. *)
Inductive life (ok : host -> op -> list fault -> Prop) (p : profile) (a : machine) : nat -> machine -> Prop :=
| life_start : life ok p a 0 a
| life_call : forall n h o fs, life ok p a n (Up h) -> op_wf o -> ok h o fs -> life ok p a (S n) (Up (io_after (io_step p o) fs h))
| life_close : forall n h, life ok p a n (Up h) -> life ok p a n (Down (t_close (h_tree h)))
| life_crash : forall n h s, life ok p a n (Up h) -> life ok p a n (Down (t_crash s (h_tree h)))
| life_open : forall n d fs t, life ok p a n (Down d) -> config_opens fs -> io_result t_new_io fs d = Ok t -> life ok p a n (Up (opened t))
| life_open_fails : forall n d fs, life ok p a n (Down d) -> config_opens fs -> (forall t, io_result t_new_io fs d <> Ok t) ->
    life ok p a n (Down (disk_settle (io_after t_new_io fs d)))
| life_open_crash : forall n d fs s, life ok p a n (Down d) -> config_opens fs -> life ok p a n (Down (disk_crash s (io_after t_new_io fs d))).

Definition any_faults (h : host) (o : op) (fs : list fault) : Prop := True.
(** No calls at all. *)
Definition no_calls (h : host) (o : op) (fs : list fault) : Prop := False.
(** If the flush of the blocks fails (or the process is killed there), the blocks have been flushed nevertheless.  It is the fourth operation of a flush, and the
    sixth of the emission of a summarize block. *)
Definition blocks_flushed (h : host) (o : op) (fs : list fault) : Prop :=
  match o with
  | OFlush | OMainFlush => nth 3 fs Fine <> Fails 0
  | OEmitMain _ _ _ _ => nth 5 fs Fine <> Fails 0
  | _ => True
  end.
(** Blocks of the main chain only come from emission. *)
Definition emitted_only (h : host) (o : op) (fs : list fault) : Prop := no_raw_main o /\ blocks_flushed h o fs.

(** [h] after a flush in which nothing failed and once its config file is on disk. *)
Definition saved (h : host) : host := with_host h (t_settle (t_flush (h_tree h))).
