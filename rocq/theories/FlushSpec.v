(** Notions used in the theorems about concurrent flushes.  Definitions only. *)
From Verif Require Import Base Sled Chain Tree Conc ConcTree ConcFlush.

(** Calls, flushes among them, started on [t] and stepped in the order of [schedule]. *)
Definition flush_exec (schedule : list nat) (t : bct) (calls : list fcall) : shared * list fthread :=
  exec flush_step schedule (MkShared t false, map fstart calls).
(** The call has returned. *)
Definition finished (th : fthread) : bool := match th with FTh (TDone _ _) | FDone => true | _ => false end.
(** All calls but number [k] are not flushes. *)
Definition only_flush (k : nat) (calls : list fcall) : Prop :=
  nth_error calls k = Some FFlush /\ forall j, j <> k -> nth_error calls j <> Some FFlush.
