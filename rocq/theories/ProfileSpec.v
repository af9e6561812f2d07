(** Notions for comparing checked (Debug) and unchecked (Release) builds.  Definitions only. *)
From Verif Require Import Base Block Tree NodeSpec.

(** Calls that make a block. *)
Definition emission (o : op) : bool := match o with OEmitMain _ _ _ _ | OEmitDeriv _ _ _ => true | _ => false end.
(** The calls among some events. *)
Definition calls (evs : list event) : list op := flat_map (fun e => match e with Call o => [o] | Restart => [] end) evs.
(** No call that makes a block panicked. *)
Definition no_emission_panics (ops : list op) (rs : list (out result)) : Prop :=
  Forall2 (fun o r => emission o = true -> r <> Panic) ops rs.
