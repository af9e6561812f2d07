(** Notions used in the theorems about processes killed while calls run at the same time.  Definitions only. *)
From Verif Require Import Base Sled Chain Tree ConcTree.

(** The call has got past the movement of its amount (or has no amount to move and has returned without an error). *)
Definition past_transfer (th : thread) : bool :=
  match th with TCharge _ _ => true | TDone _ (Err _) => false | TDone _ _ => true | _ => false end.
