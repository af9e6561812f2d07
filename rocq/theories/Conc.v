(** Threads: any number of calls in progress on a shared state, one atomic step at a time, in any
    order.  A step is [None] when the call has returned or must wait.  A thread making several calls is
    covered by several entries that the schedule runs one after the other.
    Model file: definitions only. *)
From Verif Require Import Base.

Section Threads.
Context {S T : Type}.
Variable step : S -> T -> option (S * T).

(** Thread [i] makes a step, if it can. *)
Definition sched_step (st : S * list T) (i : nat) : S * list T :=
  let '(s, ts) := st in
  match nth_error ts i with
  | Some t => match step s t with Some (s', t') => (s', replace ts i t') | None => (s, ts) end
  | None => (s, ts)
  end.
Definition exec (schedule : list nat) (st : S * list T) : S * list T := fold_left sched_step schedule st.
End Threads.
