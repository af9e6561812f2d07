(** Total supply.  Definitions only. *)
From Verif Require Import Base Tools Transaction Block Sled Chain Tree Spec Reach LedgerSpec.

(** The amounts of all accounts add up to [total]. *)
Definition supply (t : bct) (total : N) : Prop :=
  exists f accounts, amounts t f /\ NoDup accounts /\ (forall w, f w <> 0 -> In w accounts) /\
    sum_over f accounts = total.

(** Calls that are not meant to create or destroy coins: all but the direct changes of
    one account's amount.  A transaction is shorter than 2^63 bytes. *)
Definition moves_only (o : op) : Prop :=
  match o with
  | OAddAmount _ _ | OSetAmount _ _ | OSubAmount _ _ => False
  | OSendTx tx => N.of_nat (length (tx_dump tx)) < 2 ^ 63
  | _ => True
  end.

(** Histories of such calls with clean restarts, none of them while the chain consists
    of the first block only. *)
Inductive coin_history (p : profile) : nat -> bct -> Prop :=
| coin_open : forall t, t_new disk_empty = Ok t -> coin_history p 0 t
| coin_call : forall n t o, coin_history p n t -> op_wf o -> moves_only o ->
    coin_history p (S n) (fst (step p t o))
| coin_reopen : forall n t t', coin_history p n t -> mc_get_height (t_main t) <> 1 ->
    t_new (t_close (t_flush t)) = Ok t' -> coin_history p n t'.
