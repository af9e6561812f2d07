(** Runs of the example miners.  Definitions only. *)
From Verif Require Import Base Tools Transaction Block Sled Chain Tree Miner Spec Reach LedgerSpec.

(** The main miner with wallet [w] and transaction [x] has made [k] blocks, the clock last said [now], and the tree is [t].  The clock does not go back.
    Once a block was made the program may be stopped and started again; it closes the tree without a further flush. *)
Inductive mining (p : profile) (w x : bytes) : nat -> N -> bct -> Prop :=
| mining_start : forall t, t_new disk_empty = Ok t -> mining p w x 0 INCEPTION_TIMESTAMP t
| mining_none : forall k now t tries nonce ts t', mining p w x k now t -> now <= ts -> u64_ok ts ->
    mine_search tries p w x nonce ts t = (t', Ok false) -> mining p w x k ts t'
| mining_found : forall k now t tries nonce ts t', mining p w x k now t -> now <= ts -> u64_ok ts ->
    mine_search tries p w x nonce ts t = (t', Ok true) -> mining p w x (S k) ts t'
| mining_restart : forall k now t t', mining p w x (S k) now t -> t_new (t_close t) = Ok t' -> mining p w x (S k) now t'.

(** What the miner has been credited for a chain: the payment for every block after the first, and for every block with
    transactions the fee that follows from the difficulty of the block before. *)
Fixpoint earned (L : list block) : N :=
  match L with
  | prev :: ((b :: _) as l) => 25000000000000000 + (match b with TxBlock _ _ _ _ => fee_after prev | _ => 0 end) + earned l
  | _ => 0
  end.
(** Payments from the root account since it was last filled, for a chain of [h] blocks. *)
Definition payments (h : N) : N := (h - 1) mod 1000000 + (if h <=? 1000000 then 0 else 1).

(** The derivative miner with wallet [w] has made [k] blocks and was restarted [r] times since the directory was empty; each start opens the chain
    of the wallet (examples/mine_derivative.rs:10-17).  Restarts happen after the first block. *)
Inductive mining_deriv (p : profile) (w : bytes) : nat -> nat -> N -> bct -> Prop :=
| dmining_start : forall t t' c, t_new disk_empty = Ok t -> t_get_derivative_chain w t = (t', Ok c) -> mining_deriv p w 0 0 INCEPTION_TIMESTAMP t'
| dmining_none : forall k r now t tries nonce ts t', mining_deriv p w k r now t -> now <= ts -> u64_ok ts ->
    mine_deriv_search tries p w nonce ts t = (t', Ok false) -> mining_deriv p w k r ts t'
| dmining_found : forall k r now t tries nonce ts t', mining_deriv p w k r now t -> now <= ts -> u64_ok ts ->
    mine_deriv_search tries p w nonce ts t = (t', Ok true) -> mining_deriv p w (S k) r ts t'
| dmining_restart : forall k r now t t' t'' c, mining_deriv p w (S k) r now t -> t_new (t_close t) = Ok t' ->
    t_get_derivative_chain w t' = (t'', Ok c) -> mining_deriv p w (S k) (S r) now t''.
