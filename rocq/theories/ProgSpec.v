(** Runs of the three example programs on one directory.  Definitions only. *)
From Verif Require Import Base Tools Transaction Block Sled Chain Tree Miner Sender Spec Reach LedgerSpec MinerSpec.

(** The three example programs, all with wallet [w] (and its key), were run in some order [r] times on a directory that was empty.  They made [k] blocks of the main chain and
    [d] of the chain of [w], and sent [s] transactions, [c] of them since the root account was last filled.  The clock, which does not go back, last said [now].
    Between two runs the tree may be closed and opened again once a block was made. *)
Inductive programs (p : profile) (E : ecdsa) (key w : bytes) : nat -> nat -> nat -> nat -> nat -> N -> bct -> Prop :=
| prog_start : forall t, t_new disk_empty = Ok t -> programs p E key w 0 0 0 0 0 INCEPTION_TIMESTAMP t
| prog_main : forall k d s c r now t tries x nonce ts t' found, programs p E key w k d s c r now t -> now <= ts -> u64_ok ts -> is_array 32 x ->
    mine_search tries p w x nonce ts t = (t', Ok found) ->
    programs p E key w (if found then S k else k) d s (if found && (N.of_nat (S k) mod 1000000 =? 0) then 0%nat else c) (S r) ts t'
| prog_deriv : forall k d s c r now t tries nonce ts t' found, programs p E key w k d s c r now t -> now <= ts -> u64_ok ts ->
    mine_deriv_program tries p w nonce ts t = (t', Ok found) -> programs p E key w k (if found then S d else d) s c (S r) ts t'
| prog_send : forall k d s c r now t tries ts ts' t' found, programs p E key w k d s c r now t -> now <= ts -> ts <= ts' -> u64_ok ts' ->
    send_program tries p E key w ts ts' t = (t', Ok found) ->
    programs p E key w (if found then S k else k) d (S s) (if found && (N.of_nat (S k) mod 1000000 =? 0) then 0%nat else S c) (S r) ts' t'
| prog_refused : forall k d s c r now t tries ts ts' t', programs p E key w k d s c r now t -> now <= ts -> ts <= ts' -> u64_ok ts' ->
    send_program tries p E key w ts ts' t = (t', Panic) -> programs p E key w k d s c (S r) ts' t'
| prog_restart : forall k d s c r now t t', programs p E key w k d s c r now t -> (k + d <> 0)%nat -> t_new (t_close t) = Ok t' ->
    programs p E key w k d s c r now t'.

(** The gas of one transaction of the sender: 141 bytes. *)
Definition GAS_228 : N := 88125000000000.
