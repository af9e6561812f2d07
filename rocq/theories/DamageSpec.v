(** Notions used in the statements about account entries that were not written by the node.  Definitions only. *)
From Verif Require Import Base Tools Transaction Sled Chain Tree Spec.

(** The entry [v] stands for the amount [x]: a length of at most 32, the amount in that many bytes, anything after that. *)
Definition reads_as (v : bytes) (x : N) : Prop :=
  exists l rest, v = N.of_nat (length l) :: l ++ rest /\ (length l <= 32)%nat /\ x = be_val l.
(** The entry stands for nothing. *)
Definition damaged (v : bytes) : Prop := forall x, ~ reads_as v x.

(** The entry of [w] among the amounts, among the gas. *)
Definition amount_entry (w : bytes) (t : bct) : option bytes := sled_get w (t_summary t).
Definition gas_entry (w : bytes) (t : bct) : option bytes := sled_get w (t_gas t).

(** What reading an entry gives. *)
Definition reading (e : option bytes) (r : out N) : Prop :=
  (e = None /\ r = Ok 0) \/
  (exists v x, e = Some v /\ reads_as v x /\ r = Ok x) \/
  (exists v, e = Some v /\ damaged v /\ r = Panic).

(** The accounts whose amounts, whose gas a call to the ledger reads. *)
Definition reads_amount (o : op) (w : bytes) : Prop :=
  match o with
  | OAddAmount a _ | OSubAmount a _ => a = w
  | OSendAmount a b _ => a <> b /\ (a = w \/ b = w)
  | OSendTx tx => tx_sender tx = w
  | _ => False
  end.
Definition reads_gas (o : op) (w : bytes) : Prop :=
  match o with
  | OAddGas a _ | OSubGas a _ => a = w
  | OSendGas a b _ => a = w \/ b = w
  | OSendTx tx => tx_sender tx = w
  | _ => False
  end.

(** What writes over the amount of [w] without reading it: [set_amount], and the end of an epoch for the root account. *)
Definition overwrites (o : op) (w : bytes) : Prop :=
  match o with OSetAmount a _ => a = w | OEmitMain _ _ _ _ => w = ROOT_PUBLIC_ADDRESS | _ => False end.
