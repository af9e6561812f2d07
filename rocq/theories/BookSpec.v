(** What the answered calls of a history say about one account.  Definitions only. *)
From Verif Require Import Base Sha256 Tools Transaction Block Sled Chain Tree Spec Reach LedgerSpec NodeSpec Conc ConcSpec.

Definition calls_of (evs : list event) : list op := flat_map (fun e => match e with Call o => [o] | Restart => [] end) evs.
(** The calls of a history with their results. *)
Definition statement (evs : list event) (rs : list (out result)) : list (op * out result) := combine (calls_of evs) rs.
Definition if_account (w v : bytes) (a : N) : N := if bytes_eqb w v then a else 0.

(** Gas that a call reported to have given to, or taken from, the account [w].  Gas sent to oneself is not taken. *)
Definition gas_in (w : bytes) (x : op * out result) : N :=
  match x with
  | (OAddGas v a, Ok _) => if_account w v a
  | (OSendGas _ v a, Ok _) => if_account w v a
  | _ => 0
  end.
(** [size]: of the dump, one byte more when the amount is zero. *)
Definition gas_charge (tx : transaction) : N := gas_for (N.of_nat (length (tx_dump tx)) + (if tx_amount tx =? 0 then 1 else 0)).
Definition gas_out (w : bytes) (x : op * out result) : N :=
  match x with
  | (OSubGas v a, Ok _) => if_account w v a
  | (OSendGas v u a, Ok _) => if bytes_eqb v u then 0 else if_account w v a
  | (OSendTx tx, Ok _) => if_account w (tx_sender tx) (gas_charge tx)
  | _ => 0
  end.
(** The same for coins.  Coins sent to oneself are neither given nor taken. *)
Definition coins_in (w : bytes) (x : op * out result) : N :=
  match x with
  | (OAddAmount v a, Ok _) => if_account w v a
  | (OSendAmount v u a, Ok _) => if bytes_eqb v u then 0 else if_account w u a
  | (OSendTx tx, Ok _) => if bytes_eqb (tx_sender tx) (tx_receiver tx) then 0 else if_account w (tx_receiver tx) (tx_amount tx)
  | _ => 0
  end.
Definition coins_out (w : bytes) (x : op * out result) : N :=
  match x with
  | (OSubAmount v a, Ok _) => if_account w v a
  | (OSendAmount v u a, Ok _) => if bytes_eqb v u then 0 else if_account w v a
  | (OSendTx tx, Ok _) => if bytes_eqb (tx_sender tx) (tx_receiver tx) then 0 else if_account w (tx_sender tx) (tx_amount tx)
  | _ => 0
  end.
(** The amount of [w] is not overwritten. *)
Definition not_set (w : bytes) (o : op) : Prop := match o with OSetAmount v _ => v <> w | _ => True end.

(** All accounts together: gas made and gas charged. *)
Definition gas_added (x : op * out result) : N :=
  match x with
  | (OAddGas _ a, Ok _) => a
  | (OSendGas v u a, Ok _) => if bytes_eqb v u then a else 0
  | _ => 0
  end.
Definition gas_removed (x : op * out result) : N :=
  match x with
  | (OSubGas _ a, Ok _) => a
  | (OSendTx tx, Ok _) => gas_charge tx
  | _ => 0
  end.
(** Accounts a call gives gas to or takes it from. *)
Definition gas_accounts (o : op) : list bytes :=
  match o with OAddGas v _ | OSubGas v _ => [v] | OSendGas v u _ => [v; u] | OSendTx tx => [tx_sender tx] | _ => [] end.
