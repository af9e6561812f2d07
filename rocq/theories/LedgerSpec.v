(** Notions used in the ledger theorems.  Definitions only. *)
From Verif Require Import Base Tools Transaction Block Sled Chain Tree Spec.

(** [f] is the amount (gas) every account reads in [t]. *)
Definition amounts (t : bct) (f : bytes -> N) : Prop := forall w, t_get_amount w t = Ok (f w).
Definition gases (t : bct) (f : bytes -> N) : Prop := forall w, t_get_gas w t = Ok (f w).

(** [f] with account [k] set to [v]. *)
Definition upd (f : bytes -> N) (k : bytes) (v : N) : bytes -> N :=
  fun k' => if bytes_eqb k' k then v else f k'.
(** [a] moved from [x] to [y]; nothing happens when they are the same. *)
Definition moved (f : bytes -> N) (x y : bytes) (a : N) : bytes -> N :=
  if bytes_eqb x y then f else upd (upd f x (f x - a)) y (f y + a).

(** Sum over a list of accounts. *)
Definition sum_over (f : bytes -> N) (accounts : list bytes) : N :=
  fold_right N.add 0 (map f accounts).

(** Everything but the amount (gas) database is the same. *)
Definition same_but_amounts (t t' : bct) : Prop := t' = with_summary t (t_summary t').
Definition same_but_gas (t t' : bct) : Prop := t' = with_gas t (t_gas t').

(** A ledger in the abstract: what each call does to the amounts and how it ends.
    Calls that touch the amounts in other ways ([send_transaction], emission) are
    not described here. *)
Definition amount_call (o : op) : bool :=
  match o with OSendTx _ | OEmitMain _ _ _ _ => false | _ => true end.
Definition amount_after (f : bytes -> N) (o : op) : bytes -> N :=
  match o with
  | OAddAmount w a => if f w + a <? 2 ^ 256 then upd f w (f w + a) else f
  | OSetAmount w a => upd f w a
  | OSubAmount w a => if a <=? f w then upd f w (f w - a) else f
  | OSendAmount x y a =>
      if (a <=? f x) && (f y + a <? 2 ^ 256) then moved f x y a else f
  | _ => f
  end.
Definition gas_call (o : op) : bool := match o with OSendTx _ => false | _ => true end.
Definition gas_after (f : bytes -> N) (o : op) : bytes -> N :=
  match o with
  | OAddGas w a => if f w + a <? 2 ^ 256 then upd f w (f w + a) else f
  | OSubGas w a => if a <=? f w then upd f w (f w - a) else f
  | OSendGas x y a =>
      (* with x = y the second write wins: gas is created *)
      if (a <=? f x) && (f y + a <? 2 ^ 256) then upd (upd f x (f x - a)) y (f y + a) else f
  | _ => f
  end.

(** From [t] to [t'] nothing but the balances and the entry [h] of the transaction
    store changed; the entry now holds [d]. *)
Definition stores_only (h d : bytes) (t t' : bct) : Prop :=
  mc_get_transaction_raw h (t_main t') = Some d /\
  (forall h', h' <> h -> mc_get_transaction_raw h' (t_main t') = mc_get_transaction_raw h' (t_main t)) /\
  mc_get_height (t_main t') = mc_get_height (t_main t) /\
  (forall i, mc_find_raw_by_height i (t_main t') = mc_find_raw_by_height i (t_main t)) /\
  (forall b, mc_find_raw_by_hash b (t_main t') = mc_find_raw_by_hash b (t_main t)) /\
  t_derivs t' = t_derivs t /\ t_closed t' = t_closed t /\
  t_old_summary t' = t_old_summary t /\ t_old_gas t' = t_old_gas t.

(** Gas asked for a transaction of [size] bytes. *)
Definition gas_for (size : N) : N := 625000000000 * size.
(** Fee asked after a block. *)
Definition fee_after (b : block) : N := 62500 * Spec.leading_zero_bits (bi_difficulty (get_info b)).

(** Order of byte strings as sled keeps its keys: by the first byte that differs, a proper prefix first. *)
Inductive before : bytes -> bytes -> Prop :=
| before_prefix y b : before [] (y :: b)
| before_byte x y a b : x < y -> before (x :: a) (y :: b)
| before_rest x a b : before a b -> before (x :: a) (x :: b).

(** The text hashed for an account with amount [x]; [g]: its gas if it has a gas entry. *)
Definition leaf_text (w : bytes) (x : N) (g : option N) : bytes :=
  w ++ [124] ++ dump_u256 x [] ++ [124] ++ match g with Some g => dump_u256 g [] | None => [] end.
