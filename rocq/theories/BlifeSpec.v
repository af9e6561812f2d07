(** Balances in histories with failing operations, killed processes and failing openings.  Definitions only. *)
From Verif Require Import Base Tools Transaction Block Sled Chain Tree Spec Reach LedgerSpec SupplySpec Io IoSpec LifeSpec.

(** Calls that are not meant to create or destroy coins and close no epoch. *)
Definition coins_move (h : host) (o : op) (fs : list fault) : Prop :=
  moves_only o /\ match o with OEmitMain _ _ txs _ => txs <> [] | _ => True end.
