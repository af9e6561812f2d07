(** Notions used in the theorems about the outcome of emission.  Definitions only. *)
From Verif Require Import Base Sha256 Tools Transaction Block Sled Chain Tree Spec Reach LedgerSpec.

(** Blocks of both kinds of chains are only made by emission. *)
Definition emission_only (o : op) : Prop := no_raw_main o /\ no_raw_deriv o.

(** The timestamp of a new block, in builds that check subtractions, must not lie
    before the one of its predecessor. *)
Definition time_ok (p : profile) (prev_ts ts : N) : Prop := p = Debug -> prev_ts <= ts.

(** The next block of the derivative chain [c] follows a block with hash [h],
    difficulty [d] and timestamp [ts]: the last block of the chain or, when there is
    none yet, the main-chain block the chain is pinned to. *)
Definition deriv_predecessor (t : bct) (c : deriv_chain) (h d : bytes) (ts : N) : Prop :=
  (exists i, dc_get_last_block c = Ok (Some (DerivBlock i)) /\
     h = block_hash (DerivBlock i) /\ d = bi_difficulty i /\ ts = bi_timestamp i) \/
  (dc_get_last_block c = Ok None /\ exists m, mc_find_by_hash (dc_genesis c) (t_main t) = Ok (Some m) /\
     h = block_hash m /\ h = dc_genesis c /\ d = BEGINNING_DIFFICULTY /\ ts = bi_timestamp (get_info m)).

(** The calls that panic in a tree with amounts [f] and gas [g]. *)
Definition panics (p : profile) (t : bct) (f g : bytes -> N) (o : op) : Prop :=
  match o with
  | OAddAmount w a => 2 ^ 256 <= f w + a
  | OSubAmount w a => f w < a
  | OSendAmount x y a => x <> y /\ (f x < a \/ 2 ^ 256 <= f y + a)
  | OAddGas w a => 2 ^ 256 <= g w + a
  | OSubGas w a => g w < a
  | OSendGas x y a => g x < a \/ 2 ^ 256 <= g y + a
  | OSendTx tx =>
      let s := tx_sender tx in let r := tx_receiver tx in let a := tx_amount tx in
      gas_for (N.of_nat (length (tx_dump tx)) + (if a =? 0 then 1 else 0)) <= g s /\
      exists b, mc_get_last_block (t_main t) = Ok (Some b) /\
        (2 ^ 256 <= fee_after b + a \/ fee_after b + a <= f s /\ s <> r /\ 2 ^ 256 <= f r + a)
  | OEmitMain pow _ txs ts =>
      p = Debug /\ exists b root, mc_get_last_block (t_main t) = Ok (Some b) /\ merkle_root_of txs root /\
        work (block_hash b) (bi_difficulty (get_info b)) root pow /\ ts < bi_timestamp (get_info b)
  | OEmitDeriv pow founder ts =>
      p = Debug /\ exists c h d prev_ts, snd (t_get_derivative_chain founder t) = Ok c /\
        deriv_predecessor t c h d prev_ts /\ work h d ff32 pow /\ ts < prev_ts
  | OSetAmount _ _ | OGetDeriv _ | OAddNewBlock _ _ | OAddTxs _ | ODerivAddBlock _ _
  | OFlush | OMainFlush | ODerivFlush _ => False
  end.
