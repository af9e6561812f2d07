(** Property C100: balances when I/O operations fail.
    Only theorem statements (closed by [exact]), examples showing that their
    premises are met, and the assumptions of each theorem. *)
From Coq Require Import Lia ZifyBool ZifyNat ZifyN.
From Verif Require Import Base Sha256 Merkle Tools Transaction Block Sled Chain Tree Spec Reach LedgerSpec SupplySpec QuietSpec Conc ConcTree ConcFlush ConcEmit Cancel ConcDeriv Io IoSpec Demo.
From Verif Require Import BaseFacts ToolsFacts MerkleFacts DiffFacts CodecFacts SledFacts ChainFacts TreeFacts LedgerFacts CrashFacts ConcFacts EmitFacts LedgerProps SupplyProps QuietProps IoFacts IoSure IoProps IoRetryProps.
From Verif Require Import IoMoneyProps.

(** C100: in every history of calls during which I/O operations fail, with restarts, every account has an amount and gas,
   and every call makes each of its changes of a balance as a whole or not at all: it has made all of them when it
   returns success, and those of a transaction are made in order. *)
Theorem C100_balances : forall p n h, io_history p n h -> exists f g, funds (h_tree h) f g /\
  forall o fs, op_wf o -> funds_after o (exists r, io_result (io_step p o) fs h = Ok r) f g (h_tree (io_after (io_step p o) fs h)).
Proof. exact p_C100_balances. Qed.
Print Assumptions C100_balances.

(** C100: the amounts and gas of all accounts are determined by the answers. *)
Theorem C100_unique : forall t f g f' g', funds t f g -> funds t f' g' -> forall w, f w = f' w /\ g w = g' w.
Proof. exact p_C100_unique. Qed.
Print Assumptions C100_unique.

(** C100: no coins are created or destroyed by failures: a call that is not meant to change the supply and closes no epoch leaves
   it as it is, whatever fails. *)
Theorem C100_supply : forall p n h o fs a, io_history p n h -> op_wf o -> moves_only o -> match o with OEmitMain _ _ txs _ => txs <> [] | _ => True end ->
  supply (h_tree h) a -> supply (h_tree (io_after (io_step p o) fs h)) a.
Proof. exact p_C100_supply. Qed.
Print Assumptions C100_supply.

Example C100_ex : let h := opened funded in let tx := demo_tx 1000 (repeat 7 64) in let fs := [Fine; Fine; Fine; Fine; Fine; Fails 0] in
  let t := h_tree (io_after (io_step Debug (OSendTx tx)) fs h) in
  t_get_amount addrA funded = Ok 1000000000 /\ t_get_amount addrA t = Ok 999999000 /\ t_get_amount addrB t = Ok 1000 /\ t_get_gas addrA t = t_get_gas addrA funded /\
  io_result (io_step Debug (OSendTx tx)) fs h = Panic.
Proof. cbv zeta. repeat split; vm_compute; reflexivity. Qed.

(** C100 for a call as a whole fails: a transaction that failed may have moved the amount without charging the gas. *)
Theorem C100_whole_refuted : exists tx fs, tx_wf tx /\ let t := h_tree (io_after (io_step Debug (OSendTx tx)) fs (opened funded)) in
  (forall r, io_result (io_step Debug (OSendTx tx)) fs (opened funded) <> Ok r) /\
  t_get_amount (tx_receiver tx) funded = Ok 0 /\ t_get_amount (tx_receiver tx) t = Ok (tx_amount tx) /\ 0 < tx_amount tx /\ t_get_gas (tx_sender tx) t = t_get_gas (tx_sender tx) funded.
Proof. exact p_C100_whole_refuted. Qed.
Print Assumptions C100_whole_refuted.

