(** Property C101: flushing after I/O operations failed.
    Only theorem statements (closed by [exact]), examples showing that their
    premises are met, and the assumptions of each theorem. *)
From Coq Require Import Lia ZifyBool ZifyNat ZifyN.
From Verif Require Import Base Sha256 Merkle Tools Transaction Block Sled Chain Tree Spec Reach LedgerSpec CrashSpec QuietSpec Conc ConcTree ConcFlush ConcEmit Cancel ConcDeriv Io IoSpec Demo.
From Verif Require Import BaseFacts ToolsFacts MerkleFacts DiffFacts CodecFacts SledFacts ChainFacts TreeFacts LedgerFacts CrashFacts CrashProps ConcFacts EmitFacts LedgerProps QuietProps IoFacts IoSure IoProps IoRetryProps IoMoneyProps.
From Verif Require Import IoFlushProps.

(** C101: flushes are invisible even when they fail: nobody can tell the tree they leave from the one before. *)
Theorem C101_invisible : forall p o fs h, QuietSpec.flushing o = true -> alike (h_tree (io_after (io_step p o) fs h)) (h_tree h).
Proof. exact p_C101_invisible. Qed.
Print Assumptions C101_invisible.

(** C101: a flush that returns success has done what a flush does when nothing fails, or the tree cannot be opened any
   more once it is closed or has crashed. *)
Theorem C101_success : forall p n h fs r, io_history p n h -> few n -> io_result (io_step p OFlush) fs h = Ok r ->
  let t' := h_tree (io_after (io_step p OFlush) fs h) in
  t' = t_flush (h_tree h) \/ forall d gs t, left_by t' d -> config_opens gs -> io_result t_new_io gs d <> Ok t.
Proof. exact p_C101_success. Qed.
Print Assumptions C101_success.

(** C101: a flush during which nothing fails makes up for everything that failed before: after it the tree can be
   closed or, once the config file is written, crash; opening it succeeds and gives all its blocks, transactions and
   balances.  As always, while the chain is the first block only, opening sets the root account. *)
Theorem C101_kept : forall p n h L f g d, io_history p n h -> few n -> chain_is (t_main (h_tree h)) L -> funds (h_tree h) f g -> left_by (t_flush (h_tree h)) d ->
  exists t, t_new d = Ok t /\ chain_is (t_main t) L /\
    (forall x, mc_get_transaction_raw x (t_main t) = mc_get_transaction_raw x (t_main (h_tree h))) /\
    funds t (if Nat.eqb (length L) 1 then upd f ROOT_PUBLIC_ADDRESS COINS_PER_CYCLE else f) g.
Proof. exact p_C101_kept. Qed.
Print Assumptions C101_kept.

Example C101_ex : let h := io_after (io_step Debug OFlush) [Fine; Fails 7] (io_after (io_step Debug emit_good) [] (opened fresh)) in
  io_history Debug 2 h /\ io_result (io_step Debug OFlush) [Fine; Fails 7] (io_after (io_step Debug emit_good) [] (opened fresh)) = Err EChainDumpConfig /\
  t_new (t_close (h_tree h)) = Err EChainInit /\ (exists t, t_new (t_close (t_flush (h_tree h))) = Ok t /\ mc_get_height (t_main t) = 2).
Proof.
  cbv zeta. split; [apply hist_call; [apply hist_call; [apply hist_new; vm_compute; reflexivity|repeat split; try (vm_compute; reflexivity); repeat constructor; vm_compute; reflexivity]|exact I]|].
  split; [vm_compute; reflexivity|]. split; [vm_compute; reflexivity|]. eexists. split; vm_compute; reflexivity.
Qed.

(** C101 without the second case fails: the failure of the last write to the config file goes unreported; the flush
   returns success and the tree can never be opened again: opening it fails whenever the config file can be opened. *)
Theorem C101_unreported_refuted : exists fs t', t' = h_tree (io_after (io_step Debug OFlush) fs (opened fresh)) /\
  io_result (io_step Debug OFlush) fs (opened fresh) = Ok RUnit /\
  forall gs t, config_opens gs -> io_result t_new_io gs (t_close t') <> Ok t.
Proof. exact p_C101_unreported_refuted. Qed.
Print Assumptions C101_unreported_refuted.

