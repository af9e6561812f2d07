(** Property C102: closing an epoch when I/O operations fail.
    Only theorem statements (closed by [exact]), examples showing that their
    premises are met, and the assumptions of each theorem. *)
From Coq Require Import Lia ZifyBool ZifyNat ZifyN.
From Verif Require Import Base Sha256 Merkle Tools Transaction Block Sled Chain Tree Spec Reach LedgerSpec CrashSpec QuietSpec Conc ConcTree ConcFlush ConcEmit Cancel ConcDeriv Io IoSpec Demo.
From Verif Require Import BaseFacts ToolsFacts MerkleFacts DiffFacts CodecFacts SledFacts ChainFacts TreeFacts LedgerFacts CrashFacts CrashProps ConcFacts EmitFacts LedgerProps QuietProps MainProps EpochDemo IoFacts IoSure IoProps IoRetryProps IoMoneyProps IoFlushProps.
From Verif Require Import IoRotateProps.

(** C102: which directory: while the one of the old amounts is missing neither comes or goes; the one of the old gas does not come back; one call with failures loses at most one of them. *)
Theorem C102_directories : forall p h o fs, let h' := io_after (io_step p o) fs h in
  (h_old h = false -> h_old h' = false /\ h_old_gas h' = h_old_gas h) /\
  (h_old_gas h = false -> h_old_gas h' = false) /\
  (h_old h = true -> h_old_gas h = true -> h_old h' = true \/ h_old_gas h' = true).
Proof. exact p_C102_directories. Qed.
Print Assumptions C102_directories.

(* the directories after rotations in which one operation fails: the first, the second; and both, after two failures *)
Example C102_ex_directories :
  let dirs h := (h_old h, h_old_gas h) in
  let fails k h := io_after rotate_io (repeat Fine k ++ [Fails 0]) h in
  map (fun k => dirs (fails k (opened fresh))) [10; 11; 12; 13; 14]%nat = [(true, true); (false, true); (true, true); (true, false); (true, true)] /\ dirs (fails 11%nat (fails 13%nat (opened fresh))) = (false, false).
Proof. vm_compute. auto. Qed.

(** C102: while a directory of the old databases is missing no call closes an epoch, whatever fails or not, and no call brings the
   directory back. *)
Theorem C102_no_epoch : forall p h o fs, missing h -> missing (io_after (io_step p o) fs h) /\ forall i root, io_result (io_step p o) fs h <> Ok (RBlock (SummBlock i root)).
Proof. exact p_C102_no_epoch. Qed.
Print Assumptions C102_no_epoch.

(** C102: at the end of an epoch, while a directory is missing, no emission succeeds. *)
Theorem C102_stuck : forall p n h pow w txs ts fs r, io_history p n h -> few n -> op_wf (OEmitMain pow w txs ts) -> missing h -> mc_get_height (t_main (h_tree h)) mod 1000000 = 0 ->
  io_result (io_step p (OEmitMain pow w txs ts)) fs h <> Ok r.
Proof. exact p_C102_stuck. Qed.
Print Assumptions C102_stuck.

(** C102: restarting repairs it.  When an emission that would have closed the epoch fails before the root account is
   reset, then the tree is flushed, closed and opened again, the same emission gives the block it would have given. *)
Theorem C102_restart : forall p n h pow w txs ts fs i root d, let o := OEmitMain pow w txs ts in
  io_history p n h -> few (S n) -> op_wf o -> snd (step p (h_tree h) o) = Ok (RBlock (SummBlock i root)) ->
  let h' := io_after (io_step p o) fs h in left_by (t_flush (h_tree h')) d ->
  t_get_amount ROOT_PUBLIC_ADDRESS (h_tree h') = Ok COINS_PER_CYCLE \/
  exists t, t_new d = Ok t /\ snd (step p t o) = Ok (RBlock (SummBlock i root)).
Proof. exact p_C102_restart. Qed.
Print Assumptions C102_restart.

(** C102 fails for repeating the call without a restart: one failed operation (the creation of a directory) during an
   emission that would have closed the epoch, and no call after it closes an epoch, though no balance has changed. *)
Theorem C102_again_refuted : forall p, exists n h o fs i root, io_history p n h /\ few n /\ op_wf o /\
  snd (step p (h_tree h) o) = Ok (RBlock (SummBlock i root)) /\ io_result (io_step p o) fs h = Err ETreeMoveSummary /\
  let h' := io_after (io_step p o) fs h in
  (forall w, t_get_amount w (h_tree h') = t_get_amount w (h_tree h) /\ t_get_gas w (h_tree h') = t_get_gas w (h_tree h)) /\
  forall calls o' gs j root', io_result (io_step p o') gs (io_run p h' calls) <> Ok (RBlock (SummBlock j root')).
Proof. exact p_C102_again_refuted. Qed.
Print Assumptions C102_again_refuted.

(** C102 fails also where repeating the call succeeds, because the root account is reset before the block is added: an emission fails while
   adding its block, is made again and succeeds, and both the root it stores and the old balances are those after the reset;
   the closing balance of the root account, here 5, is nowhere to be found. *)
Theorem C102_closing_refuted : forall p, exists n h o fs i root i' root', io_history p n h /\ few n /\ op_wf o /\
  snd (step p (h_tree h) o) = Ok (RBlock (SummBlock i root)) /\ t_get_amount ROOT_PUBLIC_ADDRESS (h_tree h) = Ok 5 /\
  led_get ROOT_PUBLIC_ADDRESS (t_old_summary (fst (step p (h_tree h) o))) = Ok 5 /\
  io_result (io_step p o) fs h = Err EChainAddingBlock /\ let h' := io_after (io_step p o) fs h in
  io_result (io_step p o) [] h' = Ok (RBlock (SummBlock i' root')) /\ i' = i /\ root' <> root /\
  led_get ROOT_PUBLIC_ADDRESS (t_old_summary (h_tree (io_after (io_step p o) [] h'))) = Ok COINS_PER_CYCLE.
Proof. exact p_C102_closing_refuted. Qed.
Print Assumptions C102_closing_refuted.

Example C102_ex : let h := MkHost fresh false true in missing h /\ io_result (io_step Release (OEmitMain (repeat 3 32) addrA [] 1597924900)) [] h = Err ETreeCreateMainChainBlock /\
  io_result rotate_io [] h = Err ETreeMoveSummary /\ io_result rotate_io [] (opened fresh) = Ok tt.
Proof. split; [left; reflexivity|]. vm_compute. auto. Qed.

