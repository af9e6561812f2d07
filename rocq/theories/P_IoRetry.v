(** Property C99: calls made again after I/O operations failed.
    Only theorem statements (closed by [exact]), examples showing that their
    premises are met, and the assumptions of each theorem. *)
From Coq Require Import Lia ZifyBool ZifyNat ZifyN.
From Verif Require Import Base Sha256 Merkle Tools Transaction Block Sled Chain Tree Spec Reach QuietSpec Conc ConcTree ConcFlush ConcEmit Cancel ConcDeriv Io IoSpec Demo.
From Verif Require Import BaseFacts ToolsFacts MerkleFacts DiffFacts CodecFacts SledFacts ChainFacts TreeFacts LedgerFacts CrashFacts ConcFacts EmitFacts QuietProps IoFacts IoSure IoProps.
From Verif Require Import IoRetryProps.

(** C99: a call that failed because I/O operations failed, if it adds nothing to and takes nothing from a balance, closes no epoch
   and its block was not added, can be repeated: it returns and leaves what it returns and leaves on the tree as it
   was before. *)
Theorem C99_repeat : forall p n h o fs, io_history p n h -> few n -> repeatable o -> opens_nothing o (h_tree h) -> failed p o fs h ->
  let t' := h_tree (io_after (io_step p o) fs h) in
  same_result (snd (step p t' o)) (snd (step p (h_tree h) o)) /\ alike (fst (step p t' o)) (fst (step p (h_tree h) o)).
Proof. exact p_C99_repeat. Qed.
Print Assumptions C99_repeat.

(** C99: such a call, repeated until it succeeds, has returned what it returns when nothing fails, and nobody can tell the
   tree it leaves from the one it leaves then. *)
Theorem C99_until_success : forall p n h o fss fs r, io_history p n h -> few (n + length fss) -> op_wf o -> repeatable o -> opens_nothing o (h_tree h) ->
  all_failed p o fss h -> io_result (io_step p o) fs (attempts p o fss h) = Ok r ->
  same_result (Ok r) (snd (step p (h_tree h) o)) /\ alike (h_tree (io_after (io_step p o) fs (attempts p o fss h))) (fst (step p (h_tree h) o)).
Proof. exact p_C99_until_success. Qed.
Print Assumptions C99_until_success.

Example C99_ex : let h := opened fresh in let fss := [[Fails 0]; [Fine; Fails 0]; [Fine; Fails 1]; [Fine; Fine; Fails 1]] in
  io_history Debug 0 h /\ op_wf emit_good /\ repeatable emit_good /\ opens_nothing emit_good (h_tree h) /\ all_failed Debug emit_good fss h /\
  (exists r, io_result (io_step Debug emit_good) [Fine; Fine; Fine; Fails 0] (attempts Debug emit_good fss h) = Ok r).
Proof.
  cbv zeta. split; [apply hist_new; vm_compute; reflexivity|]. split; [repeat split; try (vm_compute; reflexivity); repeat constructor; vm_compute; reflexivity|]. split; [discriminate|]. split; [exact I|].
  split; [|eexists; vm_compute; reflexivity]. repeat split; intros r; vm_compute; discriminate.
Qed.

(** C99 for balances fails: add_amount that reported a failure may have been carried out, repeating it adds the amount twice. *)
Theorem C99_amount_refuted : exists o fs h, io_result (io_step Debug o) fs (opened fresh) = Panic /\ h = io_after (io_step Debug o) fs (opened fresh) /\
  o = OAddAmount addrA 5 /\ io_result (io_step Debug o) [] h = Ok RUnit /\
  t_get_amount addrA (fst (step Debug fresh o)) = Ok 5 /\ t_get_amount addrA (h_tree (io_after (io_step Debug o) [] h)) = Ok 10.
Proof. exact p_C99_amount_refuted. Qed.
Print Assumptions C99_amount_refuted.

(** C99 for transactions fails: send_transaction that failed while charging the gas has moved the amount and stored the
   transaction; repeating it moves the amount again. *)
Theorem C99_transaction_refuted : exists fs h, let o := OSendTx (demo_tx 1000 (repeat 7 64)) in let h0 := opened funded in
  io_result (io_step Debug o) fs h0 = Panic /\ h = io_after (io_step Debug o) fs h0 /\ io_result (io_step Debug o) [] h = Ok RUnit /\
  t_get_amount addrB (fst (step Debug funded o)) = Ok 1000 /\ t_get_amount addrB (h_tree (io_after (io_step Debug o) [] h)) = Ok 2000.
Proof. exact p_C99_transaction_refuted. Qed.
Print Assumptions C99_transaction_refuted.

(** C99 for blocks given to the tree fails when the block was added: add_new_block that failed while storing the
   transactions refuses the block whenever it is repeated, and the transactions are not stored. *)
Theorem C99_block_refuted : exists b, let tx := demo_tx 1000 (repeat 7 64) in let o := OAddNewBlock b [tx] in let h0 := opened fresh in
  let fs := [Fine; Fine; Fails 0] in let h := io_after (io_step Debug o) fs h0 in
  io_result (io_step Debug o) fs h0 = Err EChainAddingTx /\ mc_get_height (t_main (h_tree h)) = 2 /\
  (forall gs, io_result (io_step Debug o) gs h = Err EChainAddingBlock /\ io_after (io_step Debug o) gs h = h) /\
  mc_transaction_exists (tx_hash tx) (t_main (h_tree h)) = false /\
  snd (step Debug fresh o) = Ok RUnit /\ mc_transaction_exists (tx_hash tx) (t_main (fst (step Debug fresh o))) = true.
Proof. exact p_C99_block_refuted. Qed.
Print Assumptions C99_block_refuted.

