(** Properties C97 and C98: calls and openings during which I/O operations fail.
    Only theorem statements (closed by [exact]), examples showing that their
    premises are met, and the assumptions of each theorem. *)
From Coq Require Import Lia ZifyBool ZifyNat ZifyN.
From Verif Require Import Base Sha256 Merkle Tools Transaction Block Sled Chain Tree Spec Reach QuietSpec Conc ConcTree ConcFlush ConcEmit Cancel ConcDeriv Io IoSpec Demo.
From Verif Require Import BaseFacts ToolsFacts MerkleFacts DiffFacts CodecFacts SledFacts ChainFacts TreeFacts LedgerFacts CrashFacts ConcFacts EmitFacts QuietProps IoFacts IoSure.
From Verif Require Import IoProps.

(** C97: when nothing fails, calls and openings are those of the model without I/O errors. *)
Theorem C97_no_faults : forall p o fs t d, fault_free fs ->
  (io_after (io_step p o) fs (opened t) = opened (fst (step p t o)) /\ io_result (io_step p o) fs (opened t) = snd (step p t o)) /\
  io_result t_new_io fs d = t_new d.
Proof. exact p_C97_no_faults. Qed.
Print Assumptions C97_no_faults.

(** C97: whatever fails meanwhile and whatever state earlier failures left, a call that returns success has
   returned what it returns when nothing fails, and nobody can tell the tree it leaves from the one it leaves then.
   Calls that fail to open the config file of a derivative chain are excepted. *)
Theorem C97_success : forall p o fs h r, opens_nothing o (h_tree h) \/ deriv_config_opens fs -> io_result (io_step p o) fs h = Ok r ->
  snd (step p (h_tree h) o) = Ok r /\ alike (h_tree (io_after (io_step p o) fs h)) (fst (step p (h_tree h) o)).
Proof. exact p_C97_success. Qed.
Print Assumptions C97_success.

Example C97_success_ex : let fs := [Fine; Fine; Fine] in
  io_result (io_step Debug emit_good) fs (opened fresh) = snd (step Debug fresh emit_good) /\
  (exists b, snd (step Debug fresh emit_good) = Ok (RBlock b)) /\
  io_result (io_step Debug emit_good) [Fine; Fails 0] (opened fresh) = Err EChainAddingBlock.
Proof. cbv zeta. split; [vm_compute; reflexivity|]. split; [eexists; vm_compute; reflexivity|vm_compute; reflexivity]. Qed.

(** C97: opening a tree, whatever fails apart from opening its config file, returns the tree of the model or no tree. *)
Theorem C97_opening : forall fs d t, config_opens fs -> io_result t_new_io fs d = Ok t -> t_new d = Ok t.
Proof. exact p_C97_opening. Qed.
Print Assumptions C97_opening.

Example C97_opening_ex : io_result t_new_io [Fine; Fine] disk_empty = Ok fresh /\ io_result t_new_io [Fine; Fails 0] disk_empty = Err ETreeInit /\
  io_result t_new_io (repeat Fine 10 ++ [Fails 0]) disk_empty = Panic.
Proof. split; [|split]; vm_compute; reflexivity. Qed.

(** C97 without the exception for the config file fails: whenever it exists but cannot be opened, opening succeeds
   and returns a tree whose chain is the first block and whose root account has the initial amount. *)
Theorem C97_config_refuted : forall d n, exists t, io_result t_new_io (repeat Fine 7 ++ [Fails n]) d = Ok t /\
  mc_get_height (t_main t) = 1 /\ t_get_amount ROOT_PUBLIC_ADDRESS t = Ok COINS_PER_CYCLE.
Proof. exact p_C97_config_refuted. Qed.
Print Assumptions C97_config_refuted.

Example C97_config_ex : let t := fst (step Debug fresh emit_good) in let d := t_close (t_flush t) in
  (exists t', io_result t_new_io [] d = Ok t' /\ mc_get_height (t_main t') = 2) /\
  (exists t', io_result t_new_io (repeat Fine 7 ++ [Fails 0]) d = Ok t' /\ mc_get_height (t_main t') = 1).
Proof. cbv zeta. split; eexists; (split; [vm_compute; reflexivity|vm_compute; reflexivity]). Qed.

(** C97 for derivative chains: as above, an emission continues a chain whose config file cannot be opened as if it
   were empty: it succeeds and overwrites the first block of the chain. *)
Theorem C97_deriv_config_refuted : exists t t1 b b', t_new disk_empty = Ok t /\
  step Debug t deriv_1 = (t1, Ok (RBlock b)) /\ (exists t2, t_new (t_close (t_flush (fst (step Debug t1 (ODerivFlush addrA))))) = Ok t2 /\
    let fs := [Fine; Fine; Fine; Fails 0] in
    io_result (io_step Debug (OEmitDeriv (repeat 1 32) addrA 1597926000)) fs (opened t2) = Ok (RBlock b') /\
    bi_height (get_info b) = 0 /\ bi_height (get_info b') = 0 /\ b <> b' /\
    (exists c, assoc_get addrA (t_derivs (h_tree (io_after (io_step Debug (OEmitDeriv (repeat 1 32) addrA 1597926000)) fs (opened t2)))) = Some c /\
      dc_find_raw_by_height 0 c = Some (block_dump b'))).
Proof. exact p_C97_deriv_config_refuted. Qed.
Print Assumptions C97_deriv_config_refuted.

(** C98: in every history of calls during which I/O operations fail, with restarts, the main chain holds well-formed blocks
   beginning with the first one, every one of them found by its height and its hash; every call leaves it as it is or
   adds one block: the one it returns, which follows the last one, or the one it was given. *)
Theorem C98_chain_kept : forall p n h, io_history p n h -> few n -> exists L, chain_is (t_main (h_tree h)) L /\
  forall o fs, op_wf o -> exists L', chain_after p o (io_result (io_step p o) fs h) L L' /\ chain_is (t_main (h_tree (io_after (io_step p o) fs h))) L'.
Proof. exact p_C98_chain_kept. Qed.
Print Assumptions C98_chain_kept.

(** C98: the blocks held are determined by the answers of the chain. *)
Theorem C98_unique : forall m L L', chain_is m L -> chain_is m L' -> L = L'.
Proof. exact p_C98_unique. Qed.
Print Assumptions C98_unique.

(** C98: closing the tree at any point of such a history and opening it, with failures apart from opening the config
   file, gives no tree or one that holds an initial part of the blocks. *)
Theorem C98_reopened : forall p n h L fs t, io_history p n h -> few n -> chain_is (t_main (h_tree h)) L -> config_opens fs ->
  io_result t_new_io fs (t_close (h_tree h)) = Ok t -> exists k, (1 <= k <= length L)%nat /\ chain_is (t_main t) (firstn k L).
Proof. exact p_C98_reopened. Qed.
Print Assumptions C98_reopened.

Example C98_ex : let h := io_after (io_step Debug emit_good) [Fine; Fine; Fails 1] (opened fresh) in
  io_history Debug 1 h /\ io_result (io_step Debug emit_good) [Fine; Fine; Fails 1] (opened fresh) = Err EChainAddingBlock /\
  mc_get_height (t_main (h_tree h)) = 1 /\ (exists b, io_result (io_step Debug emit_good) [] h = Ok (RBlock b)) /\
  (exists t, io_result t_new_io [Fine] (t_close (h_tree h)) = Ok t).
Proof.
  cbv zeta. split; [apply hist_call; [apply hist_new; vm_compute; reflexivity|]|].
  - repeat split; try (vm_compute; reflexivity); repeat constructor; vm_compute; reflexivity.
  - split; [vm_compute; reflexivity|]. split; [vm_compute; reflexivity|]. split; eexists; vm_compute; reflexivity.
Qed.

(** C98 for lookups by hash and beyond the last block fails.  After a block could not be added the chain may answer with it beyond
   its last block; after another block took its place, its hash leads to that other block. *)
Theorem C98_ghosts_refuted : exists o1 o2 fs h1 h2 b1 b2, let h0 := opened fresh in
  h1 = io_after (io_step Debug o1) fs h0 /\ h2 = io_after (io_step Debug o2) [] h1 /\
  io_result (io_step Debug o1) fs h0 = Err EChainAddingBlock /\ mc_get_height (t_main (h_tree h1)) = 1 /\
  snd (step Debug fresh o1) = Ok (RBlock b1) /\ mc_find_raw_by_height 1 (t_main (h_tree h1)) = Some (block_dump b1) /\
  io_result (io_step Debug o2) [] h1 = Ok (RBlock b2) /\ block_hash b1 <> block_hash b2 /\
  mc_find_raw_by_hash (block_hash b1) (t_main (h_tree h2)) = Ok (Some (block_dump b2)).
Proof. exact p_C98_ghosts_refuted. Qed.
Print Assumptions C98_ghosts_refuted.

