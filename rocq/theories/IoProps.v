(** Calls and openings during which I/O operations fail. *)
From Coq Require Import Lia ZifyBool ZifyNat ZifyN.
From Verif Require Import Base Sha256 Merkle Tools Transaction Block Sled Chain Tree Spec Reach QuietSpec Conc ConcTree ConcFlush ConcEmit Cancel ConcDeriv Io IoSpec Demo.
From Verif Require Import BaseFacts ToolsFacts MerkleFacts DiffFacts CodecFacts SledFacts ChainFacts TreeFacts LedgerFacts CrashFacts ConcFacts EmitFacts QuietProps IoFacts IoSure.

Local Strategy 1000 [u256_mul u256_add u256_sub BYTE_GAS_PRICE t_get_amount t_get_gas mc_decode dc_decode recalculate_fee recalculate_difficulty t_send_amount t_sub_gas sled_get check_pow emit_block next_info dc_new mc_read_config genesis_block].

(*@T C97: when nothing fails, calls and openings are those of the model without I/O errors. *)
Lemma p_C97_no_faults : forall p o fs t d, fault_free fs ->
  (io_after (io_step p o) fs (opened t) = opened (fst (step p t o)) /\ io_result (io_step p o) fs (opened t) = snd (step p t o)) /\
  io_result t_new_io fs d = t_new d.
Proof.
  intros p o fs t d Hf. unfold io_after, io_result. destruct (plain_step p o fs (opened t) Hf) as (_ & E1 & E2 & _). rewrite E1, E2, step_nil.
  split; [split; reflexivity|]. destruct (plain_new fs d Hf) as (_ & _ & E3 & _). rewrite E3. apply new_nil.
Qed.

(*@T C97: whatever fails meanwhile and whatever state earlier failures left, a call that returns success has
   returned what it returns when nothing fails, and nobody can tell the tree it leaves from the one it leaves then.
   Calls that fail to open the config file of a derivative chain are excepted. *)
Lemma p_C97_success : forall p o fs h r, opens_nothing o (h_tree h) \/ deriv_config_opens fs -> io_result (io_step p o) fs h = Ok r ->
  snd (step p (h_tree h) o) = Ok r /\ alike (h_tree (io_after (io_step p o) fs h)) (fst (step p (h_tree h) o)).
Proof. intros p o fs h r Ho H. destruct (ok_step p o fs h r Ho H) as [E1 E2]. split; [exact E1|]. apply norm_alike, E2. Qed.
(*@E
Example C97_success_ex : let fs := [Fine; Fine; Fine] in
  io_result (io_step Debug emit_good) fs (opened fresh) = snd (step Debug fresh emit_good) /\
  (exists b, snd (step Debug fresh emit_good) = Ok (RBlock b)) /\
  io_result (io_step Debug emit_good) [Fine; Fails 0] (opened fresh) = Err EChainAddingBlock.
Proof. cbv zeta. split; [vm_compute; reflexivity|]. split; [eexists; vm_compute; reflexivity|vm_compute; reflexivity]. Qed.
@*)

(*@T C97: opening a tree, whatever fails apart from opening its config file, returns the tree of the model or no tree. *)
Lemma p_C97_opening : forall fs d t, config_opens fs -> io_result t_new_io fs d = Ok t -> t_new d = Ok t.
Proof. intros fs d t. apply new_ok. Qed.
(*@E
Example C97_opening_ex : io_result t_new_io [Fine; Fine] disk_empty = Ok fresh /\ io_result t_new_io [Fine; Fails 0] disk_empty = Err ETreeInit /\
  io_result t_new_io (repeat Fine 10 ++ [Fails 0]) disk_empty = Panic.
Proof. split; [|split]; vm_compute; reflexivity. Qed.
@*)

(*@T C97 without the exception for the config file fails: whenever it exists but cannot be opened, opening succeeds
   and returns a tree whose chain is the first block and whose root account has the initial amount. *)
Lemma p_C97_config_refuted : forall d n, exists t, io_result t_new_io (repeat Fine 7 ++ [Fails n]) d = Ok t /\
  mc_get_height (t_main t) = 1 /\ t_get_amount ROOT_PUBLIC_ADDRESS t = Ok COINS_PER_CYCLE.
Proof.
  intros d n. eexists. split.
  - unfold io_result, t_new_io. cbv [io_bind opens io_read io_op next_fault tl io_try io_get io_out fst snd repeat app]. destruct (file_cur (md_cfg (k_main d))); cbv beta iota; change (0 =? 0) with true; cbv iota; rewrite genesis_eq;
      cbv [disk_op io_bind io_op next_fault tl io_out io_get fst snd]; change (1 =? 1) with true; cbv iota; reflexivity.
  - split; [reflexivity|]. unfold t_get_amount, led_get. cbn [t_summary disk_op disk_summary k_summary disk_main]. rewrite sled_get_commit1, bytes_eqb_refl. vm_compute. reflexivity.
Qed.
(*@E
Example C97_config_ex : let t := fst (step Debug fresh emit_good) in let d := t_close (t_flush t) in
  (exists t', io_result t_new_io [] d = Ok t' /\ mc_get_height (t_main t') = 2) /\
  (exists t', io_result t_new_io (repeat Fine 7 ++ [Fails 0]) d = Ok t' /\ mc_get_height (t_main t') = 1).
Proof. cbv zeta. split; eexists; (split; [vm_compute; reflexivity|vm_compute; reflexivity]). Qed.
@*)

(*@T C97 for derivative chains: as above, an emission continues a chain whose config file cannot be opened as if it
   were empty: it succeeds and overwrites the first block of the chain. *)
Lemma p_C97_deriv_config_refuted : exists t t1 b b', t_new disk_empty = Ok t /\
  step Debug t deriv_1 = (t1, Ok (RBlock b)) /\ (exists t2, t_new (t_close (t_flush (fst (step Debug t1 (ODerivFlush addrA))))) = Ok t2 /\
    let fs := [Fine; Fine; Fine; Fails 0] in
    io_result (io_step Debug (OEmitDeriv (repeat 1 32) addrA 1597926000)) fs (opened t2) = Ok (RBlock b') /\
    bi_height (get_info b) = 0 /\ bi_height (get_info b') = 0 /\ b <> b' /\
    (exists c, assoc_get addrA (t_derivs (h_tree (io_after (io_step Debug (OEmitDeriv (repeat 1 32) addrA 1597926000)) fs (opened t2)))) = Some c /\
      dc_find_raw_by_height 0 c = Some (block_dump b'))).
Proof.
  do 4 eexists. split; [vm_compute; reflexivity|]. split; [vm_compute; reflexivity|]. eexists. split; [vm_compute; reflexivity|]. cbv zeta. split; [vm_compute; reflexivity|]. split; [reflexivity|]. split; [reflexivity|]. split; [discriminate|].
  eexists. split; vm_compute; reflexivity.
Qed.

(*@T C98: in every history of calls during which I/O operations fail, with restarts, the main chain holds well-formed blocks
   beginning with the first one, every one of them found by its height and its hash; every call leaves it as it is or
   adds one block: the one it returns, which follows the last one, or the one it was given. *)
Lemma p_C98_chain_kept : forall p n h, io_history p n h -> few n -> exists L, chain_is (t_main (h_tree h)) L /\
  forall o fs, op_wf o -> exists L', chain_after p o (io_result (io_step p o) fs h) L L' /\ chain_is (t_main (h_tree (io_after (io_step p o) fs h))) L'.
Proof.
  intros p n h H Hn. destruct (w_history p n h H Hn) as (L & A & Hl). exists L. split; [apply w_holds, A|]. intros o fs Ho. unfold few in Hn.
  destruct (w_step L p o Ho ltac:(lia) fs h A) as (L' & C & A'). exists L'. split; [exact C|apply w_holds, A'].
Qed.
Lemma nth_error_ext {A} : forall l l' : list A, (forall i, nth_error l i = nth_error l' i) -> l = l'.
Proof.
  induction l as [|x l IH]; intros [|y l'] H; [reflexivity|discriminate (H 0%nat)..|]. pose proof (H 0%nat) as H0. injection H0 as <-. f_equal. apply IH. intros i. exact (H (S i)).
Qed.
(*@T C98: the blocks held are determined by the answers of the chain. *)
Lemma p_C98_unique : forall m L L', chain_is m L -> chain_is m L' -> L = L'.
Proof.
  intros m L L' (A1 & A2 & _ & A3) (B1 & B2 & _ & B3). assert (El : length L = length L') by lia.
  apply nth_error_ext. intros i. destruct (nth_error L i) as [b|] eqn:E; [|apply nth_error_None in E; symmetry; apply nth_error_None; lia]. destruct (nth_error L' i) as [b'|] eqn:E'; [|apply nth_error_None in E'; pose proof (proj1 (nth_error_Some L i) ltac:(congruence)); lia].
  destruct (A3 i b E) as (_ & F & _), (B3 i b' E') as (_ & F' & _). rewrite F in F'. f_equal. apply block_dump_inj; [eapply Forall_forall; [exact A2|eapply nth_error_In, E]|eapply Forall_forall; [exact B2|eapply nth_error_In, E']|congruence].
Qed.
(*@T C98: closing the tree at any point of such a history and opening it, with failures apart from opening the config
   file, gives no tree or one that holds an initial part of the blocks. *)
Lemma p_C98_reopened : forall p n h L fs t, io_history p n h -> few n -> chain_is (t_main (h_tree h)) L -> config_opens fs ->
  io_result t_new_io fs (t_close (h_tree h)) = Ok t -> exists k, (1 <= k <= length L)%nat /\ chain_is (t_main t) (firstn k L).
Proof.
  intros p n h L fs t H Hn HL Hc E. destruct (w_history p n h H Hn) as (L0 & A & Hl). assert (L0 = L) as -> by (eapply p_C98_unique; [apply w_holds, A|exact HL]).
  apply (new_ok _ _ _ Hc) in E. destruct (w_reopen _ _ _ A E) as (k & Hk & B & _). exists k. split; [exact Hk|apply w_holds, B].
Qed.
(*@E
Example C98_ex : let h := io_after (io_step Debug emit_good) [Fine; Fine; Fails 1] (opened fresh) in
  io_history Debug 1 h /\ io_result (io_step Debug emit_good) [Fine; Fine; Fails 1] (opened fresh) = Err EChainAddingBlock /\
  mc_get_height (t_main (h_tree h)) = 1 /\ (exists b, io_result (io_step Debug emit_good) [] h = Ok (RBlock b)) /\
  (exists t, io_result t_new_io [Fine] (t_close (h_tree h)) = Ok t).
Proof.
  cbv zeta. split; [apply hist_call; [apply hist_new; vm_compute; reflexivity|]|].
  - repeat split; try (vm_compute; reflexivity); repeat constructor; vm_compute; reflexivity.
  - split; [vm_compute; reflexivity|]. split; [vm_compute; reflexivity|]. split; eexists; vm_compute; reflexivity.
Qed.
@*)

(*@T C98 for lookups by hash and beyond the last block fails.  After a block could not be added the chain may answer with it beyond
   its last block; after another block took its place, its hash leads to that other block. *)
Lemma p_C98_ghosts_refuted : exists o1 o2 fs h1 h2 b1 b2, let h0 := opened fresh in
  h1 = io_after (io_step Debug o1) fs h0 /\ h2 = io_after (io_step Debug o2) [] h1 /\
  io_result (io_step Debug o1) fs h0 = Err EChainAddingBlock /\ mc_get_height (t_main (h_tree h1)) = 1 /\
  snd (step Debug fresh o1) = Ok (RBlock b1) /\ mc_find_raw_by_height 1 (t_main (h_tree h1)) = Some (block_dump b1) /\
  io_result (io_step Debug o2) [] h1 = Ok (RBlock b2) /\ block_hash b1 <> block_hash b2 /\
  mc_find_raw_by_hash (block_hash b1) (t_main (h_tree h2)) = Ok (Some (block_dump b2)).
Proof.
  exists emit_good, (OEmitMain (repeat 3 32) addrA [txh] 1597925001), [Fine; Fine; Fails 1]. do 4 eexists. cbv zeta. split; [reflexivity|]. split; [reflexivity|]. split; [vm_compute; reflexivity|]. split; [vm_compute; reflexivity|].
  split; [vm_compute; reflexivity|]. split; [vm_compute; reflexivity|]. split; [vm_compute; reflexivity|]. split; [vm_compute; discriminate|vm_compute; reflexivity].
Qed.
