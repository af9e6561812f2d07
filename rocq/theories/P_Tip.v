(** Property C122: a block commits to everything before it
    Only theorem statements (closed by [exact]), examples showing that their
    premises are met, and the assumptions of each theorem. *)
From Coq Require Import Lia ZifyBool ZifyNat ZifyN.
From Verif Require Import Base Sha256 Merkle Tools Transaction Block Sled Chain Tree Spec Reach QuietSpec LiveSpec Conc ConcTree ConcFlush ConcEmit Cancel ConcDeriv CrashSpec DcrashSpec HistSpec Io IoSpec LifeSpec DlifeSpec TipSpec Demo.
From Verif Require Import BaseFacts ToolsFacts MerkleFacts DiffFacts CodecFacts SledFacts ChainFacts TreeFacts LedgerFacts CrashFacts ConcFacts EmitFacts DerivFacts IoFacts CodecProps MainProps DerivProps DcrashProps HistProps LifeFacts LifeProps DlifeFacts DlifeProps.
From Verif Require LiveProps.
From Verif Require Import TipProps.

(** C122: a block of the main chain determines everything before it.  If two nodes, whatever failed and whenever they were killed, have blocks with
   the same hash anywhere in their main chains, then these are at the same height and the two chains agree up to there, or two blocks the nodes have
   are a SHA-256 collision.  The nodes may be builds with and without overflow checks.
   Missing: blocks added from outside, see [C122_raw_refuted]; kills between the writing of the config and the flush of the blocks, as in [C107_linked_partial]. *)
Theorem C122_history_partial : forall p q hA hB i j a b, emitted_node p hA -> emitted_node q hB ->
  block_at (h_tree hA) i a -> block_at (h_tree hB) j b -> block_hash a = block_hash b ->
  (a = b /\ i = j /\ forall k c, k <= i -> (block_at (h_tree hA) k c <-> block_at (h_tree hB) k c)) \/
  exists k l c d, block_at (h_tree hA) k c /\ block_at (h_tree hB) l d /\ collision (block_dump c) (block_dump d).
Proof. exact p_C122_history_partial. Qed.
Print Assumptions C122_history_partial.

(** C122: the last block determines the main chain: two nodes whose last blocks have the same hash have the same blocks at all heights. *)
Theorem C122_last_block_partial : forall p q hA hB a b, emitted_node p hA -> emitted_node q hB ->
  mc_get_last_block (t_main (h_tree hA)) = Ok (Some a) -> mc_get_last_block (t_main (h_tree hB)) = Ok (Some b) -> block_hash a = block_hash b ->
  (mc_get_height (t_main (h_tree hA)) = mc_get_height (t_main (h_tree hB)) /\ forall k c, block_at (h_tree hA) k c <-> block_at (h_tree hB) k c) \/
  exists k l c d, block_at (h_tree hA) k c /\ block_at (h_tree hB) l d /\ collision (block_dump c) (block_dump d).
Proof. exact p_C122_last_block_partial. Qed.
Print Assumptions C122_last_block_partial.

(** C122, forks: the main chains of two nodes agree up to some height, at least in the first block, and above it no block of the one has the hash of a block of the other,
   or two blocks the nodes have are a SHA-256 collision. *)
Theorem C122_fork_partial : forall p q hA hB, emitted_node p hA -> emitted_node q hB ->
  (exists f, 1 <= f <= N.min (mc_get_height (t_main (h_tree hA))) (mc_get_height (t_main (h_tree hB))) /\
    (forall k c, k < f -> (block_at (h_tree hA) k c <-> block_at (h_tree hB) k c)) /\
    (forall i j a b, f <= i \/ f <= j -> block_at (h_tree hA) i a -> block_at (h_tree hB) j b -> block_hash a <> block_hash b)) \/
  exists k l c d, block_at (h_tree hA) k c /\ block_at (h_tree hB) l d /\ collision (block_dump c) (block_dump d).
Proof. exact p_C122_fork_partial. Qed.
Print Assumptions C122_fork_partial.

(** C122, transactions: what two nodes return for the same transaction hash is the same, whatever happened to them, or a SHA-256 collision. *)
Theorem C122_transactions : forall p q n m hA hB k d d', life any_faults p (Down disk_empty) n (Up hA) -> life any_faults q (Down disk_empty) m (Up hB) ->
  mc_get_transaction_raw k (t_main (h_tree hA)) = Some d -> mc_get_transaction_raw k (t_main (h_tree hB)) = Some d' -> d = d' \/ collision d d'.
Proof. exact p_C122_transactions. Qed.
Print Assumptions C122_transactions.

(** C122: the same for derivative chains, whatever failed: blocks with the same hash belong to the same owner and the same height, and the chains agree up to there.
   Missing: blocks added through a handle; calls that cannot open an existing config file and kills inside a flush, as in [C109_linked_partial]. *)
Theorem C122_derivative_partial : forall p q hA hB w w' c c' i j a b, demitted_node p hA -> demitted_node q hB ->
  assoc_get w (t_derivs (h_tree hA)) = Some c -> assoc_get w' (t_derivs (h_tree hB)) = Some c' ->
  dblock_at c i a -> dblock_at c' j b -> block_hash a = block_hash b ->
  (w = w' /\ a = b /\ i = j /\ forall k x, k <= i -> (dblock_at c k x <-> dblock_at c' k x)) \/
  exists k l x y, dblock_at c k x /\ dblock_at c' l y /\ collision (block_dump x) (block_dump y).
Proof. exact p_C122_derivative_partial. Qed.
Print Assumptions C122_derivative_partial.

(** C122: the last block of a derivative chain determines that chain, its owner, the block of the main chain it is attached to and the main chain up to that block:
   two nodes that only emit and have derivative chains with the same last hash agree in all this, or two blocks they have are a SHA-256 collision.
   Missing: crashes and failing operations, after which the block a derivative chain is attached to may be gone (C87). *)
Theorem C122_anchor_partial : forall p q n m tA tB w w' c c' a b, reachable emission_only p n tA -> few n -> reachable emission_only q m tB -> few m ->
  assoc_get w (t_derivs tA) = Some c -> assoc_get w' (t_derivs tB) = Some c' ->
  dc_get_last_block c = Ok (Some a) -> dc_get_last_block c' = Ok (Some b) -> block_hash a = block_hash b ->
  (w = w' /\ dc_get_height c = dc_get_height c' /\ dc_genesis c = dc_genesis c' /\ (forall k x, dblock_at c k x <-> dblock_at c' k x) /\
   exists i g, block_at tA i g /\ block_hash g = dc_genesis c /\ forall k x, k <= i -> (block_at tA k x <-> block_at tB k x)) \/
  exists k l x y, ((block_at tA k x /\ block_at tB l y) \/ (dblock_at c k x /\ dblock_at c' l y)) /\ collision (block_dump x) (block_dump y).
Proof. exact p_C122_anchor_partial. Qed.
Print Assumptions C122_anchor_partial.

(** C122: blocks added through [add_new_block] commit to nothing: the hash of the previous block in them is not compared with that block, and two trees can have
   the same last block over different blocks, none of which collide. *)
Theorem C122_raw_refuted : forall p, exists tA tB b x y, reachable any_op p 2 tA /\ reachable any_op p 2 tB /\
  mc_get_height (t_main tA) = 3 /\ mc_get_height (t_main tB) = 3 /\ mc_get_last_block (t_main tA) = Ok (Some b) /\ mc_get_last_block (t_main tB) = Ok (Some b) /\
  block_at tA 1 x /\ block_at tB 1 y /\ block_hash x <> block_hash y.
Proof. exact p_C122_raw_refuted. Qed.
Print Assumptions C122_raw_refuted.

(* a node that emits a block, is killed and opened again, and another node; they fork at height 2 *)
Example C122_ex :
  let call o fs h := io_after (io_step Debug o) fs h in
  let other := OEmitMain (repeat 7 32) addrB [txh] 1597925500 in
  let next := OEmitMain (repeat 2 32) addrA [txh] 1597926000 in
  let h0 := opened fresh in
  let h1 := call OFlush [] (call emit_good [] h0) in
  let hA := call next [] match io_result t_new_io [] (t_crash (svs 0 0 0 9 0 0) (h_tree h1)) with Ok t => opened t | _ => h0 end in
  let hB := call other [Fails 3] (call other [] (call emit_good [] h0)) in
  let at_ h i := match mc_find_by_height i (t_main (h_tree h)) with Ok (Some b) => hd 0 (bi_pow (get_info b)) | _ => 0 end in
  (mc_get_height (t_main (h_tree hA)), mc_get_height (t_main (h_tree hB))) = (3, 3) /\ map (at_ hA) [1; 2] = [3; 2] /\ map (at_ hB) [1; 2] = [3; 7].
Proof. vm_compute. repeat split. Qed.
(* such nodes exist, with a derivative chain *)
Example C122_ex_node : let h := io_after (io_step Debug (OEmitDeriv (repeat 4 32) addrA 1597925000)) [] (io_after (io_step Debug emit_good) [] (opened fresh)) in
  emitted_node Debug h /\ demitted_node Debug h /\ exists c b, assoc_get addrA (t_derivs (h_tree h)) = Some c /\ dblock_at c 0 b /\ block_at (h_tree h) 1 (emitted Debug fresh emit_good).
Proof.
  assert (L : forall ok : host -> op -> list fault -> Prop, (forall h, ok h emit_good [] /\ ok h (OEmitDeriv (repeat 4 32) addrA 1597925000) []) ->
    life ok Debug (Down disk_empty) 2 (Up (io_after (io_step Debug (OEmitDeriv (repeat 4 32) addrA 1597925000)) [] (io_after (io_step Debug emit_good) [] (opened fresh))))).
  { intros ok H. apply life_call; [apply life_call; [apply life_open with (d := disk_empty) (fs := []); [apply life_start|reflexivity|vm_compute; reflexivity]| |apply H]| |apply H];
      repeat split; repeat constructor. }
  split; [exists 2%nat; split; [vm_compute; reflexivity|apply L; intros h; split; (split; [exact Logic.I|vm_compute; discriminate || exact Logic.I])]|].
  split; [exists 2%nat; split; [vm_compute; reflexivity|apply L; intros h; split; (split; [exact Logic.I|split; [vm_compute; auto|exact Logic.I]])]|].
  eexists. eexists. split; [vm_compute; reflexivity|]. split; split; vm_compute; reflexivity.
Qed.

