(** Properties C28, C30-C38: the main chain and block emission.
    Only theorem statements (closed by [exact]), examples showing that their
    premises are met, and the assumptions of each theorem. *)
From Coq Require Import Lia ZifyBool ZifyNat ZifyN.
From Verif Require Import Base Sha256 Merkle Tools Transaction Block Sled Chain Tree Spec Reach Demo.
From Verif Require Import BaseFacts ToolsFacts MerkleFacts DiffFacts CodecFacts SledFacts ChainFacts TreeFacts ValidateProps.
From Verif Require Import MainProps.

(** C28, what holds: an emitted block passes every test of [validate] except perhaps
    the proof of work, which [validate] computes over the merkle root instead of the
    previous hash; so the verdict is exactly that test.  Holds in every reachable tree. *)
Theorem C28_emitted_validates_partial : forall ok p n t pow founder txs ts t' b,
  reachable ok p n t -> few n ->
  is_array 32 pow -> is_array 33 founder -> Forall (is_array 32) txs -> u64_ok ts ->
  t_emmit_new_main_block p pow founder txs ts t = (t', Ok b) ->
  exists prev, mc_get_last_block (t_main t) = Ok (Some prev) /\
    (validate p b (Some prev) = Ok true <->
     match b with
     | TxBlock _ root _ _ => work root (bi_difficulty (get_info prev)) root pow
     | SummBlock _ root => work root (bi_difficulty (get_info prev)) ff32 pow
     | DerivBlock _ => False
     end).
Proof. exact p_C28_emitted_validates_partial. Qed.
Print Assumptions C28_emitted_validates_partial.

(** C28 is false of the code, in both profiles, already for the first emitted block. *)
Theorem C28_emitted_validates_refuted : forall p, exists t pow founder txs ts t' b prev,
  reachable no_raw_main p 0 t /\ is_array 32 pow /\ is_array 33 founder /\ Forall (is_array 32) txs /\ u64_ok ts /\
  t_emmit_new_main_block p pow founder txs ts t = (t', Ok b) /\
  mc_get_last_block (t_main t) = Ok (Some prev) /\ validate p b (Some prev) = Ok false.
Proof. exact p_C28_emitted_validates_refuted. Qed.
Print Assumptions C28_emitted_validates_refuted.

Example C28_ex : snd (step Release fresh emit_good) = Ok (RBlock (emitted Release fresh emit_good)) /\
  validate Release (emitted Release fresh emit_good) (Some (last_of fresh)) = Ok true /\
  op_wf emit_good /\ few 0.
Proof.
  split; [vm_compute; reflexivity|]. split; [vm_compute; reflexivity|].
  split; [|reflexivity]. repeat split; repeat constructor; reflexivity.
Qed.

(** C30 is false of the code: a block validates with any height and any fee. *)
Theorem C30_height_fee_refuted : forall p fee h, exists b prev,
  validate p b (Some prev) = Ok true /\ bi_height (get_info b) = h /\ get_fee b = fee /\
  bi_height (get_info prev) = 0 /\ block_wf prev /\ (u256_ok h -> u256_ok fee -> block_wf b).
Proof. exact p_C30_height_fee_refuted. Qed.
Print Assumptions C30_height_fee_refuted.

(** C31.  In every reachable tree the main chain answers like a list [L] of blocks;
    [add_block] appends exactly when the height is right. *)
Theorem C31_append_only : forall ok p n t, reachable ok p n t -> few n ->
  exists L,
    mc_get_height (t_main t) = N.of_nat (length L) /\
    (forall i, mc_find_raw_by_height i (t_main t) = option_map block_dump (nth_error L (N.to_nat i))) /\
    mc_get_last_raw_block (t_main t) = Ok (option_map block_dump (nth_error L (length L - 1))) /\
    L <> [] /\
    (forall i b, nth_error L i = Some b -> bi_height (get_info b) = N.of_nat i) /\
    forall b,
      let '(m', r) := mc_add_block b (t_main t) in
      (bi_height (get_info b) = mc_get_height (t_main t) -> r = Ok tt /\
         mc_get_height m' = mc_get_height (t_main t) + 1 /\
         forall i, mc_find_raw_by_height i m' = option_map block_dump (nth_error (L ++ [b]) (N.to_nat i))) /\
      (bi_height (get_info b) <> mc_get_height (t_main t) -> (exists e, r = Err e) /\ m' = t_main t).
Proof. exact p_C31_append_only. Qed.
Print Assumptions C31_append_only.

(** C31 over histories: whatever call is made, blocks already in the chain stay where they are. *)
Theorem C31_history_keeps_blocks : forall ok p n t o i d,
  reachable ok p n t -> few (S n) -> op_wf o -> i < mc_get_height (t_main t) ->
  mc_find_raw_by_height i (t_main t) = Some d ->
  mc_find_raw_by_height i (t_main (fst (step p t o))) = Some d /\
  mc_get_height (t_main t) <= mc_get_height (t_main (fst (step p t o))) <= mc_get_height (t_main t) + 1.
Proof. exact p_C31_history_keeps_blocks. Qed.
Print Assumptions C31_history_keeps_blocks.

Example C31_ex : mc_get_height (t_main (fst (step Debug fresh emit_good))) = 2 /\
  mc_find_raw_by_height 1 (t_main (fst (step Debug fresh emit_good))) =
    Some (block_dump (emitted Debug fresh emit_good)) /\
  mc_find_raw_by_height 2 (t_main (fst (step Debug fresh emit_good))) = None.
Proof. vm_compute. auto. Qed.

(** C32 *)
Theorem C32_find_by_hash : forall ok p n t h, reachable ok p n t -> few n ->
  (forall d, mc_find_raw_by_hash h (t_main t) = Ok (Some d) ->
     sha256 d = h /\ exists i, i < mc_get_height (t_main t) /\ mc_find_raw_by_height i (t_main t) = Some d) /\
  (mc_find_raw_by_hash h (t_main t) = Ok None ->
     forall i d, mc_find_raw_by_height i (t_main t) = Some d -> sha256 d <> h) /\
  exists r, mc_find_raw_by_hash h (t_main t) = Ok r.
Proof. exact p_C32_find_by_hash. Qed.
Print Assumptions C32_find_by_hash.

Example C32_ex : let t := fst (step Debug fresh emit_good) in
  mc_find_raw_by_hash (block_hash (last_of fresh)) (t_main t) = Ok (Some (block_dump (last_of fresh))) /\
  mc_find_raw_by_hash (repeat 0 32) (t_main t) = Ok None.
Proof. vm_compute. auto. Qed.

(** C33, what holds: [add_block] accepts a block exactly when its height is the
    chain's; nothing else about the block is tested. *)
Theorem C33_add_block_partial : forall ok p n t b, reachable ok p n t -> few n ->
  (snd (mc_add_block b (t_main t)) = Ok tt <-> bi_height (get_info b) = mc_get_height (t_main t)).
Proof. exact p_C33_add_block_partial. Qed.
Print Assumptions C33_add_block_partial.

(** C33 is false of the code: an invalid block is accepted. *)
Theorem C33_add_block_refuted : forall p, exists t b prev,
  reachable any_op p 0 t /\ block_wf b /\ mc_get_last_block (t_main t) = Ok (Some prev) /\
  validate p b (Some prev) = Ok false /\ snd (mc_add_block b (t_main t)) = Ok tt.
Proof. exact p_C33_add_block_refuted. Qed.
Print Assumptions C33_add_block_refuted.

(** C34 for histories that never add a derivative block to the main chain by hand. *)
Theorem C34_last_block_partial : forall p n t, reachable main_kinds p n t -> few n ->
  exists b, mc_get_last_block (t_main t) = Ok (Some b) /\
    bi_height (get_info b) + 1 = mc_get_height (t_main t) /\ mc_get_last_raw_block (t_main t) = Ok (Some (block_dump b)).
Proof. exact p_C34_last_block_partial. Qed.
Print Assumptions C34_last_block_partial.

(** C34 is false of the code: the public [add_new_block] accepts a derivative block
    on the main chain, after which the last block cannot be read, and emission and
    transactions fail. *)
Theorem C34_last_block_refuted : forall p, exists t b,
  t = fst (step p fresh (OAddNewBlock b [])) /\ block_wf b /\
  snd (step p fresh (OAddNewBlock b [])) = Ok RUnit /\ reachable any_op p 1 t /\
  mc_get_last_block (t_main t) = Err EChainFindByHeight /\
  (forall pow founder txs ts, exists e, snd (t_emmit_new_main_block p pow founder txs ts t) = Err e) /\
  (forall owner, assoc_get owner (t_derivs t) = None -> exists e, snd (t_get_derivative_chain owner t) = Err e).
Proof. exact p_C34_last_block_refuted. Qed.
Print Assumptions C34_last_block_refuted.

Example C34_ex : main_kinds emit_good /\ reachable main_kinds Debug 1 (fst (step Debug fresh emit_good)).
Proof.
  split; [exact I|]. apply reach_call; [apply reach_open; vm_compute; reflexivity| |exact I].
  repeat split; repeat constructor; reflexivity.
Qed.

(** C35 *)
Theorem C35_emitted_chain_linked : forall p n t, reachable no_raw_main p n t -> few n ->
  exists L g,
    genesis_block = Ok g /\ hd_error L = Some g /\
    mc_get_height (t_main t) = N.of_nat (length L) /\
    (forall i b, nth_error L i = Some b -> mc_find_by_height (N.of_nat i) (t_main t) = Ok (Some b)) /\
    chained (main_link p) L.
Proof. exact p_C35_emitted_chain_linked. Qed.
Print Assumptions C35_emitted_chain_linked.

(** C35, genesis: the fixed first block. *)
Theorem C35_genesis : exists root, is_array 32 root /\ merkle_root_of [sha256
    (ROOT_PUBLIC_ADDRESS ++ [124] ++ u256_to_string COINS_PER_CYCLE ++ [124; 48])] root /\
  genesis_block = Ok (SummBlock (MkInfo 1597924800 (repeat 0 32) (repeat 0 32) 0 (127 :: repeat 255 31) ROOT_PUBLIC_ADDRESS) root).
Proof. exact p_C35_genesis. Qed.
Print Assumptions C35_genesis.

Example C35_ex : reachable no_raw_main Release 1 (fst (step Release fresh emit_good)) /\ few 1 /\
  main_link Release (last_of fresh) (emitted Release fresh emit_good) /\
  u256_to_string 1050 = [49; 48; 53; 48].
Proof.
  split; [apply reach_call; [apply reach_open; vm_compute; reflexivity| |exact I];
          repeat split; repeat constructor; reflexivity|].
  split; [reflexivity|]. split; [|reflexivity].
  destruct (emitted Release fresh emit_good) as [fee root i txs|i|i root] eqn:E; [|vm_compute in E; discriminate..].
  vm_compute in E. injection E as <- <- <- <-.
  split; [exists 1%nat; split; [split; [|right]; cbn; auto with arith|vm_compute; reflexivity]|].
  split; [discriminate|]. split; [vm_compute; reflexivity|]. split; [vm_compute; discriminate|].
  split; [vm_compute; reflexivity|]. split; [vm_compute; reflexivity|]. split; [vm_compute; reflexivity|].
  unfold work. apply N.leb_le. vm_compute. reflexivity.
Qed.

(** C36 *)
Theorem C36_block_kinds : forall ok p n t pow founder txs ts,
  reachable ok p n t -> few n ->
  is_array 32 pow -> is_array 33 founder -> Forall (is_array 32) txs -> u64_ok ts ->
  let h := mc_get_height (t_main t) in
  match snd (t_emmit_new_main_block p pow founder txs ts t) with
  | Ok (SummBlock i _) => h mod 1000000 = 0 /\ txs = [] /\ bi_height i = h
  | Ok (TxBlock _ root i l) => h mod 1000000 <> 0 /\ txs <> [] /\ l = txs /\ bi_height i = h /\ merkle_root_of txs root
  | Ok (DerivBlock _) => False
  | _ => True
  end.
Proof. exact p_C36_block_kinds. Qed.
Print Assumptions C36_block_kinds.

(** C37 for the main chain: a refused (or panicking) emission leaves the tree as it was. *)
Theorem C37_refused_main_emission : forall ok p n t pow founder txs ts,
  reachable ok p n t -> few n ->
  is_array 32 pow -> is_array 33 founder -> Forall (is_array 32) txs -> u64_ok ts ->
  (forall b, snd (t_emmit_new_main_block p pow founder txs ts t) <> Ok b) ->
  fst (t_emmit_new_main_block p pow founder txs ts t) = t.
Proof. exact p_C37_refused_main_emission. Qed.
Print Assumptions C37_refused_main_emission.

Example C37_ex : snd (t_emmit_new_main_block Debug (repeat 1 32) addrA [txh] 1597925000 fresh) = Err ETreeWrongPow /\
  snd (t_emmit_new_main_block Debug (repeat 3 32) addrA [txh] 5 fresh) = Panic.
Proof. vm_compute. auto. Qed.

(** C38 in debug builds *)
Theorem C38_timestamps_partial : forall n t, reachable no_raw_main Debug n t -> few n ->
  forall i b b', mc_find_by_height i (t_main t) = Ok (Some b) -> mc_find_by_height (i + 1) (t_main t) = Ok (Some b') ->
  bi_timestamp (get_info b) <= bi_timestamp (get_info b').
Proof. exact p_C38_timestamps_partial. Qed.
Print Assumptions C38_timestamps_partial.

(** C38 is false in release builds: the subtraction wraps and a block older than its
    predecessor is accepted (and counts as slow, easing the difficulty). *)
Theorem C38_timestamps_refuted : exists t b b',
  reachable no_raw_main Release 1 t /\ mc_find_by_height 0 (t_main t) = Ok (Some b) /\
  mc_find_by_height 1 (t_main t) = Ok (Some b') /\ bi_timestamp (get_info b') < bi_timestamp (get_info b).
Proof. exact p_C38_timestamps_refuted. Qed.
Print Assumptions C38_timestamps_refuted.

