(** Property C105: following another node.
    Only theorem statements (closed by [exact]), examples showing that their
    premises are met, and the assumptions of each theorem. *)
From Coq Require Import Lia ZifyBool ZifyNat ZifyN.
From Verif Require Import Base Sha256 Merkle Tools Transaction Block Sled Chain Tree Spec Reach Demo FollowSpec.
From Verif Require Import BaseFacts ToolsFacts MerkleFacts DiffFacts CodecFacts SledFacts ChainFacts TreeFacts ValidateProps MainProps LedgerFacts EpochDemo.
From Verif Require Import FollowProps.

(** C105, blocks received in any order: a node whose chain is a beginning of [tA]'s and which is sent dumps of [tA]'s blocks, in any order and any number of times, still has a beginning of [tA]'s chain; each dump is added when it is the next one and refused otherwise, and the balances do not change. *)
Theorem C105_any_order_partial : forall ok p n tA q m tB ds, reachable ok p n tA -> few n -> reachable any_op q m tB -> few m ->
  behind tB tA -> Forall (fun d => exists i, dump_at i tA = Some d) ds ->
  behind (receive_all ds tB) tA /\ behind tB (receive_all ds tB) /\ same_ledgers (receive_all ds tB) tB /\
  (exists k, N.of_nat k = height (receive_all ds tB) - height tB /\ reachable any_op q (m + k) (receive_all ds tB)).
Proof. exact p_C105_any_order_partial. Qed.
Print Assumptions C105_any_order_partial.

Example C105_any_order_ex : let tA := fst (step Debug fresh emit_good) in let d := block_dump (emitted Debug fresh emit_good) in let g := block_dump (last_of fresh) in
  behind fresh tA /\ dump_at 1 tA = Some d /\ dump_at 0 tA = Some g /\ snd (receive g fresh) = Err EChainAddingBlock /\ snd (receive d fresh) = Ok tt /\
  height (receive_all [d; g; d] fresh) = 2.
Proof. cbv zeta. split; [split; [vm_compute; discriminate|]; intros i Hi; change (height fresh) with 1 in Hi; replace i with 0 by lia; vm_compute; reflexivity|]. vm_compute. repeat split. Qed.

(** C105, one dump: it is added exactly when it is the one at the receiver's height, otherwise it is refused and nothing changes. *)
Theorem C105_one_partial : forall p n tA q m tB i d, reachable main_kinds p n tA -> few n -> reachable any_op q m tB -> few m ->
  behind tB tA -> dump_at i tA = Some d ->
  (i = height tB -> snd (receive d tB) = Ok tt /\ height (fst (receive d tB)) = height tB + 1 /\ dump_at i (fst (receive d tB)) = Some d) /\
  (i <> height tB -> receive d tB = (tB, Err EChainAddingBlock)).
Proof. exact p_C105_one_partial. Qed.
Print Assumptions C105_one_partial.

Example C105_one_ex : let tA := fst (step Debug fresh emit_good) in reachable main_kinds Debug 1 tA /\ height fresh = 1 /\ dump_at 1 tA <> None.
Proof. split; [apply reach_call; [apply fresh_reachable|repeat split; repeat constructor; reflexivity|exact I]|]. split; [reflexivity|]. vm_compute. discriminate. Qed.

(** C105, all blocks received: when the missing dumps are among the received ones in the order of heights, with anything from the chain in between, the receiver ends with the sender's chain. *)
Theorem C105_all_received_partial : forall p n tA q m tB ds, reachable main_kinds p n tA -> few n -> reachable any_op q m tB -> few m ->
  behind tB tA -> Forall (fun d => exists i, dump_at i tA = Some d) ds ->
  subseq (dumps_from (height tB) (N.to_nat (height tA - height tB)) tA) (map Some ds) -> level (receive_all ds tB) tA.
Proof. exact p_C105_all_received_partial. Qed.
Print Assumptions C105_all_received_partial.

Example C105_all_received_ex : let tA := fst (step Debug fresh emit_good) in let d := block_dump (emitted Debug fresh emit_good) in let g := block_dump (last_of fresh) in
  subseq (dumps_from (height fresh) (N.to_nat (height tA - height fresh)) tA) (map Some [g; d; g]).
Proof. cbv zeta. cbn [map]. apply sub_skip. replace (dumps_from _ _ _) with [Some (block_dump (emitted Debug fresh emit_good))] by (vm_compute; reflexivity). apply sub_take, sub_nil. Qed.

(** C105, two nodes with the same chain give the same answers about it; answers to lookups by hash can differ only by showing a collision of SHA-256. *)
Theorem C105_answers_partial : forall okA okB p q n m tA tB, reachable okA p n tA -> few n -> reachable okB q m tB -> few m -> level tB tA ->
  (forall i, mc_find_by_height i (t_main tB) = mc_find_by_height i (t_main tA)) /\ mc_get_last_block (t_main tB) = mc_get_last_block (t_main tA) /\
  (forall h, mc_find_raw_by_hash h (t_main tB) = mc_find_raw_by_hash h (t_main tA) \/
     exists d e, collision d e /\ mc_find_raw_by_hash h (t_main tB) = Ok (Some d) /\ mc_find_raw_by_hash h (t_main tA) = Ok (Some e)).
Proof. exact p_C105_answers_partial. Qed.
Print Assumptions C105_answers_partial.

Example C105_answers_ex : let tA := fst (step Debug fresh emit_good) in let tB := receive_all [block_dump (emitted Debug fresh emit_good)] fresh in
  level tB tA.
Proof. apply (p_C105_all_received_partial Debug 1 _ Debug 0).
  - apply reach_call; [apply fresh_reachable|repeat split; repeat constructor; reflexivity|exact I].
  - reflexivity.
  - apply fresh_reachable.
  - reflexivity.
  - split; [vm_compute; discriminate|]; intros i Hi; change (height fresh) with 1 in Hi; replace i with 0 by lia; vm_compute; reflexivity.
  - constructor; [|constructor]. exists 1. vm_compute. reflexivity.
  - replace (dumps_from _ _ _) with [Some (block_dump (emitted Debug fresh emit_good))] by (vm_compute; reflexivity). apply sub_take, sub_nil.
Qed.

(** C105, two nodes with the same chain emit the same block from the same arguments, or fail alike, and have the same chain again, unless an epoch is closed; then the condition is that their summaries agree. *)
Theorem C105_emission_partial : forall okA okB p n m tA tB pow founder txs ts, reachable okA p n tA -> few n -> reachable okB p m tB -> few m -> level tB tA ->
  is_array 32 pow -> is_array 33 founder -> Forall (is_array 32) txs -> u64_ok ts ->
  height tA mod BLOCKS_PER_EPOCH <> 0 \/ t_summarize tB = t_summarize tA ->
  snd (t_emmit_new_main_block p pow founder txs ts tB) = snd (t_emmit_new_main_block p pow founder txs ts tA) /\
  level (fst (t_emmit_new_main_block p pow founder txs ts tB)) (fst (t_emmit_new_main_block p pow founder txs ts tA)).
Proof. exact p_C105_emission_partial. Qed.
Print Assumptions C105_emission_partial.

Example C105_emission_ex : let t := fresh in height t mod BLOCKS_PER_EPOCH <> 0 /\ level t t /\ exists b, snd (step Debug t emit_good) = Ok (RBlock b).
Proof. split; [vm_compute; discriminate|]. split; [split; reflexivity|]. eexists. vm_compute. reflexivity. Qed.

(** C105 is false as stated, when an epoch is closed: two nodes with the same chain and the same balances (one of them once gave an account five coins and took them back) emit different blocks. *)
Theorem C105_root_refuted : forall p, exists n m tA tB pow founder ts a b, reachable main_kinds p n tA /\ few n /\ reachable main_kinds p m tB /\ few m /\ level tB tA /\ same_ledgers tB tA /\
  is_array 32 pow /\ is_array 33 founder /\ u64_ok ts /\
  snd (t_emmit_new_main_block p pow founder [] ts tA) = Ok a /\ snd (t_emmit_new_main_block p pow founder [] ts tB) = Ok b /\ a <> b.
Proof. exact p_C105_root_refuted. Qed.
Print Assumptions C105_root_refuted.

(** ... and balances: two nodes opened alike, with the same chain and the same balances; one closes the epoch by emitting, the other receives that block.  The chains are the same again, but the root account is refilled only on the first. *)
Theorem C105_reset_refuted : forall p, exists n t pow founder ts b, reachable main_kinds p n t /\ few n /\ is_array 32 pow /\ is_array 33 founder /\ u64_ok ts /\
  let tA := fst (t_emmit_new_main_block p pow founder [] ts t) in let tB := fst (receive (block_dump b) t) in
  snd (t_emmit_new_main_block p pow founder [] ts t) = Ok b /\ snd (receive (block_dump b) t) = Ok tt /\ level tB tA /\
  t_get_amount ROOT_PUBLIC_ADDRESS tA = Ok COINS_PER_CYCLE /\ t_get_amount ROOT_PUBLIC_ADDRESS tB = Ok (COINS_PER_CYCLE - 5).
Proof. exact p_C105_reset_refuted. Qed.
Print Assumptions C105_reset_refuted.

