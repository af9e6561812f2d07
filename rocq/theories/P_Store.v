(** Properties C49-C51, C56, C57: transaction store, epoch summary, reopening.
    Only theorem statements (closed by [exact]), examples showing that their
    premises are met, and the assumptions of each theorem. *)
From Coq Require Import Lia ZifyBool ZifyNat ZifyN Sorted.
From Verif Require Import Base Sha256 Merkle Tools Transaction Block Sled Chain Tree Spec Reach LedgerSpec Demo.
From Verif Require Import BaseFacts ToolsFacts MerkleFacts DiffFacts CodecFacts SledFacts ChainFacts TreeFacts LedgerFacts MainProps EpochDemo LedgerProps.
From Verif Require Import StoreProps.

(** C49: what is stored under a hash has that hash and is the dump of a transaction. *)
Theorem C49_store_sound : forall ok p n t h d, reachable ok p n t -> few n ->
  mc_get_transaction_raw h (t_main t) = Some d -> sha256 d = h /\ exists tx, tx_wf tx /\ d = tx_dump tx.
Proof. exact p_C49_store_sound. Qed.
Print Assumptions C49_store_sound.

(** C49: a stored transaction stays stored under every later history, unless a SHA-256 collision with it is sent. *)
Theorem C49_stays_stored : forall ok p n t ops h d, reachable ok p n t -> few (n + length ops) -> Forall op_wf ops ->
  mc_get_transaction_raw h (t_main t) = Some d ->
  mc_transaction_exists h (t_main (run p t ops)) = true /\
  (mc_get_transaction_raw h (t_main (run p t ops)) = Some d \/
   exists d', mc_get_transaction_raw h (t_main (run p t ops)) = Some d' /\ collision d d').
Proof. exact p_C49_stays_stored. Qed.
Print Assumptions C49_stays_stored.

(** C49: every transaction handed to a successful call is stored afterwards (up to a collision among them). *)
Theorem C49_added : forall ok p n t o r tx, reachable ok p n t -> few n -> op_wf o ->
  snd (step p t o) = Ok r ->
  In tx (match o with OSendTx tx => [tx] | OAddNewBlock _ txs | OAddTxs txs => txs | _ => [] end) ->
  exists d, mc_get_transaction_raw (sha256 (tx_dump tx)) (t_main (fst (step p t o))) = Some d /\
    (d = tx_dump tx \/ collision (tx_dump tx) d).
Proof. exact p_C49_added. Qed.
Print Assumptions C49_added.

(** C49: a hash that no call was asked to store stays absent. *)
Theorem C49_absent : forall p t ops h,
  mc_transaction_exists h (t_main t) = false ->
  Forall (fun o => forall tx, In tx (match o with OSendTx tx => [tx] | OAddNewBlock _ txs | OAddTxs txs => txs | _ => [] end) ->
                   sha256 (tx_dump tx) <> h) ops ->
  mc_transaction_exists h (t_main (run p t ops)) = false /\ mc_get_transaction h (t_main (run p t ops)) = Ok None.
Proof. exact p_C49_absent. Qed.
Print Assumptions C49_absent.

(** C49: reading a stored transaction gives it back, unless its data is the empty vector. *)
Theorem C49_get_transaction_partial : forall m h tx, tx_wf tx -> tx_hash tx = sha256 (tx_dump tx) -> tx_data tx <> Some [] ->
  mc_get_transaction_raw h m = Some (tx_dump tx) -> mc_get_transaction h m = Ok (Some tx).
Proof. exact p_C49_get_transaction_partial. Qed.
Print Assumptions C49_get_transaction_partial.

(** C49 is false for empty data: the transaction read back has none. *)
Theorem C49_empty_data_refuted : forall p, exists t tx tx', reachable any_op p 1 t /\ tx_wf tx /\
  t = fst (step p fresh (OAddTxs [tx])) /\
  mc_get_transaction (tx_hash tx) (t_main t) = Ok (Some tx') /\ tx_data tx = Some [] /\ tx_data tx' = None.
Proof. exact p_C49_empty_data_refuted. Qed.
Print Assumptions C49_empty_data_refuted.

Example C49_ex : let tx := demo_tx 1000 (repeat 7 64) in
  let t := fst (step Debug fresh (OAddTxs [demo_tx 3 (repeat 7 64); tx])) in
  mc_get_transaction (tx_hash tx) (t_main t) = Ok (Some tx) /\ mc_transaction_exists (repeat 0 32) (t_main t) = false /\
  tx_hash tx = sha256 (tx_dump tx).
Proof. vm_compute. auto. Qed.

(** C50, what the root is: the merkle root over one leaf per account of the amount database, in
    address order.  These include every account with a non-zero amount; an account that once had an
    entry stays, with amount 0.  The gas is that of the account, or nothing if it never had gas. *)
Theorem C50_summary_root_partial : forall ok p n t root, reachable ok p n t -> few n -> t_summarize t = Ok root ->
  exists E : list (bytes * N * option N),
    merkle_root_of (map (fun '(w, x, g) => sha256 (leaf_text w x g)) E) root /\
    Sorted before (map (fun '(w, _, _) => w) E) /\
    (forall w x g, In (w, x, g) E -> x < 2 ^ 256 /\ t_get_amount w t = Ok x /\
       t_get_gas w t = Ok (match g with Some y => y | None => 0 end)) /\
    (forall w x, t_get_amount w t = Ok x -> x <> 0 -> exists g, In (w, x, g) E).
Proof. exact p_C50_summary_root_partial. Qed.
Print Assumptions C50_summary_root_partial.

(** C50, leaves: for 33-byte addresses a leaf determines account, amount and gas, up to SHA-256 collisions. *)
Theorem C50_leaf_binding : forall w x g w' x' g', length w = 33%nat -> length w' = 33%nat ->
  u256_ok x -> u256_ok x' -> match g with Some y => u256_ok y | None => True end -> match g' with Some y => u256_ok y | None => True end ->
  sha256 (leaf_text w x g) = sha256 (leaf_text w' x' g') ->
  (w = w' /\ x = x' /\ g = g') \/ collision (leaf_text w x g) (leaf_text w' x' g').
Proof. exact p_C50_leaf_binding. Qed.
Print Assumptions C50_leaf_binding.

(** C50 is false of the code: the root is not determined by the balances (an account with balance 0
    may or may not have a leaf) ... *)
Theorem C50_same_balances_refuted : forall p, exists t t' f g,
  reachable any_op p 0 t /\ reachable any_op p 1 t' /\ amounts t f /\ amounts t' f /\ gases t g /\ gases t' g /\
  t_summarize t <> t_summarize t'.
Proof. exact p_C50_same_balances_refuted. Qed.
Print Assumptions C50_same_balances_refuted.

(** ... and the gas of an account that never had an amount is not committed to. *)
Theorem C50_gas_uncommitted_refuted : forall p, exists t t',
  reachable any_op p 0 t /\ reachable any_op p 1 t' /\ t_get_gas addrA t = Ok 0 /\ t_get_gas addrA t' = Ok 5 /\
  exists root, t_summarize t = Ok root /\ t_summarize t' = Ok root.
Proof. exact p_C50_gas_uncommitted_refuted. Qed.
Print Assumptions C50_gas_uncommitted_refuted.

Example C50_ex : exists root, t_summarize funded = Ok root /\ merkle_root_of
  [sha256 (leaf_text addrA 1000000000 (Some (10 ^ 18))); sha256 (leaf_text ROOT_PUBLIC_ADDRESS COINS_PER_CYCLE None)] root.
Proof.
  eexists. split; [vm_compute; reflexivity|]. exists 2%nat. split; [split; [|right]; cbn; auto with arith|vm_compute; reflexivity].
Qed.

(** C51 *)
Theorem C51_epoch_rotation : forall ok p n t f g pow founder txs ts t' i root,
  reachable ok p n t -> few n ->
  is_array 32 pow -> is_array 33 founder -> Forall (is_array 32) txs -> u64_ok ts -> amounts t f -> gases t g ->
  t_emmit_new_main_block p pow founder txs ts t = (t', Ok (SummBlock i root)) ->
  t_summarize t = Ok root /\
  (forall w, sled_get w (t_old_summary t') = sled_get w (t_summary t) /\ sled_get w (t_old_gas t') = sled_get w (t_gas t)) /\
  (forall w, led_get w (t_old_summary t') = Ok (f w) /\ led_get w (t_old_gas t') = Ok (g w)) /\
  amounts t' (upd f ROOT_PUBLIC_ADDRESS COINS_PER_CYCLE) /\ gases t' g.
Proof. exact p_C51_epoch_rotation. Qed.
Print Assumptions C51_epoch_rotation.

(** C51, emissions that close no epoch leave the balances alone. *)
Theorem C51_no_rotation : forall ok p n t pow founder txs ts t' r, reachable ok p n t -> few n ->
  is_array 32 pow -> is_array 33 founder -> Forall (is_array 32) txs -> u64_ok ts ->
  t_emmit_new_main_block p pow founder txs ts t = (t', r) -> (forall i root, r <> Ok (SummBlock i root)) ->
  t_summary t' = t_summary t /\ t_gas t' = t_gas t /\ t_old_summary t' = t_old_summary t /\ t_old_gas t' = t_old_gas t.
Proof. exact p_C51_no_rotation. Qed.
Print Assumptions C51_no_rotation.

(* An epoch is closed: the emission of theorem C36_epoch_reached. *)
Example C51_ex : exists t pow founder ts t' i root, reachable main_kinds Debug (N.to_nat 999999) t /\
  t_emmit_new_main_block Debug pow founder [] ts t = (t', Ok (SummBlock i root)).
Proof.
  destruct (p_C36_epoch_reached Debug) as (t & pow & founder & ts & i & root & H & _ & _ & _ & _ & E & _).
  exists t, pow, founder, ts. destruct (t_emmit_new_main_block Debug pow founder [] ts t) as [t' r]. cbn [snd] in E. subst r.
  exists t', i, root. split; [exact H|reflexivity].
Qed.

(** C56 *)
Theorem C56_reopen_main_chain : forall ok p n t, reachable ok p n t -> few n ->
  exists t', t_new (t_close (t_flush t)) = Ok t' /\
    mc_get_height (t_main t') = mc_get_height (t_main t) /\
    (forall i, mc_find_raw_by_height i (t_main t') = mc_find_raw_by_height i (t_main t)) /\
    (forall i, mc_find_by_height i (t_main t') = mc_find_by_height i (t_main t)) /\
    (forall h, mc_find_raw_by_hash h (t_main t') = mc_find_raw_by_hash h (t_main t)) /\
    (forall h, mc_find_by_hash h (t_main t') = mc_find_by_hash h (t_main t)) /\
    mc_get_last_raw_block (t_main t') = mc_get_last_raw_block (t_main t) /\
    mc_get_last_block (t_main t') = mc_get_last_block (t_main t) /\
    (forall h, mc_transaction_exists h (t_main t') = mc_transaction_exists h (t_main t)) /\
    (forall h, mc_get_transaction_raw h (t_main t') = mc_get_transaction_raw h (t_main t)) /\
    (forall h, mc_get_transaction h (t_main t') = mc_get_transaction h (t_main t)).
Proof. exact p_C56_reopen_main_chain. Qed.
Print Assumptions C56_reopen_main_chain.

(* The chain that is reopened has a block and a transaction. *)
Example C56_ex : let t := fst (step Debug (fst (step Debug funded (OAddTxs [demo_tx 5 (repeat 7 64)]))) emit_good) in
  mc_get_height (t_main t) = 2 /\ mc_transaction_exists (tx_hash (demo_tx 5 (repeat 7 64))) (t_main t) = true.
Proof. split; vm_compute; reflexivity. Qed.

(** C57, what holds: gas always survives; amounts survive except that the root account is set to
    COINS_PER_CYCLE when the chain has its genesis block only. *)
Theorem C57_reopen_balances_partial : forall ok p n t f g, reachable ok p n t -> few n -> amounts t f -> gases t g ->
  exists t', t_new (t_close (t_flush t)) = Ok t' /\ gases t' g /\
    amounts t' (if mc_get_height (t_main t) =? 1 then upd f ROOT_PUBLIC_ADDRESS COINS_PER_CYCLE else f) /\
    (forall w, led_get w (t_old_summary t') = led_get w (t_old_summary t) /\ led_get w (t_old_gas t') = led_get w (t_old_gas t)).
Proof. exact p_C57_reopen_balances_partial. Qed.
Print Assumptions C57_reopen_balances_partial.

(** C57 is false of the code: coins the root account has spent before the first block come back. *)
Theorem C57_reopen_root_refuted : forall p, exists t t', reachable any_op p 1 t /\
  t_new (t_close (t_flush t)) = Ok t' /\
  t_get_amount ROOT_PUBLIC_ADDRESS t = Ok 0 /\ t_get_amount ROOT_PUBLIC_ADDRESS t' = Ok COINS_PER_CYCLE /\
  t_get_amount addrA t = Ok COINS_PER_CYCLE /\ t_get_amount addrA t' = Ok COINS_PER_CYCLE.
Proof. exact p_C57_reopen_root_refuted. Qed.
Print Assumptions C57_reopen_root_refuted.

Example C57_ex : exists t', t_new (t_close (t_flush funded)) = Ok t' /\ t_get_amount addrA t' = Ok 1000000000 /\ t_get_gas addrA t' = Ok (10 ^ 18).
Proof. eexists. split; [vm_compute; reflexivity|]. split; vm_compute; reflexivity. Qed.

