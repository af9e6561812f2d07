(** The transaction pool.
    Only theorem statements (closed by [exact]), examples showing that their
    premises are met, and the assumptions of each theorem. *)
From Coq Require Import Lia ZifyBool ZifyNat ZifyN Permutation Sorted.
From Verif Require Import Base Transaction TxPool Spec PoolSpec Demo.
From Verif Require Import BaseFacts ToolsFacts CodecFacts MerkleFacts PoolFacts.
From Verif Require Import PoolProps.

(** C53. After any calls: no two pooled transactions have the same hash; [len] is the number of pooled
   transactions; [is_empty] and [transaction_exists] agree with what iteration yields. *)
Theorem C53_pool_contents : forall e calls, let p := pool_after e calls in
  NoDup (map tx_hash (pool_iter p)) /\ pool_len p = length (pool_iter p) /\
  (pool_is_empty p = true <-> pool_iter p = []) /\
  (forall h, pool_exists h p = true <-> exists tx, In tx (pool_iter p) /\ tx_hash tx = h).
Proof. exact p_C53_pool_contents. Qed.
Print Assumptions C53_pool_contents.

(** C53. [push] returns true exactly when no pooled transaction has that hash; then the transaction is added, otherwise
   nothing changes. *)
Theorem C53_push : forall e calls tx, let p := pool_after e calls in let '(p', r) := pool_push e tx p in
  (r = true <-> forall x, In x (pool_iter p) -> tx_hash x <> tx_hash tx) /\
  (if r then Permutation (pool_iter p') (tx :: pool_iter p) else p' = p).
Proof. exact p_C53_push. Qed.
Print Assumptions C53_push.

(** C54. [pop] returns a pooled transaction that comes before all others (least timestamp, ties by hash read as four native words),
   with its hash, and removes exactly it; it returns nothing exactly on an empty pool. *)
Theorem C54_pop : forall e calls, let p := pool_after e calls in
  match pool_pop e p with
  | (p', Some (h, tx)) => h = tx_hash tx /\ Permutation (pool_iter p) (tx :: pool_iter p') /\
      (forall y, In y (pool_iter p) -> before e tx y) /\ p' = pool_after e (calls ++ [PPop])
  | (p', None) => p' = p /\ pool_iter p = []
  end.
Proof. exact p_C54_pop. Qed.
Print Assumptions C54_pop.

(** C54. Emptying a pool yields every pooled transaction once, in order. *)
Theorem C54_drain : forall e calls, let p := pool_after e calls in
  Permutation (pool_drain e (pool_len p) p) (pool_iter p) /\ StronglySorted (before e) (pool_drain e (pool_len p) p).
Proof. exact p_C54_drain. Qed.
Print Assumptions C54_drain.

Definition pool_txs : list transaction :=
  map (fun t => tx_new_signed addrA addrB t 5 None (repeat 1 64)) [30; 10; 20] ++ [demo_tx 1 (repeat 1 64); demo_tx 2 (repeat 1 64)].
Example C53_ex_push : let p := pool_after LittleEndian (map PPush (pool_txs ++ pool_txs)) in
  (pool_len p, length (pool_iter p), snd (pool_push LittleEndian (demo_tx 1 (repeat 1 64)) p), snd (pool_push LittleEndian (demo_tx 3 (repeat 1 64)) p))
  = (5%nat, 5%nat, false, true).
Proof. vm_compute. reflexivity. Qed.
Example C54_ex_drain : let p := pool_after LittleEndian (map PPush pool_txs) in
  map tx_timestamp (pool_iter p) = [10; 30; 20; 1700000000; 1700000000] /\
  map tx_timestamp (pool_drain LittleEndian 5 p) = [10; 20; 30; 1700000000; 1700000000].
Proof. split; vm_compute; reflexivity. Qed.

(** C55. The ordering of transactions is total, transitive and antisymmetric; [cmp] is [Equal] exactly for equal timestamps and equal hashes,
   hence only for transactions that are [==].
   Missing: the converse, see [C55_equality_disagrees_refuted]. *)
Theorem C55_order_laws_partial : forall e a b c,
  is_array 32 (tx_hash a) -> is_array 32 (tx_hash b) ->
  tx_cmp e a a = Eq /\ tx_cmp e a b = CompOpp (tx_cmp e b a) /\
  (tx_le e a b = true \/ tx_le e b a = true) /\
  (tx_le e a b = true -> tx_le e b c = true -> tx_le e a c = true) /\
  (tx_cmp e a b = Lt -> tx_cmp e b c = Lt -> tx_cmp e a c = Lt) /\
  (tx_cmp e a b = Eq <-> tx_timestamp a = tx_timestamp b /\ tx_hash a = tx_hash b) /\
  (tx_cmp e a b = Eq -> tx_eq a b = true) /\
  (tx_cmp e a b <> Gt <-> before e b a).
Proof. exact p_C55_order_laws_partial. Qed.
Print Assumptions C55_order_laws_partial.

(** C55 fails for [==]: it compares timestamps only, so different transactions that [cmp] orders strictly are [==]. *)
Theorem C55_equality_disagrees_refuted : forall e, exists a b, tx_wf a /\ tx_wf b /\
  tx_eq a b = true /\ tx_cmp e a b <> Eq /\ tx_amount a <> tx_amount b.
Proof. exact p_C55_equality_disagrees_refuted. Qed.
Print Assumptions C55_equality_disagrees_refuted.

Example C55_ex_laws : is_array 32 (tx_hash (demo_tx 1 (repeat 1 64))) /\
  map (fun e => tx_cmp e (demo_tx 1 (repeat 1 64)) (demo_tx 2 (repeat 1 64))) [LittleEndian; BigEndian] = [Gt; Lt].
Proof. split; [exact (sha256_array _)|vm_compute; reflexivity]. Qed.

(** C70. The order in which a pool releases its transactions depends only on which transactions it holds, not on
   the order of the calls that led there. *)
Theorem C70_release_order_is_history_independent : forall e calls calls',
  hashes_ok calls -> Permutation (pool_iter (pool_after e calls)) (pool_iter (pool_after e calls')) ->
  pool_drain e (pool_len (pool_after e calls)) (pool_after e calls) =
  pool_drain e (pool_len (pool_after e calls')) (pool_after e calls').
Proof. exact p_C70_release_order_is_history_independent. Qed.
Print Assumptions C70_release_order_is_history_independent.

Example C70_ex : let c := map PPush pool_txs in let c' := map PPush (rev pool_txs) in
  hashes_ok c /\ Permutation (pool_iter (pool_after LittleEndian c)) (pool_iter (pool_after LittleEndian c')) /\
  pool_iter (pool_after LittleEndian c) <> pool_iter (pool_after LittleEndian c').
Proof.
  split; [unfold hashes_ok, pool_txs; cbn [map app]; repeat (apply Forall_cons; [exact (sha256_array _)|]); apply Forall_nil|].
  split; [|intros H; vm_compute in H; discriminate H].
  assert (G : forall e l, NoDup (map tx_hash l) -> Permutation (pool_iter (pool_after e (map PPush l))) l).
  { intros e l. induction l as [|x l IH] using rev_ind; intros H; [constructor|]. rewrite map_app in H |- *.
    unfold pool_after, pool_run. rewrite fold_left_app. cbn [map fold_left pool_step]. fold (pool_run e pool_new (map PPush l)). fold (pool_after e (map PPush l)).
    pose proof (C53_push e (map PPush l) x) as P. cbn zeta in P. destruct (pool_push e x (pool_after e (map PPush l))) as [p' r]. destruct P as [P1 P2]. cbn [fst].
    apply NoDup_remove in H. rewrite app_nil_r in H. destruct H as [H1 H2]. specialize (IH H1).
    assert (r = true) as ->.
    { apply P1. intros y Hy E. apply H2. cbn [map] in *. rewrite <- E. apply in_map. eapply Permutation_in; eassumption. }
    etransitivity; [exact P2|]. etransitivity; [apply perm_skip, IH|apply Permutation_cons_append]. }
  etransitivity; [apply G|symmetry; etransitivity; [apply G|symmetry; apply Permutation_rev]].
  - repeat (constructor; [intros H; vm_compute in H; intuition discriminate|]). constructor.
  - repeat (constructor; [intros H; vm_compute in H; intuition discriminate|]). constructor.
Qed.

(** C71. The release order of equally old transactions depends on the byte order of the machine: two machines with the same pool
   release them in different orders. *)
Theorem C71_order_depends_on_machine_refuted : exists calls,
  hashes_ok calls /\ Permutation (pool_iter (pool_after LittleEndian calls)) (pool_iter (pool_after BigEndian calls)) /\
  pool_drain LittleEndian (pool_len (pool_after LittleEndian calls)) (pool_after LittleEndian calls) <>
  pool_drain BigEndian (pool_len (pool_after BigEndian calls)) (pool_after BigEndian calls).
Proof. exact p_C71_order_depends_on_machine_refuted. Qed.
Print Assumptions C71_order_depends_on_machine_refuted.

(** C71, what holds: transactions with different timestamps are released in the same order on every machine. *)
Theorem C71_timestamps_order_on_every_machine_partial : forall a b,
  tx_timestamp a <> tx_timestamp b -> tx_cmp LittleEndian a b = tx_cmp BigEndian a b.
Proof. exact p_C71_timestamps_order_on_every_machine_partial. Qed.
Print Assumptions C71_timestamps_order_on_every_machine_partial.

Example C71_ex : map (fun e => tx_cmp e (tx_new_signed addrA addrB 10 5 None (repeat 1 64)) (demo_tx 2 (repeat 1 64))) [LittleEndian; BigEndian] = [Gt; Gt].
Proof. vm_compute. reflexivity. Qed.

