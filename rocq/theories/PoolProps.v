(** Proofs of the transaction pool theorems. *)
From Coq Require Import Lia ZifyBool ZifyNat ZifyN Permutation Sorted.
From Verif Require Import Base Transaction TxPool Spec PoolSpec Demo.
From Verif Require Import BaseFacts ToolsFacts CodecFacts MerkleFacts PoolFacts.

Lemma hash_words_values e h : hash_words e h = word_values e h.
Proof.
  assert (W : forall l, word e l = be_val (native e l)) by (intros l; destruct e; cbn [word native]; rewrite be_val_from_be; reflexivity).
  unfold hash_words, word_values. rewrite !W. reflexivity.
Qed.

Lemma words_cmp_le l : forall r, length l = length r -> (words_cmp l r <> Gt <-> lex_le r l).
Proof.
  induction l as [|x l IH]; intros [|y r] H; try discriminate H; cbn [words_cmp lex_le].
  - split; [auto|discriminate].
  - injection H as H. specialize (IH r H). destruct (N.compare_spec x y) as [->|Hlt|Hgt].
    + split; [intros G; right; split; [reflexivity|apply IH, G]|intros [G|[_ G]]; [lia|apply IH, G]].
    + split; [intros G; exfalso; apply G; reflexivity|intros [G|[G _]]; lia].
    + split; [intros _; left; exact Hgt|discriminate].
Qed.
Lemma words_cmp_opp l : forall r, words_cmp l r = CompOpp (words_cmp r l).
Proof.
  induction l as [|x l IH]; intros [|y r]; cbn [words_cmp]; try reflexivity.
  rewrite (N.compare_antisym x y). destruct (N.compare x y); cbn [CompOpp]; [apply IH|reflexivity|reflexivity].
Qed.
Lemma words_cmp_eq l : forall r, length l = length r -> words_cmp l r = Eq -> l = r.
Proof.
  induction l as [|x l IH]; intros [|y r] H; try discriminate H; cbn [words_cmp]; [reflexivity|].
  injection H as H. destruct (N.compare_spec x y) as [->|?|?]; try discriminate. intros E. rewrite (IH r H E). reflexivity.
Qed.
Lemma words_cmp_refl l : words_cmp l l = Eq.
Proof. induction l as [|x l IH]; cbn [words_cmp]; [reflexivity|]. rewrite N.compare_refl. exact IH. Qed.
Lemma lex_le_trans a : forall b c, lex_le a b -> lex_le b c -> lex_le a c.
Proof.
  induction a as [|x a IH]; intros [|y b] [|z c]; cbn [lex_le]; try tauto.
  intros [H1|[-> H1]] [H2|[-> H2]]; [left; lia|left; lia|left; lia|right; split; [reflexivity|]; eapply IH; eassumption].
Qed.
Lemma lex_le_antisym a : forall b, lex_le a b -> lex_le b a -> a = b.
Proof.
  induction a as [|x a IH]; intros [|y b]; cbn [lex_le]; try tauto.
  intros [H1|[-> H1]] [H2|[E H2]]; try lia. rewrite (IH b H1 H2). reflexivity.
Qed.

Lemma tx_le_before e a b : tx_le e a b = true <-> before e b a.
Proof.
  unfold tx_le, tx_cmp, before. rewrite !hash_words_values.
  destruct (N.compare_spec (tx_timestamp a) (tx_timestamp b)) as [E|E|E].
  - pose proof (words_cmp_le (word_values e (tx_hash a)) (word_values e (tx_hash b)) eq_refl) as W.
    destruct (words_cmp (word_values e (tx_hash a)) (word_values e (tx_hash b))).
    + split; [intros _; right; split; [auto|apply W; discriminate]|reflexivity].
    + split; [intros _; right; split; [auto|apply W; discriminate]|reflexivity].
    + split; [discriminate|intros [G|[_ G]]; [lia|apply W in G; contradiction]].
  - split; [discriminate|intros [G|[G _]]; lia].
  - split; [intros _; left; exact E|reflexivity].
Qed.
Lemma before_trans e a b c : before e a b -> before e b c -> before e a c.
Proof.
  intros [H1|[H1 G1]] [H2|[H2 G2]]; [left; lia|left; lia|left; lia|right; split; [lia|eapply lex_le_trans; eassumption]].
Qed.
Lemma tx_cmp_opp e a b : tx_cmp e a b = CompOpp (tx_cmp e b a).
Proof.
  unfold tx_cmp. rewrite (N.compare_antisym (tx_timestamp a) (tx_timestamp b)).
  destruct (N.compare (tx_timestamp a) (tx_timestamp b)); cbn [CompOpp]; [apply words_cmp_opp|reflexivity|reflexivity].
Qed.
Lemma tx_le_total e a b : tx_le e a b = false -> tx_le e b a = true.
Proof. unfold tx_le. rewrite (tx_cmp_opp e a b). destruct (tx_cmp e b a); cbn [CompOpp]; intros E; try discriminate E; reflexivity. Qed.
Lemma tx_le_trans e a b c : tx_le e a b = true -> tx_le e b c = true -> tx_le e a c = true.
Proof. rewrite !tx_le_before. intros H1 H2. eapply before_trans; eassumption. Qed.

Lemma skipn_add {A} n k (l : list A) : skipn n (skipn k l) = skipn (k + n) l.
Proof. revert l. induction k as [|k IH]; intros l; [reflexivity|]. destruct l; [rewrite !skipn_nil; reflexivity|]. apply IH. Qed.
Lemma firstn_skipn_app {A} n k (l : list A) : firstn n (skipn k l) ++ skipn (k + n) l = skipn k l.
Proof. rewrite <- (firstn_skipn n (skipn k l)) at 2. rewrite skipn_add. reflexivity. Qed.
Lemma word_inj e (a b : bytes) : bytes_ok a -> bytes_ok b -> length a = length b -> be_val (native e a) = be_val (native e b) -> a = b.
Proof.
  intros Ha Hb Hl E. rewrite !be_val_from_be in E. destruct e; cbn [native] in E.
  - rewrite <- (rev_involutive a), <- (rev_involutive b). f_equal. apply from_be_inj; [apply Forall_rev, Ha|apply Forall_rev, Hb|rewrite !rev_length; exact Hl|exact E].
  - apply from_be_inj; assumption.
Qed.
Lemma word_values_inj e a b : is_array 32 a -> is_array 32 b -> word_values e a = word_values e b -> a = b.
Proof.
  intros [La Ha] [Lb Hb] E. unfold word_values in E. cbn [map] in E.
  apply cons_inv in E as [E0 E]. apply cons_inv in E as [E1 E]. apply cons_inv in E as [E2 E]. apply cons_inv in E as [E3 _].
  assert (W : forall k, (k + 8 <= 32)%nat -> be_val (native e (firstn 8 (skipn k a))) = be_val (native e (firstn 8 (skipn k b))) -> firstn 8 (skipn k a) = firstn 8 (skipn k b)).
  { intros k Hk G. apply (word_inj e); [apply bytes_ok_firstn, bytes_ok_skipn, Ha|apply bytes_ok_firstn, bytes_ok_skipn, Hb|rewrite !firstn_length, !skipn_length, La, Lb; reflexivity|exact G]. }
  change a with (skipn 0 a). change b with (skipn 0 b).
  rewrite <- (firstn_skipn_app 8 0 a), <- (firstn_skipn_app 8 0 b), (W 0%nat ltac:(lia) E0). f_equal. cbn [Nat.add].
  rewrite <- (firstn_skipn_app 8 8 a), <- (firstn_skipn_app 8 8 b), (W 8%nat ltac:(lia) E1). f_equal. cbn [Nat.add].
  rewrite <- (firstn_skipn_app 8 16 a), <- (firstn_skipn_app 8 16 b), (W 16%nat ltac:(lia) E2). f_equal. cbn [Nat.add].
  rewrite <- (firstn_skipn_app 8 24 a), <- (firstn_skipn_app 8 24 b), (W 24%nat ltac:(lia) E3). f_equal.
  rewrite !skipn_all2 by lia. reflexivity.
Qed.

(** ** The pool *)
Lemma set_mem_in h s : set_mem h s = true <-> In h s.
Proof.
  unfold set_mem. rewrite existsb_exists. split.
  - intros (x & Hx & E). apply bytes_eqb_eq in E as ->. exact Hx.
  - intros H. exists h. split; [exact H|apply bytes_eqb_refl].
Qed.

Record pool_inv (e : endian) (p : txpool) : Prop := {
  pi_heap : heap (tx_le e) (tp_pool p);
  pi_nodup : NoDup (tp_hashes p);
  pi_perm : Permutation (tp_hashes p) (map tx_hash (tp_pool p))
}.
Lemma pool_inv_new e : pool_inv e pool_new.
Proof. split; cbn; [intros i Hi; cbn in Hi; lia|constructor|constructor]. Qed.

Lemma pool_push_inv e tx p : pool_inv e p ->
  let '(p', r) := pool_push e tx p in
  pool_inv e p' /\ (r = true <-> ~ In (tx_hash tx) (map tx_hash (tp_pool p))) /\
  (if r then Permutation (tp_pool p') (tx :: tp_pool p) else p' = p).
Proof.
  intros [H1 H2 H3]. unfold pool_push. destruct (set_mem (tx_hash tx) (tp_hashes p)) eqn:E.
  - apply set_mem_in in E. split; [split; assumption|]. split; [|reflexivity]. split; [discriminate|].
    intros G. exfalso. apply G. eapply Permutation_in; eassumption.
  - assert (Hn : ~ In (tx_hash tx) (tp_hashes p)) by (intros G; apply set_mem_in in G; congruence).
    destruct (heap_push_ok (tx_le e) (tx_le_total e) (tx_le_trans e) tx (tp_pool p) H1) as [G1 G2].
    split; [split; cbn [tp_pool tp_hashes]|].
    + exact G1.
    + constructor; assumption.
    + etransitivity; [apply perm_skip, H3|]. change (tx_hash tx :: map tx_hash (tp_pool p)) with (map tx_hash (tx :: tp_pool p)). apply Permutation_map, G2.
    + split; [|symmetry; exact G2]. split; [|reflexivity]. intros _ G. apply Hn. eapply Permutation_in; [symmetry; exact H3|exact G].
Qed.

Lemma filter_absent h s : ~ In h s -> filter (fun x => negb (bytes_eqb x h)) s = s.
Proof.
  induction s as [|x s IH]; intros H; [reflexivity|]. cbn [filter]. rewrite (proj2 (bytes_eqb_neq x h)).
  - cbn [negb]. f_equal. apply IH. intros G. apply H. right. exact G.
  - intros ->. apply H. left. reflexivity.
Qed.
Lemma filter_remove h s l : NoDup s -> Permutation s (h :: l) -> Permutation (filter (fun x => negb (bytes_eqb x h)) s) l.
Proof.
  intros Hd Hp. assert (Hin : In h s) by (eapply Permutation_in; [symmetry; exact Hp|left; reflexivity]).
  apply in_split in Hin as (s1 & s2 & ->). apply NoDup_remove in Hd as [_ Hd2].
  rewrite filter_app. cbn [filter]. rewrite bytes_eqb_refl. cbn [negb].
  rewrite !filter_absent by (intros G; apply Hd2, in_or_app; auto).
  apply (Permutation_cons_inv (a := h)). etransitivity; [apply Permutation_middle|exact Hp].
Qed.

Lemma pool_pop_inv e p : pool_inv e p ->
  match pool_pop e p with
  | (p', Some (h, tx)) => pool_inv e p' /\ h = tx_hash tx /\ Permutation (tp_pool p) (tx :: tp_pool p') /\
      (forall y, In y (tp_pool p) -> before e tx y)
  | (p', None) => p' = p /\ tp_pool p = []
  end.
Proof.
  intros [H1 H2 H3]. unfold pool_pop. pose proof (heap_pop_ok (tx_le e) (tx_le_total e) (tx_le_trans e) (tp_pool p) H1) as S.
  destruct (heap_pop (tx_le e) (tp_pool p)) as [[tr rest]|]; [|split; [reflexivity|exact S]].
  destruct S as (S1 & S2 & S3). split; [split; cbn [tp_pool tp_hashes]|].
  - exact S1.
  - apply NoDup_filter, H2.
  - apply filter_remove; [exact H2|]. etransitivity; [exact H3|]. change (tx_hash tr :: map tx_hash rest) with (map tx_hash (tr :: rest)). apply Permutation_map, S2.
  - split; [reflexivity|]. split; [exact S2|]. intros y Hy. apply tx_le_before, S3, Hy.
Qed.

Lemma pool_inv_run e l : forall p, pool_inv e p -> pool_inv e (pool_run e p l).
Proof.
  induction l as [|o l IH]; intros p H; [exact H|]. cbn [pool_run fold_left]. apply IH. destruct o as [tx|]; cbn [pool_step].
  - pose proof (pool_push_inv e tx p H) as S. destruct (pool_push e tx p). apply S.
  - pose proof (pool_pop_inv e p H) as S. destruct (pool_pop e p) as [p' [[h tx]|]]; [apply S|]. destruct S as [-> _]. exact H.
Qed.
Lemma pool_inv_after e l : pool_inv e (pool_after e l).
Proof. apply pool_inv_run, pool_inv_new. Qed.

(*@T C53. After any calls: no two pooled transactions have the same hash; [len] is the number of pooled
   transactions; [is_empty] and [transaction_exists] agree with what iteration yields. *)
Lemma p_C53_pool_contents : forall e calls, let p := pool_after e calls in
  NoDup (map tx_hash (pool_iter p)) /\ pool_len p = length (pool_iter p) /\
  (pool_is_empty p = true <-> pool_iter p = []) /\
  (forall h, pool_exists h p = true <-> exists tx, In tx (pool_iter p) /\ tx_hash tx = h).
Proof.
  intros e calls p. destruct (pool_inv_after e calls) as [H1 H2 H3]. fold p in H1, H2, H3.
  assert (Hl : pool_len p = length (pool_iter p)) by (unfold pool_len; rewrite (Permutation_length H3), map_length; reflexivity).
  split; [eapply Permutation_NoDup; eassumption|]. split; [exact Hl|]. split.
  - unfold pool_is_empty. rewrite Hl. destruct (pool_iter p); cbn; split; congruence.
  - intros h. unfold pool_exists. rewrite set_mem_in. split.
    + intros G. eapply Permutation_in in G; [|exact H3]. apply in_map_iff in G as (tx & E & Hi). eauto.
    + intros (tx & Hi & <-). eapply Permutation_in; [symmetry; exact H3|]. apply in_map, Hi.
Qed.

(*@T C53. [push] returns true exactly when no pooled transaction has that hash; then the transaction is added, otherwise
   nothing changes. *)
Lemma p_C53_push : forall e calls tx, let p := pool_after e calls in let '(p', r) := pool_push e tx p in
  (r = true <-> forall x, In x (pool_iter p) -> tx_hash x <> tx_hash tx) /\
  (if r then Permutation (pool_iter p') (tx :: pool_iter p) else p' = p).
Proof.
  intros e calls tx p. pose proof (pool_push_inv e tx p (pool_inv_after e calls)) as S. destruct (pool_push e tx p) as [p' r].
  destruct S as (_ & S1 & S2). split; [|exact S2]. rewrite S1. split.
  - intros H x Hx E. apply H. rewrite <- E. apply in_map, Hx.
  - intros H G. apply in_map_iff in G as (x & E & Hx). apply (H x Hx E).
Qed.

(*@T C54. [pop] returns a pooled transaction that comes before all others (least timestamp, ties by hash read as four native words),
   with its hash, and removes exactly it; it returns nothing exactly on an empty pool. *)
Lemma p_C54_pop : forall e calls, let p := pool_after e calls in
  match pool_pop e p with
  | (p', Some (h, tx)) => h = tx_hash tx /\ Permutation (pool_iter p) (tx :: pool_iter p') /\
      (forall y, In y (pool_iter p) -> before e tx y) /\ p' = pool_after e (calls ++ [PPop])
  | (p', None) => p' = p /\ pool_iter p = []
  end.
Proof.
  intros e calls p. pose proof (pool_pop_inv e p (pool_inv_after e calls)) as S. destruct (pool_pop e p) as [p' [[h tx]|]] eqn:E; [|exact S].
  destruct S as (_ & S1 & S2 & S3). split; [exact S1|]. split; [exact S2|]. split; [exact S3|].
  unfold pool_after, pool_run. rewrite fold_left_app. cbn [fold_left pool_step]. fold (pool_run e pool_new calls). fold (pool_after e calls).
  fold p. rewrite E. reflexivity.
Qed.

Lemma drain_ok e n : forall p, pool_inv e p -> length (tp_pool p) = n ->
  Permutation (pool_drain e n p) (tp_pool p) /\ StronglySorted (before e) (pool_drain e n p).
Proof.
  induction n as [|n IH]; intros p H Hl; cbn [pool_drain].
  - destruct (tp_pool p); [|discriminate Hl]. split; constructor.
  - pose proof (pool_pop_inv e p H) as S. destruct (pool_pop e p) as [p' [[h tx]|]]; [|destruct S as [_ S]; rewrite S in Hl; discriminate Hl].
    destruct S as (S0 & S1 & S2 & S3). destruct (IH p' S0) as [I1 I2].
    + apply Permutation_length in S2. cbn [length] in S2. lia.
    + split; [etransitivity; [apply perm_skip, I1|symmetry; exact S2]|]. constructor; [exact I2|].
      apply Forall_forall. intros y Hy. apply S3. eapply Permutation_in; [symmetry; exact S2|]. right. eapply Permutation_in; eassumption.
Qed.

(*@T C54. Emptying a pool yields every pooled transaction once, in order. *)
Lemma p_C54_drain : forall e calls, let p := pool_after e calls in
  Permutation (pool_drain e (pool_len p) p) (pool_iter p) /\ StronglySorted (before e) (pool_drain e (pool_len p) p).
Proof.
  intros e calls p. destruct (p_C53_pool_contents e calls) as (_ & Hl & _). fold p in Hl.
  apply drain_ok; [apply pool_inv_after|]. symmetry. exact Hl.
Qed.
(*@E
Definition pool_txs : list transaction :=
  map (fun t => tx_new_signed addrA addrB t 5 None (repeat 1 64)) [30; 10; 20] ++ [demo_tx 1 (repeat 1 64); demo_tx 2 (repeat 1 64)].
Example C53_ex_push : let p := pool_after LittleEndian (map PPush (pool_txs ++ pool_txs)) in
  (pool_len p, length (pool_iter p), snd (pool_push LittleEndian (demo_tx 1 (repeat 1 64)) p), snd (pool_push LittleEndian (demo_tx 3 (repeat 1 64)) p))
  = (5%nat, 5%nat, false, true).
Proof. vm_compute. reflexivity. Qed.
Example C54_ex_drain : let p := pool_after LittleEndian (map PPush pool_txs) in
  map tx_timestamp (pool_iter p) = [10; 30; 20; 1700000000; 1700000000] /\
  map tx_timestamp (pool_drain LittleEndian 5 p) = [10; 20; 30; 1700000000; 1700000000].
Proof. split; vm_compute; reflexivity. Qed.
@*)

(*@T C55. The ordering of transactions is total, transitive and antisymmetric; [cmp] is [Equal] exactly for equal timestamps and equal hashes,
   hence only for transactions that are [==].
   Missing: the converse, see [C55_equality_disagrees_refuted]. *)
Lemma p_C55_order_laws_partial : forall e a b c,
  is_array 32 (tx_hash a) -> is_array 32 (tx_hash b) ->
  tx_cmp e a a = Eq /\ tx_cmp e a b = CompOpp (tx_cmp e b a) /\
  (tx_le e a b = true \/ tx_le e b a = true) /\
  (tx_le e a b = true -> tx_le e b c = true -> tx_le e a c = true) /\
  (tx_cmp e a b = Lt -> tx_cmp e b c = Lt -> tx_cmp e a c = Lt) /\
  (tx_cmp e a b = Eq <-> tx_timestamp a = tx_timestamp b /\ tx_hash a = tx_hash b) /\
  (tx_cmp e a b = Eq -> tx_eq a b = true) /\
  (tx_cmp e a b <> Gt <-> before e b a).
Proof.
  intros e a b c Ha Hb.
  assert (Hbe : forall x y, tx_cmp e x y <> Gt <-> before e y x).
  { intros x y. rewrite <- tx_le_before. unfold tx_le. destruct (tx_cmp e x y); split; congruence. }
  assert (Heq : tx_cmp e a b = Eq <-> tx_timestamp a = tx_timestamp b /\ tx_hash a = tx_hash b).
  { unfold tx_cmp. destruct (N.compare_spec (tx_timestamp a) (tx_timestamp b)) as [E|E|E]; [|split; [discriminate|lia]..].
    rewrite !hash_words_values. split.
    - intros G. split; [exact E|]. apply (word_values_inj e); [exact Ha|exact Hb|]. apply words_cmp_eq; [reflexivity|exact G].
    - intros [_ ->]. apply words_cmp_refl. }
  split; [unfold tx_cmp; rewrite N.compare_refl; apply words_cmp_refl|]. split; [apply tx_cmp_opp|].
  split; [destruct (tx_le e a b) eqn:E; [left; reflexivity|right; apply tx_le_total, E]|].
  split; [apply tx_le_trans|]. split.
  - intros H1 H2. assert (B1 : before e b a) by (apply Hbe; congruence). assert (B2 : before e c b) by (apply Hbe; congruence).
    destruct (tx_cmp e a c) eqn:E; [|reflexivity|].
    + exfalso. assert (B3 : before e a c) by (apply Hbe; rewrite tx_cmp_opp, E; discriminate).
      assert (B4 : before e a b) by (eapply before_trans; eassumption). apply Hbe in B4. rewrite tx_cmp_opp, H1 in B4. apply B4. reflexivity.
    + exfalso. assert (B3 : before e c a) by (eapply before_trans; eassumption). apply Hbe in B3. contradiction.
  - split; [exact Heq|]. split; [|apply Hbe]. intros E. apply Heq in E as [E _]. unfold tx_eq. apply N.eqb_eq, E.
Qed.

(*@T C55 fails for [==]: it compares timestamps only, so different transactions that [cmp] orders strictly are [==]. *)
Lemma p_C55_equality_disagrees_refuted : forall e, exists a b, tx_wf a /\ tx_wf b /\
  tx_eq a b = true /\ tx_cmp e a b <> Eq /\ tx_amount a <> tx_amount b.
Proof.
  intros e. exists (demo_tx 1 (repeat 1 64)), (demo_tx 2 (repeat 1 64)).
  split; [repeat split; try (repeat constructor; fail); vm_compute; repeat constructor|].
  split; [repeat split; try (repeat constructor; fail); vm_compute; repeat constructor|].
  split; [reflexivity|]. split; [destruct e; vm_compute; discriminate|discriminate].
Qed.
(*@E
Example C55_ex_laws : is_array 32 (tx_hash (demo_tx 1 (repeat 1 64))) /\
  map (fun e => tx_cmp e (demo_tx 1 (repeat 1 64)) (demo_tx 2 (repeat 1 64))) [LittleEndian; BigEndian] = [Gt; Lt].
Proof. split; [exact (sha256_array _)|vm_compute; reflexivity]. Qed.
@*)

(** Two sorted arrangements of the same transactions are the same. *)
Lemma sorted_unique e l : forall m, StronglySorted (before e) l -> StronglySorted (before e) m -> Permutation l m ->
  NoDup (map tx_hash l) -> Forall (fun x => is_array 32 (tx_hash x)) l -> l = m.
Proof.
  induction l as [|a l IH]; intros m Hl Hm Hp Hd Hw.
  - apply Permutation_nil in Hp. auto.
  - destruct m as [|b m]; [apply Permutation_sym, Permutation_nil in Hp; discriminate|].
    inversion Hl as [|? ? Hl1 Hl2]; subst. inversion Hm as [|? ? Hm1 Hm2]; subst. inversion Hd as [|? ? Hd1 Hd2]; subst. inversion Hw as [|? ? Hw1 Hw2]; subst.
    assert (a = b) as <-.
    { assert (Hb : In b (a :: l)) by (eapply Permutation_in; [symmetry; exact Hp|left; reflexivity]).
      assert (Ha : In a (b :: m)) by (eapply Permutation_in; [exact Hp|left; reflexivity]).
      destruct Hb as [<-|Hb]; [reflexivity|]. destruct Ha as [<-|Ha]; [reflexivity|].
      rewrite Forall_forall in Hl2, Hm2, Hw2. pose proof (Hl2 b Hb) as B1. pose proof (Hm2 a Ha) as B2.
      exfalso. apply Hd1. replace (tx_hash a) with (tx_hash b); [apply in_map, Hb|].
      destruct B1 as [B1|[B1 G1]]; destruct B2 as [B2|[B2 G2]]; try lia.
      apply (word_values_inj e); [apply Hw2, Hb|exact Hw1|]. apply lex_le_antisym; assumption. }
    f_equal. apply IH; try assumption. eapply Permutation_cons_inv, Hp.
Qed.

Lemma hashes_ok_run e l : forall p, hashes_ok l -> pool_inv e p -> Forall (fun x => is_array 32 (tx_hash x)) (tp_pool p) ->
  Forall (fun x => is_array 32 (tx_hash x)) (tp_pool (pool_run e p l)).
Proof.
  induction l as [|o l IH]; intros p H Hi Hf; [exact Hf|]. cbn [pool_run fold_left]. inversion H as [|? ? Ho Hl]; subst.
  apply IH; [exact Hl|apply (pool_inv_run e [o]), Hi|]. destruct o as [tx|]; cbn [pool_step].
  - pose proof (pool_push_inv e tx p Hi) as S. destruct (pool_push e tx p) as [p' r]. destruct S as (_ & _ & S). cbn [fst].
    destruct r; [|subst p'; exact Hf]. eapply Permutation_Forall; [symmetry; exact S|]. constructor; assumption.
  - pose proof (pool_pop_inv e p Hi) as S. destruct (pool_pop e p) as [p' [[h tx]|]]; cbn [fst]; [|destruct S as [-> _]; exact Hf].
    destruct S as (_ & _ & S & _). eapply Permutation_Forall in Hf; [|exact S]. inversion Hf; assumption.
Qed.

(*@T C70. The order in which a pool releases its transactions depends only on which transactions it holds, not on
   the order of the calls that led there. *)
Lemma p_C70_release_order_is_history_independent : forall e calls calls',
  hashes_ok calls -> Permutation (pool_iter (pool_after e calls)) (pool_iter (pool_after e calls')) ->
  pool_drain e (pool_len (pool_after e calls)) (pool_after e calls) =
  pool_drain e (pool_len (pool_after e calls')) (pool_after e calls').
Proof.
  intros e c c' Hw Hp. destruct (p_C54_drain e c) as [D1 D2]. destruct (p_C54_drain e c') as [D1' D2'].
  destruct (p_C53_pool_contents e c) as (Hd & _).
  apply (sorted_unique e); [exact D2|exact D2'| | |].
  - etransitivity; [exact D1|]. etransitivity; [exact Hp|symmetry; exact D1'].
  - eapply Permutation_NoDup; [symmetry; apply Permutation_map, D1|exact Hd].
  - eapply Permutation_Forall; [symmetry; exact D1|]. apply hashes_ok_run; [exact Hw|apply pool_inv_new|constructor].
Qed.
(*@E
Example C70_ex : let c := map PPush pool_txs in let c' := map PPush (rev pool_txs) in
  hashes_ok c /\ Permutation (pool_iter (pool_after LittleEndian c)) (pool_iter (pool_after LittleEndian c')) /\
  pool_iter (pool_after LittleEndian c) <> pool_iter (pool_after LittleEndian c').
Proof.
  split; [unfold hashes_ok, pool_txs; cbn [map app]; repeat (apply Forall_cons; [exact (sha256_array _)|]); apply Forall_nil|].
  split; [|intros H; vm_compute in H; discriminate H].
  assert (G : forall e l, NoDup (map tx_hash l) -> Permutation (pool_iter (pool_after e (map PPush l))) l).
  { intros e l. induction l as [|x l IH] using rev_ind; intros H; [constructor|]. rewrite map_app in H |- *.
    unfold pool_after, pool_run. rewrite fold_left_app. cbn [map fold_left pool_step]. fold (pool_run e pool_new (map PPush l)). fold (pool_after e (map PPush l)).
    pose proof (C53_push e (map PPush l) x) as P. cbn zeta in P. destruct (pool_push e x (pool_after e (map PPush l))) as [p' r]. destruct P as [P1 P2]. cbn [fst].
    apply NoDup_remove in H. rewrite app_nil_r in H. destruct H as [H1 H2]. specialize (IH H1).
    assert (r = true) as ->.
    { apply P1. intros y Hy E. apply H2. cbn [map] in *. rewrite <- E. apply in_map. eapply Permutation_in; eassumption. }
    etransitivity; [exact P2|]. etransitivity; [apply perm_skip, IH|apply Permutation_cons_append]. }
  etransitivity; [apply G|symmetry; etransitivity; [apply G|symmetry; apply Permutation_rev]].
  - repeat (constructor; [intros H; vm_compute in H; intuition discriminate|]). constructor.
  - repeat (constructor; [intros H; vm_compute in H; intuition discriminate|]). constructor.
Qed.
@*)

(*@T C71. The release order of equally old transactions depends on the byte order of the machine: two machines with the same pool
   release them in different orders. *)
Lemma p_C71_order_depends_on_machine_refuted : exists calls,
  hashes_ok calls /\ Permutation (pool_iter (pool_after LittleEndian calls)) (pool_iter (pool_after BigEndian calls)) /\
  pool_drain LittleEndian (pool_len (pool_after LittleEndian calls)) (pool_after LittleEndian calls) <>
  pool_drain BigEndian (pool_len (pool_after BigEndian calls)) (pool_after BigEndian calls).
Proof.
  set (x := demo_tx 1 (repeat 1 64)). set (y := demo_tx 2 (repeat 1 64)).
  exists [PPush x; PPush y]. split; [|split].
  - repeat (apply Forall_cons; [exact (sha256_array _)|]). apply Forall_nil.
  - assert (E : pool_iter (pool_after LittleEndian [PPush x; PPush y]) = [x; y] \/ pool_iter (pool_after LittleEndian [PPush x; PPush y]) = [y; x]).
    { vm_compute. tauto. }
    assert (E' : pool_iter (pool_after BigEndian [PPush x; PPush y]) = [x; y] \/ pool_iter (pool_after BigEndian [PPush x; PPush y]) = [y; x]).
    { vm_compute. tauto. }
    destruct E as [->| ->]; destruct E' as [->| ->]; try reflexivity; apply perm_swap.
  - vm_compute. discriminate.
Qed.

(*@T C71, what holds: transactions with different timestamps are released in the same order on every machine. *)
Lemma p_C71_timestamps_order_on_every_machine_partial : forall a b,
  tx_timestamp a <> tx_timestamp b -> tx_cmp LittleEndian a b = tx_cmp BigEndian a b.
Proof.
  intros a b H. unfold tx_cmp. destruct (N.compare_spec (tx_timestamp a) (tx_timestamp b)); [contradiction|reflexivity|reflexivity].
Qed.
(*@E
Example C71_ex : map (fun e => tx_cmp e (tx_new_signed addrA addrB 10 5 None (repeat 1 64)) (demo_tx 2 (repeat 1 64))) [LittleEndian; BigEndian] = [Gt; Gt].
Proof. vm_compute. reflexivity. Qed.
@*)
