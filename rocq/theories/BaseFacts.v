(** Lemmas about Base.v: big-endian integers, slices, lists. *)
From Coq Require Import Lia ZifyBool ZifyNat ZifyN.
From Verif Require Import Base.

Ltac Zify.zify_post_hook ::= Z.div_mod_to_equations.

Lemma bytes_eqb_refl a : bytes_eqb a a = true.
Proof. induction a as [|x a IH]; cbn [bytes_eqb]; [reflexivity|]. rewrite N.eqb_refl, IH. reflexivity. Qed.

Lemma bytes_eqb_eq a b : bytes_eqb a b = true <-> a = b.
Proof.
  split; [|intros ->; apply bytes_eqb_refl].
  revert b; induction a as [|x a IH]; intros [|y b]; cbn [bytes_eqb]; try congruence.
  intros H. apply andb_true_iff in H as [H1 H2]. apply N.eqb_eq in H1. apply IH in H2. congruence.
Qed.

Lemma bytes_eqb_neq a b : bytes_eqb a b = false <-> a <> b.
Proof.
  split.
  - intros H ->. rewrite bytes_eqb_refl in H. discriminate.
  - intros H. destruct (bytes_eqb a b) eqn:E; [|reflexivity]. apply bytes_eqb_eq in E. contradiction.
Qed.

Lemma bytes_eqb_sym a b : bytes_eqb a b = bytes_eqb b a.
Proof.
  destruct (bytes_eqb a b) eqn:E.
  - apply bytes_eqb_eq in E as ->. symmetry; apply bytes_eqb_refl.
  - symmetry. apply bytes_eqb_neq. apply bytes_eqb_neq in E. congruence.
Qed.

Lemma bytes_eq_dec (a b : bytes) : {a = b} + {a <> b}.
Proof. apply list_eq_dec. apply N.eq_dec. Qed.

Lemma bytes_cmp_refl a : bytes_cmp a a = Eq.
Proof. induction a as [|x a IH]; cbn [bytes_cmp]; [reflexivity|]. rewrite N.compare_refl. exact IH. Qed.

Lemma bytes_cmp_eq a b : bytes_cmp a b = Eq <-> a = b.
Proof.
  split; [|intros ->; apply bytes_cmp_refl].
  revert b; induction a as [|x a IH]; intros [|y b]; cbn [bytes_cmp]; try congruence.
  destruct (N.compare_spec x y); try congruence. intros H'. apply IH in H'. congruence.
Qed.

Lemma bytes_cmp_antisym a b : bytes_cmp b a = CompOpp (bytes_cmp a b).
Proof.
  revert b; induction a as [|x a IH]; intros [|y b]; cbn [bytes_cmp CompOpp]; try reflexivity.
  rewrite (N.compare_antisym x y).
  destruct (N.compare_spec x y) as [->|H|H]; cbn [CompOpp]; auto.
Qed.

Lemma bytes_cmp_trans a b c : bytes_cmp a b = Lt -> bytes_cmp b c = Lt -> bytes_cmp a c = Lt.
Proof.
  revert b c; induction a as [|x a IH]; intros [|y b] [|z c]; cbn [bytes_cmp]; try congruence.
  destruct (N.compare_spec x y) as [Hxy|Hxy|Hxy]; try congruence;
  destruct (N.compare_spec y z) as [Hyz|Hyz|Hyz]; try congruence;
  destruct (N.compare_spec x z) as [Hxz|Hxz|Hxz]; try reflexivity; try lia.
  intros. eapply IH; eauto.
Qed.

(** ** Big-endian integers *)

Lemma to_be_length n x : length (to_be n x) = n.
Proof. revert x; induction n as [|n IH]; intros x; cbn [to_be]; [reflexivity|].
  rewrite app_length, IH; cbn [length]; lia. Qed.

Lemma to_be_ok n x : bytes_ok (to_be n x).
Proof.
  revert x; induction n as [|n IH]; intros x; cbn [to_be]; [constructor|].
  apply Forall_app; split; [apply IH|]. constructor; [|constructor]. unfold byte_ok. lia.
Qed.

Lemma from_be_acc l a : fold_left (fun acc b => acc * 256 + b) l a = a * 256 ^ N.of_nat (length l) + from_be l.
Proof.
  unfold from_be. revert a; induction l as [|b l IH]; intros a; cbn [fold_left length].
  - rewrite N.pow_0_r. lia.
  - rewrite (IH (a * 256 + b)), (IH (0 * 256 + b)).
    rewrite Nat2N.inj_succ, N.pow_succ_r by lia. lia.
Qed.

Lemma from_be_nil : from_be [] = 0.
Proof. reflexivity. Qed.

Lemma from_be_cons b l : from_be (b :: l) = b * 256 ^ N.of_nat (length l) + from_be l.
Proof. unfold from_be at 1. cbn [fold_left]. rewrite from_be_acc. lia. Qed.

Lemma from_be_app l1 l2 : from_be (l1 ++ l2) = from_be l1 * 256 ^ N.of_nat (length l2) + from_be l2.
Proof. unfold from_be at 1. rewrite fold_left_app. rewrite from_be_acc. reflexivity. Qed.

Lemma from_be_bound l : bytes_ok l -> from_be l < 256 ^ N.of_nat (length l).
Proof.
  induction l as [|b l IH]; intros H; [cbn; lia|].
  inversion H as [|? ? Hb Hl]; subst. rewrite from_be_cons. cbn [length].
  rewrite Nat2N.inj_succ, N.pow_succ_r by lia. specialize (IH Hl). unfold byte_ok in Hb. nia.
Qed.

Lemma from_to_be n x : from_be (to_be n x) = x mod 256 ^ N.of_nat n.
Proof.
  revert x; induction n as [|n IH]; intros x.
  - cbn. rewrite N.mod_1_r. reflexivity.
  - cbn [to_be]. rewrite from_be_app, IH. cbn [length].
    rewrite from_be_cons, from_be_nil. cbn [length].
    change (256 ^ N.of_nat 1) with 256. change (256 ^ N.of_nat 0) with 1.
    rewrite Nat2N.inj_succ, N.pow_succ_r by lia.
    assert (Hp : 256 ^ N.of_nat n <> 0) by (apply N.pow_nonzero; lia).
    rewrite (N.mod_mul_r x 256 (256 ^ N.of_nat n)) by lia. lia.
Qed.

Lemma from_to_be_small n x : x < 256 ^ N.of_nat n -> from_be (to_be n x) = x.
Proof. intros H. rewrite from_to_be. apply N.mod_small. exact H. Qed.

Lemma to_from_be l : bytes_ok l -> to_be (length l) (from_be l) = l.
Proof.
  induction l as [|b l IH] using rev_ind; intros H; [reflexivity|].
  apply Forall_app in H as [Hl Hb]. inversion Hb as [|? ? Hb' _]; subst.
  unfold byte_ok in Hb'.
  rewrite app_length. cbn [length]. rewrite Nat.add_1_r. cbn [to_be].
  rewrite from_be_app. cbn [length]. rewrite from_be_cons, from_be_nil. cbn [length].
  change (256 ^ N.of_nat 1) with 256. change (256 ^ N.of_nat 0) with 1.
  replace ((from_be l * 256 + (b * 1 + 0)) / 256) with (from_be l) by lia.
  replace ((from_be l * 256 + (b * 1 + 0)) mod 256) with b by lia.
  rewrite IH by exact Hl. reflexivity.
Qed.

Lemma to_be_inj n x y : x < 256 ^ N.of_nat n -> y < 256 ^ N.of_nat n -> to_be n x = to_be n y -> x = y.
Proof. intros Hx Hy H. rewrite <- (from_to_be_small n x Hx), <- (from_to_be_small n y Hy), H. reflexivity. Qed.

Lemma from_be_inj l1 l2 : bytes_ok l1 -> bytes_ok l2 -> length l1 = length l2 ->
  from_be l1 = from_be l2 -> l1 = l2.
Proof. intros H1 H2 Hl H. rewrite <- (to_from_be l1 H1), <- (to_from_be l2 H2), H, Hl. reflexivity. Qed.

Lemma to_be_app n m x : to_be (n + m) x = to_be n (x / 256 ^ N.of_nat m) ++ to_be m x.
Proof.
  revert x; induction m as [|m IH]; intros x.
  - rewrite Nat.add_0_r. cbn [to_be]. rewrite app_nil_r. change (256 ^ N.of_nat 0) with 1.
    rewrite N.div_1_r. reflexivity.
  - rewrite Nat.add_succ_r. cbn [to_be]. rewrite IH, app_assoc. f_equal. f_equal. f_equal.
    rewrite Nat2N.inj_succ, N.pow_succ_r by lia.
    rewrite N.div_div by (try lia; apply N.pow_nonzero; lia). f_equal.
Qed.

Lemma to_be_mod n x : to_be n (x mod 256 ^ N.of_nat n) = to_be n x.
Proof.
  rewrite <- (from_to_be n x).
  assert (H := to_from_be (to_be n x) (to_be_ok n x)). rewrite to_be_length in H. exact H.
Qed.

(** ** Lists and slices *)

Lemma bytes_ok_app a b : bytes_ok (a ++ b) <-> bytes_ok a /\ bytes_ok b.
Proof. apply Forall_app. Qed.

Lemma bytes_ok_firstn n l : bytes_ok l -> bytes_ok (firstn n l).
Proof. intros H. rewrite <- (firstn_skipn n l) in H. apply Forall_app in H. apply H. Qed.

Lemma bytes_ok_skipn n l : bytes_ok l -> bytes_ok (skipn n l).
Proof. intros H. rewrite <- (firstn_skipn n l) in H. apply Forall_app in H. apply H. Qed.

Lemma bytes_ok_repeat b n : b < 256 -> bytes_ok (repeat b n).
Proof. intros H. apply Forall_forall. intros x Hx. apply repeat_spec in Hx. subst. exact H. Qed.

Lemma skipn_app_exact {A} (l1 l2 : list A) n : length l1 = n -> skipn n (l1 ++ l2) = l2.
Proof. intros <-. rewrite skipn_app, skipn_all, Nat.sub_diag. reflexivity. Qed.

Lemma firstn_app_exact {A} (l1 l2 : list A) n : length l1 = n -> firstn n (l1 ++ l2) = l1.
Proof. intros <-. rewrite firstn_app, firstn_all, Nat.sub_diag. cbn. apply app_nil_r. Qed.

Lemma slice_app3 (l1 l2 l3 : bytes) i j :
  length l1 = i -> (length l1 + length l2)%nat = j -> slice (l1 ++ l2 ++ l3) i j = Ok l2.
Proof.
  intros Hi Hj. unfold slice.
  replace (Nat.leb i j && Nat.leb j (length (l1 ++ l2 ++ l3)))%bool with true.
  - rewrite skipn_app_exact by exact Hi. rewrite firstn_app_exact by lia. reflexivity.
  - symmetry. rewrite !app_length. lia.
Qed.

Lemma slice_from_app (l1 l2 : bytes) i : length l1 = i -> slice_from (l1 ++ l2) i = Ok l2.
Proof.
  intros Hi. unfold slice_from. rewrite app_length.
  replace (Nat.leb i (length l1 + length l2)) with true by lia.
  rewrite skipn_app_exact by exact Hi. reflexivity.
Qed.

Lemma slice_ok data i j s : slice data i j = Ok s ->
  (i <= j /\ j <= length data)%nat /\ s = firstn (j - i) (skipn i data) /\ length s = (j - i)%nat.
Proof.
  unfold slice. destruct (Nat.leb i j && Nat.leb j (length data))%bool eqn:E; [|discriminate].
  intros H; injection H as <-. repeat split; try lia. rewrite firstn_length, skipn_length. lia.
Qed.

Lemma slice_panic data i j : ~ (i <= j /\ j <= length data)%nat -> slice data i j = Panic.
Proof. intros H. unfold slice. destruct (Nat.leb i j && Nat.leb j (length data))%bool eqn:E; [lia|reflexivity]. Qed.

Lemma slice_in data i j : (i <= j)%nat -> (j <= length data)%nat ->
  slice data i j = Ok (firstn (j - i) (skipn i data)).
Proof. intros H1 H2. unfold slice. replace (Nat.leb i j && Nat.leb j (length data))%bool with true by lia. reflexivity. Qed.

Lemma slice_from_in data i : (i <= length data)%nat -> slice_from data i = Ok (skipn i data).
Proof. intros H. unfold slice_from. replace (Nat.leb i (length data)) with true by lia. reflexivity. Qed.

Lemma replace_length {A} (l : list A) i a : length (replace l i a) = length l.
Proof. revert i; induction l as [|x l IH]; intros [|i]; cbn [replace length]; auto. Qed.

Lemma replace_app {A} (l1 l2 : list A) x a i : length l1 = i -> replace (l1 ++ x :: l2) i a = l1 ++ a :: l2.
Proof. intros <-. induction l1 as [|y l1 IH]; cbn; [reflexivity|]. f_equal. exact IH. Qed.

Lemma nth_error_replace {A} (l : list A) i a j :
  nth_error (replace l i a) j =
  if Nat.eqb i j then (if Nat.ltb j (length l) then Some a else None) else nth_error l j.
Proof.
  revert i j; induction l as [|x l IH]; intros i j.
  - cbn [replace]. destruct j; cbn; destruct (Nat.eqb i _); reflexivity.
  - destruct i as [|i], j as [|j]; cbn [replace nth_error Nat.eqb length]; try reflexivity.
    rewrite IH. destruct (Nat.eqb i j); [|reflexivity].
    change (Nat.ltb (S j) (S (length l))) with (Nat.ltb j (length l)). reflexivity.
Qed.

Lemma set_unchecked_ok {A} (l : list A) i a : (i < length l)%nat -> set_unchecked l i a = Ok (replace l i a).
Proof. intros H. unfold set_unchecked. replace (Nat.ltb i (length l)) with true by lia. reflexivity. Qed.

Lemma index_unchecked_ok {A} (l : list A) i x : nth_error l i = Some x -> index_unchecked l i = Ok x.
Proof. intros H. unfold index_unchecked. rewrite H. reflexivity. Qed.

Lemma index_app {A} (l1 l2 : list A) x i : length l1 = i -> index (l1 ++ x :: l2) i = Ok x.
Proof. intros <-. unfold index. rewrite nth_error_app2 by lia. rewrite Nat.sub_diag. reflexivity. Qed.

Lemma app_inj_len {A} (a b c d : list A) : length a = length c -> a ++ b = c ++ d -> a = c /\ b = d.
Proof.
  intros Hl H. split.
  - apply (f_equal (firstn (length a))) in H. rewrite firstn_app_exact in H by reflexivity.
    rewrite firstn_app_exact in H by auto. exact H.
  - apply (f_equal (skipn (length a))) in H. rewrite skipn_app_exact in H by reflexivity.
    rewrite skipn_app_exact in H by auto. exact H.
Qed.

(** ** Outcomes *)

Lemma bind_ok {A B} (x : out A) (f : A -> out B) b :
  bind x f = Ok b -> exists a, x = Ok a /\ f a = Ok b.
Proof. destruct x; cbn; intros H; try discriminate. eauto. Qed.

Lemma change_context_ok {A} (x : out A) e a : change_context x e = Ok a <-> x = Ok a.
Proof. destruct x; cbn; split; congruence. Qed.
