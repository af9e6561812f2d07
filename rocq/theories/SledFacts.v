(** Lemmas about Sled.v. *)
From Coq Require Import Lia ZifyBool ZifyNat ZifyN.
From Verif Require Import Base Sled BaseFacts.

Lemma sm_get_insert k v m k' :
  sm_get k' (sm_insert k v m) = if bytes_eqb k' k then Some v else sm_get k' m.
Proof.
  induction m as [|[k0 v0] m IH]; cbn [sm_insert sm_get]; [reflexivity|].
  destruct (bytes_cmp k k0) eqn:C; cbn [sm_get].
  - apply bytes_cmp_eq in C as ->. destruct (bytes_eqb k' k0); reflexivity.
  - reflexivity.
  - rewrite IH. destruct (bytes_eqb k' k0) eqn:E0; [|reflexivity].
    apply bytes_eqb_eq in E0 as ->. destruct (bytes_eqb k0 k) eqn:E; [|reflexivity].
    apply bytes_eqb_eq in E as ->. rewrite bytes_cmp_refl in C. discriminate.
Qed.

Lemma sm_get_insert_same k v m : sm_get k (sm_insert k v m) = Some v.
Proof. rewrite sm_get_insert, bytes_eqb_refl. reflexivity. Qed.

Lemma sm_get_insert_other k v m k' : k' <> k -> sm_get k' (sm_insert k v m) = sm_get k' m.
Proof. intros H. rewrite sm_get_insert. apply bytes_eqb_neq in H as ->. reflexivity. Qed.

(** Key order *)
Fixpoint sm_sorted (m : smap) : Prop :=
  match m with
  | [] => True
  | (k, _) :: t => match t with [] => True | (k', _) :: _ => bytes_cmp k k' = Lt end /\ sm_sorted t
  end.

Lemma sm_insert_sorted k v m : sm_sorted m -> sm_sorted (sm_insert k v m).
Proof.
  induction m as [|[k0 v0] m IH]; cbn [sm_insert sm_sorted]; [auto|]. intros [H1 H2].
  destruct (bytes_cmp k k0) eqn:C; cbn [sm_sorted].
  - apply bytes_cmp_eq in C as ->. auto.
  - auto.
  - split; [|auto]. specialize (IH H2). destruct m as [|[k1 v1] m]; cbn [sm_insert].
    + rewrite bytes_cmp_antisym, C. reflexivity.
    + destruct (bytes_cmp k k1); cbn; [rewrite bytes_cmp_antisym, C; reflexivity..|exact H1].
Qed.

Lemma sm_sorted_head k v m k' : sm_sorted ((k, v) :: m) -> bytes_cmp k' k = Lt \/ k' = k -> sm_get k' m = None.
Proof.
  revert k v; induction m as [|[k0 v0] m IH]; intros k v H Hk; [reflexivity|].
  cbn [sm_sorted] in H. destruct H as [H1 H2]. cbn [sm_get].
  assert (Hlt : bytes_cmp k' k0 = Lt) by (destruct Hk as [Hk| ->]; [eapply bytes_cmp_trans; eassumption|exact H1]).
  destruct (bytes_eqb k' k0) eqn:E.
  - apply bytes_eqb_eq in E as ->. rewrite bytes_cmp_refl in Hlt. discriminate.
  - apply (IH k0 v0); [exact H2|left; exact Hlt].
Qed.

Lemma sm_sorted_tail k v m : sm_sorted ((k, v) :: m) -> sm_sorted m.
Proof. cbn [sm_sorted]. intros [_ H]. exact H. Qed.

(** Sorted maps are determined by their lookups. *)
Lemma sm_ext m m' : sm_sorted m -> sm_sorted m' -> (forall k, sm_get k m = sm_get k m') -> m = m'.
Proof.
  revert m'; induction m as [|[k v] m IH]; intros [|[k' v'] m'] H H' E.
  - reflexivity.
  - specialize (E k'). cbn [sm_get] in E. rewrite bytes_eqb_refl in E. discriminate.
  - specialize (E k). cbn [sm_get] in E. rewrite bytes_eqb_refl in E. discriminate.
  - assert (Hk : k = k').
    { destruct (bytes_cmp k k') eqn:C.
      - apply bytes_cmp_eq, C.
      - exfalso. pose proof (E k) as Ek. cbn [sm_get] in Ek. rewrite bytes_eqb_refl in Ek.
        destruct (bytes_eqb k k') eqn:Q; [apply bytes_eqb_eq in Q as ->; rewrite bytes_cmp_refl in C; discriminate|].
        rewrite (sm_sorted_head k' v' m' k H') in Ek by (left; exact C). discriminate.
      - exfalso. pose proof (E k') as Ek. cbn [sm_get] in Ek. rewrite bytes_eqb_refl in Ek.
        assert (C' : bytes_cmp k' k = Lt) by (rewrite bytes_cmp_antisym, C; reflexivity).
        destruct (bytes_eqb k' k) eqn:Q; [apply bytes_eqb_eq in Q as ->; rewrite bytes_cmp_refl in C; discriminate|].
        rewrite (sm_sorted_head k v m k' H) in Ek by (left; exact C'). discriminate. }
    subst k'. pose proof (E k) as Ek. cbn [sm_get] in Ek. rewrite bytes_eqb_refl in Ek. injection Ek as <-.
    f_equal. apply IH; [eapply sm_sorted_tail, H|eapply sm_sorted_tail, H'|].
    intros q. pose proof (E q) as Eq0. cbn [sm_get] in Eq0. destruct (bytes_eqb q k) eqn:Q; [|exact Eq0].
    apply bytes_eqb_eq in Q as ->.
    rewrite (sm_sorted_head k v m k H), (sm_sorted_head k v m' k H') by (right; reflexivity). reflexivity.
Qed.

Lemma sm_get_in m k v : sm_get k m = Some v -> In (k, v) m.
Proof.
  induction m as [|[k0 v0] m IH]; cbn [sm_get]; [discriminate|]. destruct (bytes_eqb k k0) eqn:E.
  - apply bytes_eqb_eq in E as ->. intros H. injection H as ->. left. reflexivity.
  - intros H. right. apply IH, H.
Qed.

Lemma sm_in_get m k v : sm_sorted m -> In (k, v) m -> sm_get k m = Some v.
Proof.
  induction m as [|[k0 v0] m IH]; [contradiction|]. intros Hs [E|Hin].
  - injection E as -> ->. cbn [sm_get]. rewrite bytes_eqb_refl. reflexivity.
  - cbn [sm_get]. destruct (bytes_eqb k k0) eqn:E.
    + apply bytes_eqb_eq in E as ->. exfalso.
      pose proof (IH (sm_sorted_tail _ _ _ Hs) Hin) as G.
      rewrite (sm_sorted_head k0 v0 m k0 Hs) in G by (right; reflexivity). discriminate.
    + apply IH; [eapply sm_sorted_tail, Hs|exact Hin].
Qed.

(** Batches *)
Lemma apply_batch_nil m : apply_batch m [] = m.
Proof. reflexivity. Qed.
Lemma apply_batch_cons m k v b : apply_batch m ((k, v) :: b) = apply_batch (sm_insert k v m) b.
Proof. reflexivity. Qed.
Lemma apply_batch_app m b b' : apply_batch m (b ++ b') = apply_batch (apply_batch m b) b'.
Proof. unfold apply_batch. apply fold_left_app. Qed.

Lemma apply_batch_sorted b m : sm_sorted m -> sm_sorted (apply_batch m b).
Proof.
  revert m; induction b as [|[k v] b IH]; intros m H; [exact H|]. rewrite apply_batch_cons.
  apply IH, sm_insert_sorted, H.
Qed.

Lemma apply_batch_other b m k : ~ In k (map fst b) -> sm_get k (apply_batch m b) = sm_get k m.
Proof.
  revert m; induction b as [|[k0 v0] b IH]; intros m H; [reflexivity|]. rewrite apply_batch_cons.
  cbn [map fst In] in H. rewrite IH by tauto. apply sm_get_insert_other. intros ->. tauto.
Qed.

Lemma sled_get_insert k v s k' :
  sled_get k' (sled_insert k v s) = if bytes_eqb k' k then Some v else sled_get k' s.
Proof. apply sm_get_insert. Qed.

Lemma sled_get_commit1 k v s k' :
  sled_get k' (sled_commit [(k, v)] s) = if bytes_eqb k' k then Some v else sled_get k' s.
Proof. apply sm_get_insert. Qed.

Lemma sled_get_commit2 k v k2 v2 s k' :
  sled_get k' (sled_commit [(k, v); (k2, v2)] s) =
  if bytes_eqb k' k2 then Some v2 else if bytes_eqb k' k then Some v else sled_get k' s.
Proof. unfold sled_get, sled_commit. cbn [cur]. rewrite !apply_batch_cons, apply_batch_nil, !sm_get_insert. reflexivity. Qed.

Lemma sled_get_flush k s : sled_get k (sled_flush s) = sled_get k s.
Proof. reflexivity. Qed.

(** What is read is the durable part plus all pending batches; keys are sorted. *)
Definition sled_ok (s : sled) : Prop :=
  cur s = fold_left apply_batch (pend s) (dur s) /\ sm_sorted (cur s) /\ sm_sorted (dur s).

Lemma sled_ok_empty : sled_ok sled_empty.
Proof. repeat split. Qed.
Lemma sled_ok_commit b s : sled_ok s -> sled_ok (sled_commit b s).
Proof.
  intros (H1 & H2 & H3). unfold sled_commit. split; [|split]; cbn [cur dur pend].
  - rewrite fold_left_app, <- H1. reflexivity.
  - apply apply_batch_sorted, H2.
  - exact H3.
Qed.
Lemma sled_ok_flush s : sled_ok s -> sled_ok (sled_flush s).
Proof. intros (H1 & H2 & H3). repeat split; cbn; assumption. Qed.

Lemma fold_batches_sorted bs m : sm_sorted m -> sm_sorted (fold_left apply_batch bs m).
Proof. revert m; induction bs as [|b bs IH]; intros m H; [exact H|]. apply IH, apply_batch_sorted, H. Qed.

Lemma sled_ok_crash n s : sled_ok s -> sled_ok (sled_crash n s).
Proof.
  intros (H1 & H2 & H3). unfold sled_crash. repeat split; cbn [cur dur pend]; apply fold_batches_sorted, H3.
Qed.
Lemma sled_crash_all n s : sled_ok s -> (length (pend s) <= n)%nat -> cur (sled_crash n s) = cur s.
Proof. intros (H1 & _) H. unfold sled_crash. cbn [cur]. rewrite firstn_all2 by exact H. symmetry. exact H1. Qed.
Lemma sled_crash_flushed n s : cur (sled_crash n (sled_flush s)) = cur s.
Proof. unfold sled_crash, sled_flush. cbn [pend dur cur]. rewrite firstn_nil. reflexivity. Qed.
