(** Lemmas about the heap and the transaction pool. *)
From Coq Require Import Lia ZifyBool ZifyNat ZifyN Permutation Sorted.
From Verif Require Import Base Transaction TxPool BaseFacts.

Ltac divlia := Zify.zify; Z.to_euclidean_division_equations; lia.

(** ** Swapping *)
Section Lists.
Context {A : Type}.
Implicit Types l : list A.

Lemma set_nth_length i x l : length (set_nth i x l) = length l.
Proof. revert i. induction l as [|y l IH]; intros [|i]; cbn; auto. Qed.
Lemma set_nth_get i x l n : nth_error (set_nth i x l) n =
  if Nat.eqb n i then (if Nat.ltb i (length l) then Some x else None) else nth_error l n.
Proof.
  revert i n. induction l as [|y l IH]; intros [|i] [|n]; cbn [set_nth nth_error length]; try reflexivity.
  - change (S n =? S i)%nat with (n =? i)%nat. destruct (Nat.eqb n i); reflexivity.
  - rewrite IH. reflexivity.
Qed.
Lemma swap_length i j l : length (swap i j l) = length l.
Proof. unfold swap. destruct (nth_error l i), (nth_error l j); try reflexivity. rewrite !set_nth_length. reflexivity. Qed.
Definition tau (i j n : nat) : nat := if Nat.eqb n i then j else if Nat.eqb n j then i else n.
Lemma swap_get i j l n : (i < length l)%nat -> (j < length l)%nat -> nth_error (swap i j l) n = nth_error l (tau i j n).
Proof.
  intros Hi Hj. unfold swap, tau. destruct (nth_error l i) as [x|] eqn:Ei; [|apply nth_error_None in Ei; lia].
  destruct (nth_error l j) as [y|] eqn:Ej; [|apply nth_error_None in Ej; lia].
  rewrite !set_nth_get, set_nth_length. destruct (Nat.ltb_spec i (length l)); [|lia]. destruct (Nat.ltb_spec j (length l)); [|lia].
  destruct (Nat.eqb_spec n i) as [->|]; [symmetry; exact Ej|]. destruct (Nat.eqb_spec n j) as [->|]; [symmetry; exact Ei|reflexivity].
Qed.
Lemma swap_perm i j l : Permutation l (swap i j l).
Proof.
  destruct (Nat.ltb_spec i (length l)) as [Hi|Hi]; destruct (Nat.ltb_spec j (length l)) as [Hj|Hj];
    try (unfold swap; rewrite ?(proj2 (nth_error_None l i)), ?(proj2 (nth_error_None l j)) by lia; try destruct (nth_error l i); reflexivity).
  apply Permutation_nth_error. split; [rewrite swap_length; reflexivity|]. exists (tau i j). split.
  - intros a b. unfold tau. destruct (Nat.eqb_spec a i), (Nat.eqb_spec b i), (Nat.eqb_spec a j), (Nat.eqb_spec b j); lia.
  - intros n. apply swap_get; assumption.
Qed.
End Lists.

(** ** Heaps *)
Section Heaps.
Context {A : Type}.
Variable le : A -> A -> bool.
Hypothesis le_total : forall a b, le a b = false -> le b a = true.
Hypothesis le_trans : forall a b c, le a b = true -> le b c = true -> le a c = true.
Implicit Types l : list A.

Lemma le_refl a : le a a = true.
Proof. destruct (le a a) eqn:E; [reflexivity|]. apply le_total in E as E'. congruence. Qed.

Definition at_le l (i j : nat) : Prop := forall x y, nth_error l i = Some x -> nth_error l j = Some y -> le x y = true.
Lemma le_at_true l i j : le_at le l i j = true -> at_le l i j.
Proof. unfold le_at, at_le. intros H x y E1 E2. rewrite E1, E2 in H. exact H. Qed.
Lemma le_at_false l i j : le_at le l i j = false -> at_le l j i.
Proof. unfold le_at, at_le. intros H x y E1 E2. rewrite E1, E2 in H. apply le_total, H. Qed.
Lemma at_le_trans l i j k : (j < length l)%nat -> at_le l i j -> at_le l j k -> at_le l i k.
Proof.
  intros Hj H1 H2 x z Ex Ez. destruct (nth_error l j) as [y|] eqn:Ey; [|apply nth_error_None in Ey; lia].
  eapply le_trans; [apply (H1 x y Ex Ey)|apply (H2 y z Ey Ez)].
Qed.
Lemma at_le_swap l p q i j : (p < length l)%nat -> (q < length l)%nat ->
  at_le l (tau p q i) (tau p q j) -> at_le (swap p q l) i j.
Proof. intros Hp Hq H x y. rewrite !swap_get by assumption. apply H. Qed.

Definition par (i : nat) : nat := Nat.div (i - 1) 2.
Definition heap l : Prop := forall i, (0 < i < length l)%nat -> at_le l i (par i).
(** Ordered except at [pos]. *)
Definition heap_but l (pos : nat) : Prop :=
  (forall i, (0 < i < length l)%nat -> i <> pos -> at_le l i (par i)) /\
  (forall i, (0 < i < length l)%nat -> par i = pos -> (0 < pos)%nat -> at_le l i (par pos)).
(** Ordered except at [pos] and between [pos] and its children. *)
Definition heap_hole l (pos : nat) : Prop :=
  (forall i, (0 < i < length l)%nat -> i <> pos -> par i <> pos -> at_le l i (par i)) /\
  (forall i, (0 < i < length l)%nat -> par i = pos -> (0 < pos)%nat -> at_le l i (par pos)).

Lemma tau_l i j : tau i j i = j.
Proof. unfold tau. rewrite Nat.eqb_refl. reflexivity. Qed.
Lemma tau_r i j : tau i j j = i.
Proof. unfold tau. destruct (Nat.eqb_spec j i); [auto|]. rewrite Nat.eqb_refl. reflexivity. Qed.
Lemma tau_o i j n : n <> i -> n <> j -> tau i j n = n.
Proof. intros H1 H2. unfold tau. destruct (Nat.eqb_spec n i); [contradiction|]. destruct (Nat.eqb_spec n j); [contradiction|reflexivity]. Qed.
Lemma par_lt i : (0 < i)%nat -> (par i < i)%nat.
Proof. unfold par. intros. divlia. Qed.

Lemma sift_up_ok fuel : forall pos l, (pos < length l)%nat -> (pos <= fuel)%nat -> heap_but l pos ->
  heap (sift_up le fuel pos l) /\ Permutation l (sift_up le fuel pos l).
Proof.
  induction fuel as [|fuel IH]; intros pos l Hpos Hf [H1 H2]; cbn [sift_up].
  - split; [|reflexivity]. intros i Hi. apply H1; lia.
  - destruct (Nat.eqb_spec pos 0) as [->|Hp0]; [split; [|reflexivity]; intros i Hi; apply H1; lia|].
    fold (par pos). pose proof (par_lt pos ltac:(lia)) as Hpl. destruct (le_at le l pos (par pos)) eqn:E.
    + split; [|reflexivity]. intros i Hi. destruct (Nat.eq_dec i pos) as [->|Hne]; [apply le_at_true, E|apply H1; assumption].
    + apply le_at_false in E. destruct (IH (par pos) (swap pos (par pos) l)) as [R1 R2].
      * rewrite swap_length. lia.
      * lia.
      * split; intros i Hi; rewrite swap_length in Hi; intros Hne; [|intros Hp1]; apply at_le_swap; try lia.
        -- destruct (Nat.eq_dec i pos) as [->|Hip].
           ++ rewrite tau_l, tau_r. exact E.
           ++ rewrite (tau_o pos (par pos) i) by assumption. destruct (Nat.eq_dec (par i) pos) as [Ei|Ei].
              ** rewrite Ei, tau_l. apply H2; [exact Hi|exact Ei|lia].
              ** destruct (Nat.eq_dec (par i) (par pos)) as [Ej|Ej].
                 --- rewrite Ej, tau_r. apply (at_le_trans l i (par pos) pos); [lia| |exact E]. rewrite <- Ej. apply H1; assumption.
                 --- rewrite tau_o by assumption. apply H1; assumption.
        -- pose proof (par_lt (par pos) Hp1). pose proof (par_lt i ltac:(lia)).
           rewrite (tau_o pos (par pos) (par (par pos))) by lia. destruct (Nat.eq_dec i pos) as [->|Hip].
           ++ rewrite tau_l. apply H1; lia.
           ++ rewrite tau_o by lia. apply (at_le_trans l i (par pos)); [lia| |apply H1; lia]. rewrite <- Hne. apply H1; assumption.
      * split; [exact R1|]. etransitivity; [apply swap_perm|exact R2].
Qed.

Lemma par_child i pos : (0 < i)%nat -> par i = pos -> (i = 2 * pos + 1 \/ i = 2 * pos + 2)%nat.
Proof. unfold par. intros. divlia. Qed.
Lemma par_left pos : par (2 * pos + 1) = pos.
Proof. unfold par. divlia. Qed.
Lemma par_right pos : par (2 * pos + 2) = pos.
Proof. unfold par. divlia. Qed.

Lemma sink_step l pos c o : (pos < length l)%nat -> (c < length l)%nat -> (0 < c)%nat -> par c = pos ->
  (forall i, (0 < i < length l)%nat -> par i = pos -> i = c \/ i = o) -> at_le l o c -> heap_hole l pos -> heap_hole (swap pos c l) c.
Proof.
  intros Hpos Hc Hc0 Hpc Hall Ho [H1 H2]. pose proof (par_lt c Hc0). split; intros i Hi; rewrite swap_length in Hi.
  - intros Hne Hpi. apply at_le_swap; try lia. destruct (Nat.eq_dec i pos) as [->|Hip].
    + pose proof (par_lt pos ltac:(lia)). rewrite tau_l, tau_o by lia. apply H2; lia.
    + rewrite (tau_o pos c i) by assumption. destruct (Nat.eq_dec (par i) pos) as [Ei|Ei].
      * rewrite Ei, tau_l. destruct (Hall i Hi Ei) as [->| ->]; [contradiction|exact Ho].
      * rewrite tau_o by assumption. apply H1; assumption.
  - intros Hpi _. pose proof (par_lt i ltac:(lia)). apply at_le_swap; try lia. rewrite Hpc, tau_l. rewrite tau_o by lia.
    rewrite <- Hpi. apply H1; lia.
Qed.

Lemma sink_ok fuel : forall pos l, (pos < length l)%nat -> (length l <= pos + fuel)%nat -> heap_hole l pos ->
  let '(l', pos') := sink le fuel pos l in
  heap_but l' pos' /\ (pos' < length l')%nat /\ Permutation l l'.
Proof.
  induction fuel as [|fuel IH]; intros pos l Hpos Hf H; cbn [sink]; [lia|].
  destruct (Nat.leb_spec (2 * pos + 1) (length l - 2)) as [Hc|Hc].
  - set (c := if le_at le l (2 * pos + 1) (2 * pos + 1 + 1) then (2 * pos + 1 + 1)%nat else (2 * pos + 1)%nat).
    assert (Hcc : (c = 2 * pos + 2 /\ at_le l (2 * pos + 1) c \/ c = 2 * pos + 1 /\ at_le l (2 * pos + 2) c)%nat).
    { subst c. destruct (le_at le l (2 * pos + 1) (2 * pos + 1 + 1)) eqn:E.
      - left. split; [lia|]. apply le_at_true, E.
      - right. split; [lia|]. apply le_at_false in E. replace (2 * pos + 2)%nat with (2 * pos + 1 + 1)%nat by lia. exact E. }
    assert (Hh : heap_hole (swap pos c l) c).
    { destruct Hcc as [[Ec Hle]|[Ec Hle]].
      - apply (sink_step l pos c (2 * pos + 1)); try assumption; try lia; [rewrite Ec; apply par_right|].
        intros i Hi Hp. apply par_child in Hp; lia.
      - apply (sink_step l pos c (2 * pos + 2)); try assumption; try lia; [rewrite Ec; apply par_left|].
        intros i Hi Hp. apply par_child in Hp; lia. }
    specialize (IH c (swap pos c l)). rewrite swap_length in IH. specialize (IH ltac:(lia) ltac:(lia) Hh).
    destruct (sink le fuel c (swap pos c l)) as [l' pos']. destruct IH as (I1 & I2 & I3). split; [exact I1|]. split; [exact I2|].
    etransitivity; [apply swap_perm|exact I3].
  - destruct (Nat.eqb_spec (2 * pos + 1) (length l - 1)) as [He|He].
    + assert (Hh : heap_hole (swap pos (2 * pos + 1) l) (2 * pos + 1)).
      { apply (sink_step l pos (2 * pos + 1) (2 * pos + 1)); try assumption; try lia; [apply par_left| |intros x y -> Ey; injection Ey as ->; apply le_refl].
        intros i Hi Hp. apply par_child in Hp; lia. }
      split; [|rewrite swap_length; split; [lia|apply swap_perm]].
      destruct Hh as [G1 G2]. split; [|exact G2]. intros i Hi Hne. apply G1; [exact Hi|exact Hne|].
      rewrite swap_length in Hi. intros Hp. apply par_child in Hp; lia.
    + split; [|split; [exact Hpos|reflexivity]]. destruct H as [G1 G2]. split; [|exact G2]. intros i Hi Hne. apply G1; [exact Hi|exact Hne|].
      intros Hp. apply par_child in Hp; lia.
Qed.

Lemma heap_push_ok x l : heap l -> heap (heap_push le x l) /\ Permutation (x :: l) (heap_push le x l).
Proof.
  intros H. unfold heap_push. destruct (sift_up_ok (length l) (length l) (l ++ [x])) as [R1 R2].
  - rewrite app_length. cbn. lia.
  - lia.
  - split; intros i Hi; rewrite app_length in Hi; cbn [length] in Hi.
    + intros Hne a b. pose proof (par_lt i ltac:(lia)). rewrite !nth_error_app1 by lia. apply H. lia.
    + intros Hp. apply par_child in Hp; lia.
  - split; [exact R1|]. etransitivity; [apply Permutation_cons_append|exact R2].
Qed.

Lemma sift_down_ok x rest : (forall i, (0 < i < length (x :: rest))%nat -> par i <> 0%nat -> at_le (x :: rest) i (par i)) ->
  heap (sift_down_to_bottom le (x :: rest)) /\ Permutation (x :: rest) (sift_down_to_bottom le (x :: rest)).
Proof.
  intros H. unfold sift_down_to_bottom. pose proof (sink_ok (length (x :: rest)) 0 (x :: rest)) as S.
  destruct (sink le (length (x :: rest)) 0 (x :: rest)) as [l' pos']. destruct S as (S1 & S2 & S3).
  - cbn. lia.
  - lia.
  - split; [intros i Hi _ Hp; apply H; assumption|intros i _ _ Hc; lia].
  - destruct (sift_up_ok pos' pos' l' S2 (le_n _) S1) as [R1 R2]. split; [exact R1|]. etransitivity; eassumption.
Qed.

Lemma heap_top l x : heap l -> nth_error l 0 = Some x -> forall y, In y l -> le y x = true.
Proof.
  intros H Hx y Hy. apply In_nth_error in Hy as (n & Hn). revert y Hn. induction n as [n IH] using lt_wf_ind. intros y Hn.
  destruct (Nat.eq_dec n 0) as [->|Hn0]; [rewrite Hx in Hn; injection Hn as <-; apply le_refl|].
  assert (Hl : (n < length l)%nat) by (apply nth_error_Some; congruence). pose proof (par_lt n ltac:(lia)) as Hp.
  destruct (nth_error l (par n)) as [z|] eqn:Ez; [|apply nth_error_None in Ez; lia].
  eapply le_trans; [apply (H n ltac:(lia) y z Hn Ez)|apply (IH _ Hp z Ez)].
Qed.

Lemma heap_pop_ok l : heap l ->
  match heap_pop le l with
  | None => l = []
  | Some (x, l') => heap l' /\ Permutation l (x :: l') /\ forall y, In y l -> le y x = true
  end.
Proof.
  intros H. unfold heap_pop. destruct (rev l) as [|item r] eqn:E.
  - apply (f_equal (@rev A)) in E. rewrite rev_involutive in E. exact E.
  - apply (f_equal (@rev A)) in E. rewrite rev_involutive in E. cbn [rev] in E. destruct (rev r) as [|top rest].
    + cbn in E. subst l. split; [intros i Hi; cbn in Hi; lia|]. split; [reflexivity|].
      intros y [<-|[]]. apply le_refl.
    + cbn [app] in E. destruct (sift_down_ok item rest) as [R1 R2].
      * intros i Hi Hp a b Ea Eb. cbn [length] in Hi. pose proof (par_lt i ltac:(lia)). apply (H i); subst l.
        -- cbn [length]. rewrite app_length. lia.
        -- destruct i as [|i]; [lia|]. cbn [nth_error] in *. rewrite nth_error_app1 by lia. exact Ea.
        -- destruct (par i) as [|k]; [contradiction|]. cbn [nth_error] in *. rewrite nth_error_app1 by lia. exact Eb.
      * split; [exact R1|]. split.
        -- subst l. apply perm_skip. etransitivity; [symmetry; apply Permutation_cons_append|exact R2].
        -- apply heap_top; [exact H|subst l; reflexivity].
Qed.
End Heaps.
