(** Proofs of the directory theorems. *)
From Coq Require Import Lia.
From Verif Require Import Base Sled Chain Tree Fs FsSpec Demo.
From Verif Require Import BaseFacts DerivFacts.

Fixpoint copy_entries (es l : list (bytes * fnode)) : list (bytes * fnode) * bool :=
  match es with
  | [] => (l, true)
  | (name, x) :: es =>
      let '(r, ok) := copy_node x (assoc_get name l) in
      let l := match r with Some y => assoc_set name y l | None => l end in
      if ok then copy_entries es l else (l, false)
  end.
Lemma copy_node_dir es dst : copy_node (Dir es) dst =
  match dst with
  | Some (File _) => (dst, false)
  | _ => let '(l, ok) := copy_entries es (entries_of dst) in (Some (Dir l), ok)
  end.
Proof.
  assert (E : forall es l, (fix go (es : list (bytes * fnode)) (l : list (bytes * fnode)) :=
               match es with
               | [] => (l, true)
               | (name, x) :: es =>
                   let '(r, ok) := copy_node x (assoc_get name l) in
                   let l := match r with Some y => assoc_set name y l | None => l end in
                   if ok then go es l else (l, false)
               end) es l = copy_entries es l).
  { clear es dst. induction es as [|[nm x] es IH]; intros l; [reflexivity|]. cbn [copy_entries].
    destruct (copy_node x (assoc_get nm l)) as [r ok]. destruct ok; [apply IH|reflexivity]. }
  cbn [copy_node]. rewrite E. destruct dst as [[c|l]|]; reflexivity.
Qed.

Section FnodeInd.
Variable P : fnode -> Prop.
Hypothesis HF : forall c, P (File c).
Hypothesis HD : forall es, Forall (fun e => P (snd e)) es -> P (Dir es).
Fixpoint fnode_ind' (n : fnode) : P n :=
  match n with
  | File c => HF c
  | Dir es => HD es ((fix go es : Forall (fun e => P (snd e)) es :=
      match es with [] => Forall_nil _ | e :: es => Forall_cons _ (fnode_ind' (snd e)) (go es) end) es)
  end.
End FnodeInd.

Definition overlay (a b : option kind) : option kind := match a with Some k => Some k | None => b end.
Definition clean (src : fnode) (dst : option fnode) : Prop := forall path, ~ clash (at_path path src) (at_path_opt path dst).

Definition node_ok (src : fnode) : Prop := fs_wf src -> forall dst,
  let '(r, ok) := copy_node src dst in
  (ok = true <-> clean src dst) /\
  (ok = true -> exists y, r = Some y /\ forall path, at_path path y = overlay (at_path path src) (at_path_opt path dst)).

(** Lookup of a path in a list of entries. *)
Definition at_in (es : list (bytes * fnode)) (name : bytes) (path : list bytes) : option kind :=
  at_path_opt path (assoc_get name es).
Lemma at_path_cons es name path : at_path (name :: path) (Dir es) = at_in es name path.
Proof. unfold at_in. cbn [at_path]. destruct (assoc_get name es); reflexivity. Qed.

Lemma entries_ok es : Forall (fun e => node_ok (snd e)) es -> NoDup (map fst es) -> (forall name x, In (name, x) es -> fs_wf x) ->
  forall l, let '(l', ok) := copy_entries es l in
  (ok = true <-> forall name path, ~ clash (at_in es name path) (at_in l name path)) /\
  (ok = true -> forall name path, at_in l' name path = overlay (at_in es name path) (at_in l name path)).
Proof.
  induction es as [|[nm x] es IH]; intros HN HD HW l; cbn [copy_entries].
  - split; [|reflexivity]. split; [intros _ name path []|reflexivity].
  - inversion HN as [|? ? HNx HNes]; subst. inversion HD as [|? ? HDx HDes]; subst. cbn [snd] in HNx.
    assert (Hes : assoc_get nm es = None).
    { destruct (assoc_get nm es) as [z|] eqn:E; [|reflexivity]. apply assoc_get_in in E. exfalso. apply HDx. change nm with (fst (nm, z)). apply in_map, E. }
    assert (Hhd : forall path, at_in ((nm, x) :: es) nm path = at_path path x) by (intros path; unfold at_in; cbn [assoc_get]; rewrite bytes_eqb_refl; reflexivity).
    assert (Htl : forall name path, name <> nm -> at_in ((nm, x) :: es) name path = at_in es name path) by
      (intros name path Hne; unfold at_in; cbn [assoc_get]; rewrite (proj2 (bytes_eqb_neq _ _) Hne); reflexivity).
    pose proof (HNx (HW nm x (or_introl eq_refl)) (assoc_get nm l)) as Hx.
    destruct (copy_node x (assoc_get nm l)) as [r ok]. destruct Hx as [X1 X2]. destruct ok.
    + destruct (X2 eq_refl) as (y & -> & Xy). specialize (IH HNes HDes (fun n z Hz => HW n z (or_intror Hz)) (assoc_set nm y l)).
      assert (Hset : forall name path, at_in (assoc_set nm y l) name path = if bytes_eqb name nm then at_path path y else at_in l name path).
      { intros name path. unfold at_in. rewrite assoc_get_set. destruct (bytes_eqb name nm); reflexivity. }
      destruct (copy_entries es (assoc_set nm y l)) as [l' ok']. destruct IH as [I1 I2]. split.
      * rewrite I1. split.
        -- intros H name path. destruct (bytes_eqb name nm) eqn:E.
           ++ apply bytes_eqb_eq in E as ->. rewrite Hhd. apply X1. reflexivity.
           ++ apply bytes_eqb_neq in E. rewrite Htl by exact E. specialize (H name path). rewrite Hset, (proj2 (bytes_eqb_neq _ _) E) in H. exact H.
        -- intros H name path. rewrite Hset. destruct (bytes_eqb name nm) eqn:E.
           ++ apply bytes_eqb_eq in E as ->. unfold at_in. rewrite Hes. intros [].
           ++ apply bytes_eqb_neq in E. specialize (H name path). rewrite Htl in H by exact E. exact H.
      * intros Ho name path. rewrite (I2 Ho), Hset. destruct (bytes_eqb name nm) eqn:E.
        -- apply bytes_eqb_eq in E as ->. rewrite Hhd, Xy. unfold at_in. rewrite Hes. reflexivity.
        -- apply bytes_eqb_neq in E. rewrite Htl by exact E. reflexivity.
    + split; [|discriminate]. split; [discriminate|]. intros H. apply X1. intros path. specialize (H nm path). rewrite Hhd in H. exact H.
Qed.

Lemma copy_node_ok src : node_ok src.
Proof.
  induction src as [c|es IH] using fnode_ind'; intros Hw dst.
  - cbn [copy_node]. destruct dst as [[c'|l]|].
    + split.
      * split; [|reflexivity]. intros _ [|n path]; cbn; auto.
      * intros _. eexists. split; [reflexivity|]. intros [|n path]; reflexivity.
    + split; [|discriminate]. split; [discriminate|]. intros H. exfalso. apply (H []). exact I.
    + split.
      * split; [|reflexivity]. intros _ [|n path]; cbn; auto.
      * intros _. eexists. split; [reflexivity|]. intros [|n path]; reflexivity.
  - inversion Hw as [|? HD HW]; subst. rewrite copy_node_dir.
    assert (Hd : match dst with Some (File _) => False | _ => True end -> let '(l, ok) := copy_entries es (entries_of dst) in
      (ok = true <-> clean (Dir es) dst) /\
      (ok = true -> exists y, Some (Dir l) = Some y /\ forall path, at_path path y = overlay (at_path path (Dir es)) (at_path_opt path dst))).
    { intros Hdst. pose proof (entries_ok es IH HD HW (entries_of dst)) as S. destruct (copy_entries es (entries_of dst)) as [l ok]. destruct S as [S1 S2].
      assert (Hc : forall name path, at_path_opt (name :: path) dst = at_in (entries_of dst) name path).
      { intros name path. destruct dst as [[c|m]|]; [contradiction|apply at_path_cons|reflexivity]. }
      split.
      - rewrite S1. split.
        + intros H [|name path]; [destruct dst as [[c|m]|]; [contradiction|intros []..]|]. rewrite at_path_cons, Hc. apply H.
        + intros H name path. specialize (H (name :: path)). rewrite at_path_cons, Hc in H. exact H.
      - intros Ho. eexists. split; [reflexivity|]. intros [|name path]; [reflexivity|]. rewrite !at_path_cons, Hc. apply S2, Ho. }
    destruct dst as [[c|m]|].
    + split; [|discriminate]. split; [discriminate|]. intros H. exfalso. apply (H []). exact I.
    + specialize (Hd I). destruct (copy_entries es (entries_of (Some (Dir m)))). exact Hd.
    + specialize (Hd I). destruct (copy_entries es (entries_of None)). exact Hd.
Qed.

(*@T C52. Copying a directory succeeds exactly when nowhere a file of one tree meets a directory of the other; then at every path
   below the destination there is what the source has there, or else what the destination had.  For all trees, of any depth, in
   any order of enumeration. *)
Lemma p_C52_copy_overlays : forall es dst, fs_wf (Dir es) ->
  let '(r, ok) := copy_dir_all es dst in
  (ok = true <-> forall path, ~ clash (at_path path (Dir es)) (at_path_opt path dst)) /\
  (ok = true -> forall path, at_path_opt path r =
     match at_path path (Dir es) with Some k => Some k | None => at_path_opt path dst end).
Proof.
  intros es dst Hw. unfold copy_dir_all. pose proof (copy_node_ok (Dir es) Hw dst) as S. destruct (copy_node (Dir es) dst) as [r ok].
  destruct S as [S1 S2]. split; [exact S1|]. intros Ho path. destruct (S2 Ho) as (y & -> & Hy). apply Hy.
Qed.

(*@T C52. Copying to a destination that is absent or an empty directory succeeds and yields the source. *)
Lemma p_C52_copy_to_empty : forall es dst, fs_wf (Dir es) -> dst = None \/ dst = Some (Dir []) ->
  exists r, copy_dir_all es dst = (Some r, true) /\ forall path, at_path path r = at_path path (Dir es).
Proof.
  intros es dst Hw Hd. pose proof (copy_node_ok (Dir es) Hw dst) as S. unfold copy_dir_all. destruct (copy_node (Dir es) dst) as [r ok].
  destruct S as [S1 S2].
  assert (Hn : forall path, path <> [] -> at_path_opt path dst = None).
  { intros [|n path] Hp; [contradiction|]. destruct Hd as [->| ->]; reflexivity. }
  assert (ok = true) as ->.
  { apply S1. intros [|n path]; [destruct Hd as [->| ->]; intros []|]. rewrite Hn by discriminate. destruct (at_path (n :: path) (Dir es)) as [[]|]; intros []. }
  destruct (S2 eq_refl) as (y & -> & Hy). exists y. split; [reflexivity|]. intros [|n path]; rewrite Hy; [reflexivity|].
  rewrite Hn by discriminate. unfold overlay. destruct (at_path (n :: path) (Dir es)); reflexivity.
Qed.
(*@E
Definition demo_dir : list (bytes * fnode) :=
  [([100], File [1; 2]); ([98], Dir [([99], File [3]); ([97], Dir [])])].
Example C52_ex : fs_wf (Dir demo_dir) /\
  copy_dir_all demo_dir (Some (Dir [([120], File [9]); ([98], Dir [([99], File [7; 7])])])) =
    (Some (Dir [([120], File [9]); ([98], Dir [([99], File [3]); ([97], Dir [])]); ([100], File [1; 2])]), true) /\
  snd (copy_dir_all demo_dir (Some (Dir [([98], File [])]))) = false.
Proof.
  split; [|split; reflexivity].
  constructor; [repeat (constructor; [cbn; intuition discriminate|]); constructor|].
  intros name x [E|[E|[]]]; injection E as <- <-; constructor.
  - repeat (constructor; [cbn; intuition discriminate|]); constructor.
  - intros name x [E|[E|[]]]; injection E as <- <-; constructor; [constructor|intros ? ? []].
Qed.
@*)

(*@T C72. Rotation succeeds whenever the four database directories exist, leaves the two current ones alone, and leaves each old directory
   with exactly the contents of the current one, whatever was in it before. *)
Lemma p_C72_rotation_copies : forall es eo ges geo, fs_wf (Dir es) -> fs_wf (Dir ges) ->
  exists a b, rotate_upto 6 (MkDirs (Some (Dir es)) (Some (Dir eo)) (Some (Dir ges)) (Some (Dir geo))) =
    Some (MkDirs (Some (Dir es)) (Some a) (Some (Dir ges)) (Some b)) /\
    (forall path, at_path path a = at_path path (Dir es)) /\
    (forall path, at_path path b = at_path path (Dir ges)).
Proof.
  intros es eo ges geo H1 H2.
  destruct (p_C52_copy_to_empty es (Some (Dir [])) H1 (or_intror eq_refl)) as (a & Ea & Ha).
  destruct (p_C52_copy_to_empty ges (Some (Dir [])) H2 (or_intror eq_refl)) as (b & Eb & Hb).
  exists a, b. split; [|split; assumption].
  unfold rotate_upto, rotate_steps. cbn [firstn fold_left d_summary d_old_summary d_gas d_old_gas remove_dir create_dir option_map copy_to].
  rewrite Ea. cbn [option_map d_summary d_old_summary d_gas d_old_gas copy_to]. rewrite Eb. reflexivity.
Qed.
(*@E
Example C72_ex : rotate_upto 6 (MkDirs (Some (Dir demo_dir)) (Some (Dir [([120], File [])])) (Some (Dir [])) (Some (Dir []))) =
  Some (MkDirs (Some (Dir demo_dir)) (Some (Dir demo_dir)) (Some (Dir [])) (Some (Dir []))).
Proof. reflexivity. Qed.
@*)

(*@T C72. Without one of the four directories rotation fails: an old directory that is missing cannot be removed (blockchaintree.rs:555-590). *)
Lemma p_C72_rotation_needs : forall d d', rotate_upto 6 d = Some d' ->
  exists es eo ges geo, d = MkDirs (Some (Dir es)) (Some (Dir eo)) (Some (Dir ges)) (Some (Dir geo)).
Proof.
  intros [a [[c2|eo]|] g [[c4|geo]|]] d' E; try discriminate E.
  destruct a as [[c|es]|]; try discriminate E. destruct g as [[c3|ges]|]; [|exists es, eo, ges, geo; reflexivity|];
    exfalso; revert E; unfold rotate_upto, rotate_steps;
    cbn [firstn fold_left d_summary d_old_summary d_gas d_old_gas remove_dir create_dir option_map copy_to];
    destruct (copy_dir_all _ _) as [r []]; cbn [option_map d_summary d_old_summary d_gas d_old_gas copy_to]; discriminate.
Qed.
(*@E
Example C72_needs_ex : rotate_upto 6 (MkDirs (Some (Dir demo_dir)) None (Some (Dir [])) (Some (Dir []))) = None /\ rotate_upto 6 (MkDirs (Some (Dir demo_dir)) (Some (Dir [])) (Some (Dir [])) (Some (Dir []))) <> None.
Proof. split; [reflexivity|discriminate]. Qed.
@*)

(*@T C73 fails: rotation removes the old directories before copying.  After a crash in between, the old summary is
   neither the one before nor the new one; both old directories are affected for every non-empty tree. *)
Lemma p_C73_rotation_is_not_atomic_refuted : forall es eo ges geo, es <> [] -> eo <> [] ->
  exists n d, rotate_upto n (MkDirs (Some (Dir es)) (Some (Dir eo)) (Some (Dir ges)) (Some (Dir geo))) = Some d /\
    d_old_summary d <> Some (Dir eo) /\ d_old_summary d <> Some (Dir es) /\ d_old_summary d <> None.
Proof.
  intros es eo ges geo H1 H2. exists 2%nat. eexists. split; [reflexivity|]. cbn [d_old_summary].
  split; [congruence|]. split; congruence.
Qed.

Lemma part_done x y : (forall path, at_path path x = at_path path y) -> part_of (Some x) y.
Proof.
  intros H path. cbn [at_path_opt]. rewrite H. destruct (at_path path y) as [[c|]|]; auto. exists []. rewrite app_nil_r. reflexivity.
Qed.
Lemma part_none y : part_of None y.
Proof. intros path. exact I. Qed.
Lemma part_empty es : part_of (Some (Dir [])) (Dir es).
Proof. intros [|n path]; [reflexivity|exact I]. Qed.
Lemma part_in l es : part_of (Some (Dir l)) (Dir es) <-> forall name x, assoc_get name l = Some x -> exists y, assoc_get name es = Some y /\ part_of (Some x) y.
Proof.
  split.
  - intros H name x Hx. pose proof (H [name]) as H0. cbn [at_path_opt at_path] in H0. rewrite Hx in H0. destruct (assoc_get name es) as [y|] eqn:Ey.
    + exists y. split; [reflexivity|]. intros path. specialize (H (name :: path)). cbn [at_path_opt at_path] in H. rewrite Hx, Ey in H. exact H.
    + exfalso. destruct x; cbn [kind_of] in H0; [destruct H0 as [c' H0]|]; discriminate H0.
  - intros H [|name path]; [reflexivity|]. cbn [at_path_opt at_path]. destruct (assoc_get name l) as [x|] eqn:Ex; [|exact I].
    destruct (H name x Ex) as (y & -> & Hy). exact (Hy path).
Qed.
Lemma part_over x y dst r : part_of dst y -> part_of (Some x) y ->
  (forall path, at_path path r = overlay (at_path path x) (at_path_opt path dst)) -> part_of (Some r) y.
Proof.
  intros H1 H2 H path. cbn [at_path_opt]. rewrite H. specialize (H1 path). specialize (H2 path). cbn [at_path_opt] in H2. unfold overlay.
  destruct (at_path path x); [exact H2|exact H1].
Qed.
Lemma assoc_get_app {A} (a b : list (bytes * A)) name x : assoc_get name a = Some x -> assoc_get name (a ++ b) = Some x.
Proof.
  induction a as [|[n y] a IH]; [discriminate|]. cbn [assoc_get app]. destruct (bytes_eqb name n); auto.
Qed.
Lemma copying_part src dst mid : copying src dst mid -> fs_wf src -> part_of dst src -> part_of mid src.
Proof.
  assert (Hb : forall before after dst l, fs_wf (Dir (before ++ after)) -> part_of dst (Dir (before ++ after)) -> copy_node (Dir before) dst = (Some (Dir l), true) ->
    part_of (Some (Dir l)) (Dir (before ++ after))).
  { intros before after dst0 l Hw Hp E. inversion Hw as [|? HD HW]; subst.
    assert (Hw' : fs_wf (Dir before)).
    { constructor; [rewrite map_app in HD; clear -HD; induction before as [|e l IH]; [constructor|]; cbn [map app] in *; inversion HD; subst; constructor; [intros Hi; apply H1, in_or_app; left; exact Hi|auto]|].
      intros name x Hi. apply (HW name x), in_or_app. left. exact Hi. }
    pose proof (copy_node_ok (Dir before) Hw' dst0) as S. rewrite E in S. destruct S as [_ S]. destruct (S eq_refl) as (y & Ey & Hy). injection Ey as <-.
    eapply part_over; [exact Hp| |exact Hy]. apply part_in. intros name x Hx. exists x. split; [apply assoc_get_app, Hx|]. apply part_done. reflexivity. }
  induction 1 as [src dst|c dst n Hd|before after dst l E|before name x after dst l m E Hc IH]; intros Hw Hp.
  - exact Hp.
  - intros [|nm path]; [|exact I]. cbn [at_path_opt at_path kind_of]. exists (skipn n c). rewrite firstn_skipn. reflexivity.
  - eapply Hb; eassumption.
  - pose proof (Hb _ _ _ _ Hw Hp E) as Hl. inversion Hw as [|? HD HW]; subst.
    assert (Hx : assoc_get name (before ++ (name, x) :: after) = Some x).
    { rewrite map_app in HD. cbn [map fst] in HD. clear -HD. induction before as [|[n0 y] b IH]; cbn [assoc_get app map fst] in *; [rewrite bytes_eqb_refl; reflexivity|].
      inversion HD; subst. destruct (bytes_eqb name n0) eqn:En; [|auto]. apply bytes_eqb_eq in En as ->. exfalso. apply H1, in_or_app. right. left. reflexivity. }
    rewrite part_in in Hl. apply part_in. intros nm z Hz. rewrite assoc_get_set in Hz. destruct (bytes_eqb nm name) eqn:En; [|apply Hl, Hz].
    apply bytes_eqb_eq in En as ->. injection Hz as <-. exists x. split; [exact Hx|]. apply IH.
    + apply (HW name), in_or_app. right. left. reflexivity.
    + destruct (assoc_get name l) as [z|] eqn:Ez; [|apply part_none]. destruct (Hl name z Ez) as (y & Ey & Hy). rewrite Hx in Ey. injection Ey as <-. exact Hy.
Qed.
Lemma at_path_subnode path : forall n, at_path path n = option_map kind_of (subnode path n).
Proof.
  induction path as [|name path IH]; intros n; [reflexivity|]. cbn [at_path subnode]. destruct n as [c|es]; [reflexivity|]. destruct (assoc_get name es); [apply IH|reflexivity].
Qed.
Lemma removing_part n m : removing n m -> part_of m n.
Proof.
  destruct m as [m|]; [|intros _; apply part_none]. intros H path. cbn [at_path_opt]. rewrite !at_path_subnode. specialize (H path).
  destruct (subnode path m) as [x|]; [|exact I]. specialize (H x eq_refl). destruct x as [c|es]; destruct (subnode path n) as [[c'|es']|]; try contradiction; cbn [option_map kind_of].
  - subst c'. exists []. rewrite app_nil_r. reflexivity.
  - reflexivity.
Qed.

(*@T C73, what holds at every moment of a rotation, also in the middle of a removal or of a copy: the current directories are untouched; each old
   directory is part of what it was or part of the current one (files there may be cut short); and once the old directories exist again (opening the
   databases creates missing ones) a second rotation completes with both copies right.
   Missing: that the old databases are usable, see [C73_rotation_is_not_atomic_refuted]. *)
Lemma p_C73_rotation_can_be_repeated_partial : forall es eo ges geo d, fs_wf (Dir es) -> fs_wf (Dir ges) ->
  rotating (MkDirs (Some (Dir es)) (Some (Dir eo)) (Some (Dir ges)) (Some (Dir geo))) d ->
  d_summary d = Some (Dir es) /\ d_gas d = Some (Dir ges) /\
  (part_of (d_old_summary d) (Dir eo) \/ part_of (d_old_summary d) (Dir es)) /\
  (part_of (d_old_gas d) (Dir geo) \/ part_of (d_old_gas d) (Dir ges)) /\
  forall eo' geo', exists a b,
    rotate_upto 6 (MkDirs (d_summary d) (Some (Dir eo')) (d_gas d) (Some (Dir geo'))) =
      Some (MkDirs (d_summary d) (Some a) (d_gas d) (Some b)) /\
    (forall path, at_path path a = at_path path (Dir es)) /\ (forall path, at_path path b = at_path path (Dir ges)).
Proof.
  intros es eo ges geo d H1 H2 E.
  destruct (p_C72_rotation_copies es eo ges geo H1 H2) as (a & b & E6 & Ha & Hb).
  destruct (p_C52_copy_to_empty es (Some (Dir [])) H1 (or_intror eq_refl)) as (a' & Ea & Ha').
  assert (R0 : forall n, rotate_upto n (MkDirs (Some (Dir es)) (Some (Dir eo)) (Some (Dir ges)) (Some (Dir geo))) = 
    match n with
    | 0 => Some (MkDirs (Some (Dir es)) (Some (Dir eo)) (Some (Dir ges)) (Some (Dir geo)))
    | 1 => Some (MkDirs (Some (Dir es)) None (Some (Dir ges)) (Some (Dir geo)))
    | 2 => Some (MkDirs (Some (Dir es)) (Some (Dir [])) (Some (Dir ges)) (Some (Dir geo)))
    | 3 => Some (MkDirs (Some (Dir es)) (Some (Dir [])) (Some (Dir ges)) None)
    | 4 => Some (MkDirs (Some (Dir es)) (Some (Dir [])) (Some (Dir ges)) (Some (Dir [])))
    | 5 => Some (MkDirs (Some (Dir es)) (Some a') (Some (Dir ges)) (Some (Dir [])))
    | _ => Some (MkDirs (Some (Dir es)) (Some a) (Some (Dir ges)) (Some b))
    end%nat).
  { intros n. destruct n as [|[|[|[|[|[|n]]]]]]; [reflexivity..| |].
    - unfold rotate_upto, rotate_steps. cbn [firstn fold_left d_summary d_old_summary d_gas d_old_gas remove_dir create_dir option_map copy_to]. rewrite Ea. reflexivity.
    - rewrite <- E6. unfold rotate_upto, rotate_steps. cbn [firstn]. rewrite firstn_nil. reflexivity. }
  assert (G : d_summary d = Some (Dir es) /\ d_gas d = Some (Dir ges) /\
    (part_of (d_old_summary d) (Dir eo) \/ part_of (d_old_summary d) (Dir es)) /\ (part_of (d_old_gas d) (Dir geo) \/ part_of (d_old_gas d) (Dir ges))).
  { inversion E as [n d' En|n m En Hm|d' n m En Hn Hm|d' src m En Hn Hm|d' src m En Hn Hm]; subst.
    - rewrite R0 in En. destruct n as [|[|[|[|[|[|n]]]]]]; injection En as <-; cbn [d_summary d_old_summary d_gas d_old_gas]; (split; [reflexivity|]; split; [reflexivity|]); split;
        first [left; apply part_done; reflexivity|right; apply part_done; assumption|left; apply part_none|left; apply part_empty].
    - cbn [d_summary d_old_summary d_gas d_old_gas] in *. injection En as <-. split; [reflexivity|]. split; [reflexivity|]. split; left; [apply removing_part, Hm|apply part_done; reflexivity].
    - rewrite R0 in En. injection En as <-. cbn [d_summary d_old_summary d_gas d_old_gas] in *. injection Hn as <-. split; [reflexivity|]. split; [reflexivity|]. split; left; [apply part_empty|apply removing_part, Hm].
    - rewrite R0 in En. injection En as <-. cbn [d_summary d_old_summary d_gas d_old_gas] in *. injection Hn as <-. split; [reflexivity|]. split; [reflexivity|].
      split; [right; eapply copying_part; [exact Hm|exact H1|apply part_empty]|left; apply part_empty].
    - rewrite R0 in En. injection En as <-. cbn [d_summary d_old_summary d_gas d_old_gas] in *. injection Hn as <-. split; [reflexivity|]. split; [reflexivity|].
      split; [right; apply part_done, Ha'|right; eapply copying_part; [exact Hm|exact H2|apply part_empty]]. }
  destruct G as (-> & -> & G3 & G4). split; [reflexivity|]. split; [reflexivity|]. split; [exact G3|]. split; [exact G4|]. intros eo' geo'. apply p_C72_rotation_copies; assumption.
Qed.
(*@E
Example C73_ex : map (fun n => match rotate_upto n (MkDirs (Some (Dir demo_dir)) (Some (Dir [([120], File [])])) (Some (Dir [])) (Some (Dir []))) with
  | Some d => d_old_summary d | None => None end) [0; 1; 2; 3; 4; 5; 6]%nat =
  [Some (Dir [([120], File [])]); None; Some (Dir []); Some (Dir []); Some (Dir []); Some (Dir demo_dir); Some (Dir demo_dir)].
Proof. reflexivity. Qed.
(** Crash in the middle of copying a file of two bytes in a subdirectory. *)
Example C73_ex_inside : rotating (MkDirs (Some (Dir [([98], Dir [([99], File [3; 4])])])) (Some (Dir [])) (Some (Dir [])) (Some (Dir [])))
  (MkDirs (Some (Dir [([98], Dir [([99], File [3; 4])])])) (Some (Dir [([98], Dir [([99], File [3])])])) (Some (Dir [])) (Some (Dir []))).
Proof.
  apply (rotating_copy_summary _ (MkDirs (Some (Dir [([98], Dir [([99], File [3; 4])])])) (Some (Dir [])) (Some (Dir [])) (Some (Dir []))) (Dir [([98], Dir [([99], File [3; 4])])]));
    [reflexivity|reflexivity|]. cbn [d_old_summary].
  apply (copying_entry [] [98] (Dir [([99], File [3; 4])]) [] _ []); [reflexivity|].
  apply (copying_entry [] [99] (File [3; 4]) [] _ []); [reflexivity|]. apply (copying_file [3; 4] _ 1). discriminate.
Qed.
@*)
