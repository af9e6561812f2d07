(** Lemmas about crashes. *)
From Coq Require Import Lia ZifyBool ZifyNat ZifyN.
From Verif Require Import Base Sha256 Merkle Tools Transaction Block Sled Chain Tree Spec Reach CrashSpec.
From Verif Require Import BaseFacts ToolsFacts MerkleFacts DiffFacts CodecFacts SledFacts ChainFacts TreeFacts.

(** ** Databases *)
Lemma crash_commit n b s : sled_ok s ->
  sled_crash n (sled_commit b s) = sled_crash n s \/
  forall k, sled_get k (sled_crash n (sled_commit b s)) = sled_get k (sled_commit b s).
Proof.
  intros H. destruct (Nat.le_gt_cases n (length (pend s))) as [Hn|Hn].
  - left. unfold sled_crash, sled_commit. cbn [pend dur]. rewrite firstn_app.
    replace (n - length (pend s))%nat with 0%nat by lia. cbn [firstn]. rewrite app_nil_r. reflexivity.
  - right. intros k. unfold sled_get. rewrite sled_crash_all; [reflexivity|apply sled_ok_commit, H|].
    cbn [sled_commit pend]. rewrite app_length. cbn. lia.
Qed.
Lemma crash_full s : sled_ok s -> forall k, sled_get k (sled_crash (length (pend s)) s) = sled_get k s.
Proof. intros H k. unfold sled_get. rewrite sled_crash_all by (try exact H; lia). reflexivity. Qed.
Lemma crash_flush n s k : sled_get k (sled_crash n (sled_flush s)) = sled_get k s.
Proof. unfold sled_get. rewrite sled_crash_flushed. reflexivity. Qed.

(** ** What a call does to the main chain *)
Definition core_eq (m' m : main_chain) : Prop :=
  mc_blocks m' = mc_blocks m /\ mc_refs m' = mc_refs m /\ mc_height m' = mc_height m /\
  mc_difficulty m' = mc_difficulty m /\ mc_cfg m' = mc_cfg m.
Definition txs_grow (s s' : sled) : Prop := exists l, Forall (fun kv => sha256 (snd kv) = fst kv) l /\ s' = fold_left (fun s kv => sled_insert (fst kv) (snd kv) s) l s.

Lemma core_txs txs m : core_eq (mc_add_transactions txs m) m /\ txs_grow (mc_txs m) (mc_txs (mc_add_transactions txs m)).
Proof.
  revert m. induction txs as [|x txs IH]; intros m; [split; [repeat split|exists []; split; [constructor|reflexivity]]|].
  destruct (IH (mc_add_transaction x m)) as [(E1 & E2 & E3 & E4 & E5) (l & Hs & Hl)].
  change (mc_add_transactions (x :: txs) m) with (mc_add_transactions txs (mc_add_transaction x m)).
  split; [unfold core_eq; rewrite E1, E2, E3, E4, E5; repeat split|].
  exists ((sha256 (tx_dump x), tx_dump x) :: l). split; [constructor; [reflexivity|exact Hs]|]. rewrite Hl. reflexivity.
Qed.
Lemma core_eq_refl m : core_eq m m.
Proof. repeat split. Qed.
Lemma txs_grow_refl s : txs_grow s s.
Proof. exists []. split; [constructor|reflexivity]. Qed.

Definition step_core_case (p : profile) (t : bct) (o : op) (m m' : main_chain) : Prop :=
  (core_eq m' m /\ txs_grow (mc_txs m) (mc_txs m')) \/
  (exists b, block_wf b /\ bi_height (get_info b) = mc_height m /\ core_eq m' (mc_appended b m) /\ txs_grow (mc_txs m) (mc_txs m')) \/
  (flushes p t o /\ core_eq m' (mc_flush m) /\ mc_txs m' = sled_flush (mc_txs m)) \/
  (flushes p t o /\ exists b, block_wf b /\ bi_height (get_info b) = mc_height m /\ core_eq m' (mc_appended b (mc_flush m)) /\ mc_txs m' = sled_flush (mc_txs m)).

Lemma step_core p t o L : tree_inv t L -> op_wf o -> N.of_nat (length L) + 1 < 2 ^ 256 ->
  step_core_case p t o (t_main t) (t_main (fst (step p t o))).
Proof.
  intros H Hwf Hlen.
  assert (Hsame : forall t', t_main t' = t_main t -> step_core_case p t o (t_main t) (t_main t')).
  { intros t' ->. left. split; [apply core_eq_refl|apply txs_grow_refl]. }
  pose proof (mi_height _ _ (ti_main _ _ H)) as Hh.
  destruct o; cbn [step ret_unit ret_block fst].
  - apply Hsame, on_summary_main.
  - apply Hsame, on_summary_main.
  - apply Hsame, on_summary_main.
  - apply Hsame, send_amount_main.
  - apply Hsame, on_gas_main.
  - apply Hsame, on_gas_main.
  - apply Hsame, on_gas_main.
  - destruct (send_tx_main tx t) as [E|E]; [apply Hsame, E|]. left. rewrite E. apply (core_txs [tx]).
  - destruct Hwf as (W1 & W2 & W3 & W4).
    destruct (t_emmit_new_main_block p pow founder txs ts t) as [t' r] eqn:E. cbn [fst].
    pose proof (emit_main_tree p t L _ _ _ _ _ _ H Hlen W1 W2 W3 W4 E) as S.
    destruct r as [b|e| |]; try (apply Hsame; rewrite S; reflexivity).
    destruct S as (_ & Hbw & _ & _ & _ & _ & Hbh & _ & ->). destruct b as [fee root i l|i|i root].
    + right. left. eexists. split; [exact Hbw|]. split; [exact Hbh|]. split; [apply core_eq_refl|apply txs_grow_refl].
    + right. left. eexists. split; [exact Hbw|]. split; [exact Hbh|]. split; [apply core_eq_refl|apply txs_grow_refl].
    + right. right. right. split; [exists i, root; cbn [step ret_block snd]; rewrite E; reflexivity|].
      eexists. split; [exact Hbw|]. split; [exact Hbh|]. split; [apply core_eq_refl|reflexivity].
  - apply Hsame, emit_deriv_main.
  - destruct (t_get_derivative_chain owner t) as [t' r] eqn:E. cbn [fst]. apply Hsame.
    change t' with (fst (t', r)). rewrite <- E. apply get_deriv_main.
  - unfold t_add_new_block. destruct (N.eq_dec (bi_height (get_info b)) (mc_height (t_main t))) as [E|E].
    + rewrite mc_add_block_right; [|exact E|lia]. cbn [fst with_main t_main].
      right. left. exists b. split; [apply Hwf|]. split; [exact E|]. apply (core_txs txs (mc_appended b (t_main t))).
    + rewrite mc_add_block_wrong by exact E. cbn [fst]. apply Hsame. reflexivity.
  - left. apply core_txs.
  - destruct (assoc_get owner (t_derivs t)); [|apply Hsame; reflexivity].
    destruct (dc_add_block i d). apply Hsame. reflexivity.
  - right. right. left. split; [exact I|]. split; [apply core_eq_refl|reflexivity].
  - right. right. left. split; [exact I|]. split; [apply core_eq_refl|reflexivity].
  - destruct (assoc_get owner (t_derivs t)); apply Hsame; reflexivity.
Qed.

(** ** Whatever survives is right *)
Record crash_inv (m : main_chain) (L : list block) : Prop := {
  ci_blocks_ok : sled_ok (mc_blocks m);
  ci_refs_ok : sled_ok (mc_refs m);
  ci_txs_ok : sled_ok (mc_txs m);
  ci_blocks : forall n i d, i < 2 ^ 256 -> sled_get (height_key i) (sled_crash n (mc_blocks m)) = Some d ->
    exists b, nthN L i = Some b /\ d = block_dump b;
  ci_refs : forall n h v, sled_get h (sled_crash n (mc_refs m)) = Some v ->
    exists i b, nthN L i = Some b /\ block_hash b = h /\ v = height_key i
}.

Lemma crash_inv_core m m' L : crash_inv m L -> core_eq m' m -> sled_ok (mc_txs m') -> crash_inv m' L.
Proof. intros [H1 H2 H3 H4 H5] (E1 & E2 & _) Ht. split; rewrite ?E1, ?E2; assumption. Qed.
Lemma crash_inv_txs m L s : crash_inv m L -> txs_grow (mc_txs m) s -> sled_ok s.
Proof.
  intros [_ _ H _ _] (l & _ & ->). revert H. generalize (mc_txs m). induction l as [|kv l IH]; intros s0 H; [exact H|].
  cbn [fold_left]. apply IH, sled_ok_commit, H.
Qed.
Lemma crash_inv_flush m L : main_inv m L -> crash_inv m L -> crash_inv (mc_flush m) L.
Proof.
  intros HM [H1 H2 H3 H4 H5]. split; try (apply sled_ok_flush; assumption).
  - intros n i d Hi. cbn [mc_flush mc_flush_txs mc_flush_refs mc_flush_blocks mc_dump_config mc_blocks]. rewrite crash_flush.
    rewrite (mi_blocks _ _ HM i Hi). destruct (nthN L i) as [b|]; [|discriminate]. cbn. intros E. injection E as <-. eauto.
  - intros n h v. cbn [mc_flush mc_flush_txs mc_flush_refs mc_flush_blocks mc_dump_config mc_refs]. rewrite crash_flush. apply HM.
Qed.
Lemma nthN_app {A} (L M : list A) i x : nthN L i = Some x -> nthN (L ++ M) i = Some x.
Proof. intros H. rewrite nthN_app1; [exact H|eapply nthN_some, H]. Qed.
Lemma crash_inv_append m L b : main_inv (mc_appended b m) (L ++ [b]) -> crash_inv m L -> crash_inv (mc_appended b m) (L ++ [b]).
Proof.
  intros HM [H1 H2 H3 H4 H5]. split; cbn [mc_appended mc_blocks mc_refs mc_txs]; try (apply sled_ok_commit; assumption); [exact H3| |].
  - intros n i d Hi E. unfold sled_insert in E. destruct (crash_commit n [(height_key (mc_height m), block_dump b)] _ H1) as [G|G]; rewrite G in E.
    + destruct (H4 n i d Hi E) as (x & Hx & ->). exists x. split; [apply nthN_app, Hx|reflexivity].
    + pose proof (mi_blocks _ _ HM i Hi) as Hb. cbn [mc_appended mc_blocks] in Hb. unfold sled_insert in Hb. rewrite Hb in E.
      destruct (nthN (L ++ [b]) i) as [x|]; [|discriminate]. cbn in E. injection E as <-. eauto.
  - intros n h v E. unfold sled_insert in E. destruct (crash_commit n [(block_hash b, height_key (mc_height m))] _ H2) as [G|G]; rewrite G in E.
    + destruct (H5 n h v E) as (i & x & Hx & Hxh & ->). exists i, x. split; [apply nthN_app, Hx|auto].
    + apply (mi_refs_sound _ _ HM h v). exact E.
Qed.

Lemma crash_inv_step p t o L : tree_inv t L -> op_wf o -> N.of_nat (length L) + 1 < 2 ^ 256 -> crash_inv (t_main t) L ->
  exists L', tree_inv (fst (step p t o)) L' /\ crash_inv (t_main (fst (step p t o))) L' /\
    (L' = L \/ exists b, L' = L ++ [b]).
Proof.
  intros H Hwf Hlen HC. destruct (step_main p t o L H Hwf Hlen) as (L1 & HL1 & _).
  pose proof (step_core p t o L H Hwf Hlen) as S. set (m' := t_main (fst (step p t o))) in *.
  pose proof (mi_height _ _ (ti_main _ _ H)) as Hh. pose proof (mi_height _ _ (ti_main _ _ HL1)) as Hh1. fold m' in Hh1.
  assert (Hap : forall b, block_wf b -> bi_height (get_info b) = mc_height (t_main t) -> forall m0, main_inv m0 L -> mc_height m0 = mc_height (t_main t) -> core_eq m' (mc_appended b m0) ->
     main_inv (mc_appended b m0) (L ++ [b]) /\ tree_inv (fst (step p t o)) (L ++ [b])).
  { intros b Hb Hbh m0 HM E (E1 & E2 & E3 & E4 & E5).
    assert (A : main_inv (mc_appended b m0) (L ++ [b])) by (apply main_inv_append; [exact HM|congruence|rewrite E; lia]).
    split; [exact A|]. split.
    - fold m'. apply (main_inv_ext (mc_appended b m0)); [exact A|exact E3|intros k; rewrite E1; reflexivity|intros k; rewrite E2; reflexivity].
    - pose proof (ti_gen _ _ H). destruct L; [discriminate|assumption].
    - apply Forall_app. split; [apply (ti_wf _ _ H)|constructor; [exact Hb|constructor]].
    - apply HL1. }
  assert (Hsm : core_eq m' (t_main t) \/ core_eq m' (mc_flush (t_main t)) -> tree_inv (fst (step p t o)) L).
  { intros Hc. assert (E : (forall k, sled_get k (mc_blocks m') = sled_get k (mc_blocks (t_main t))) /\ (forall k, sled_get k (mc_refs m') = sled_get k (mc_refs (t_main t))) /\ mc_height m' = mc_height (t_main t)).
    { destruct Hc as [(E1 & E2 & E3 & _)|(E1 & E2 & E3 & _)]; rewrite E1, E2, E3; repeat split; reflexivity. }
    destruct E as (E1 & E2 & E3). apply (tree_inv_ext t); try assumption. rewrite (ti_diff _ _ HL1), (ti_diff _ _ H). reflexivity. }
  destruct S as [[S1 S2]|[(b & Sb & Sh & S1 & S2)|[(_ & S1 & S2)|(_ & b & Sb & Sh & S1 & S2)]]].
  - exists L. split; [apply Hsm; left; exact S1|]. split; [|left; reflexivity]. eapply crash_inv_core; [exact HC|exact S1|eapply crash_inv_txs; eassumption].
  - destruct (Hap b Sb Sh (t_main t) (ti_main _ _ H) eq_refl S1) as [A1 A2]. exists (L ++ [b]). split; [exact A2|]. split; [|right; eauto].
    eapply crash_inv_core; [apply crash_inv_append; [exact A1|exact HC]|exact S1|eapply crash_inv_txs; eassumption].
  - exists L. split; [apply Hsm; right; exact S1|]. split; [|left; reflexivity]. eapply crash_inv_core; [apply crash_inv_flush; [apply (ti_main _ _ H)|exact HC]|exact S1|].
    rewrite S2. apply sled_ok_flush, HC.
  - destruct (Hap b Sb Sh (mc_flush (t_main t)) (main_inv_flush _ _ (ti_main _ _ H)) eq_refl S1) as [A1 A2]. exists (L ++ [b]). split; [exact A2|]. split; [|right; eauto].
    eapply crash_inv_core; [apply crash_inv_append; [exact A1|apply crash_inv_flush; [apply (ti_main _ _ H)|exact HC]]|exact S1|].
    rewrite S2. apply sled_ok_flush, HC.
Qed.

Lemma reachable_crash ok p n t : reachable ok p n t -> few n ->
  exists L, tree_inv t L /\ (length L <= n + 1)%nat /\ crash_inv (t_main t) L.
Proof.
  unfold few. induction 1 as [t E|n t o _ IH Hwf _|n t t' _ IH E]; intros Hn.
  - exists [genesis]. split; [apply open_main, E|]. split; [cbn; lia|]. pose proof (open_main t E) as H.
    unfold t_new in E. cbn [k_main disk_empty] in E. rewrite mc_new_empty in E. cbn [bind] in E. injection E as <-. cbn [t_main] in *.
    unfold mc_fresh. apply (crash_inv_append _ [] genesis); [apply H|].
    split; cbn [mc_blocks mc_refs mc_txs]; try apply sled_ok_empty.
    + intros n i d _ E. unfold sled_get, sled_crash in E. cbn [sled_empty pend dur cur] in E. rewrite firstn_nil in E. discriminate E.
    + intros n h v E. unfold sled_get, sled_crash in E. cbn [sled_empty pend dur cur] in E. rewrite firstn_nil in E. discriminate E.
  - destruct IH as (L & HL & Hlen & HC); [lia|]. destruct (crash_inv_step p t o L HL Hwf ltac:(lia) HC) as (L' & HL' & HC' & Hg).
    exists L'. split; [exact HL'|]. split; [|exact HC']. destruct Hg as [->|(b & ->)]; [lia|]. rewrite app_length. cbn. lia.
  - destruct IH as (L & HL & Hlen & HC); [lia|]. destruct (reopen_main t L HL) as (t1 & E1 & H1 & _ & Hb & Hr & Ht & _); [lia|].
    rewrite E in E1. injection E1 as <-. exists L. split; [exact H1|]. split; [exact Hlen|].
    destruct (crash_inv_flush _ _ (ti_main _ _ HL) HC) as [F1 F2 F3 F4 F5]. split; rewrite ?Hb, ?Hr, ?Ht; assumption.
Qed.

(** ** What was flushed is still there *)
Record dur_inv (m : main_chain) (L0 : list block) : Prop := {
  du_cfg : mc_cfg m = MkFile (Some (height_key (N.of_nat (length L0)) ++ BEGINNING_DIFFICULTY)) [];
  du_blocks : forall n i b, nthN L0 i = Some b -> sled_get (height_key i) (sled_crash n (mc_blocks m)) = Some (block_dump b);
  du_refs : forall n i b, nthN L0 i = Some b -> sled_get (block_hash b) (sled_crash n (mc_refs m)) <> None
}.
Definition dur_txs (m : main_chain) (h : bytes) : Prop := forall n, sled_get h (sled_crash n (mc_txs m)) <> None.

Lemma dur_start t L : tree_inv t L -> dur_inv (t_main (t_settle (t_flush t))) L /\
  (forall h, mc_transaction_exists h (t_main t) = true -> dur_txs (t_main (t_settle (t_flush t))) h).
Proof.
  intros H. pose proof (ti_main _ _ H) as HM. split; [split|]; cbn [t_settle with_main t_main mc_cfg mc_blocks mc_refs mc_txs t_flush].
  - pose proof (mc_cfg_flush (t_main t)) as E. unfold file_settle. rewrite E, (ti_diff _ _ H), (mi_height _ _ HM). reflexivity.
  - intros n i b Hb. change (mc_blocks (mc_flush (t_main t))) with (sled_flush (mc_blocks (t_main t))). rewrite crash_flush.
    pose proof (mi_heights _ _ HM _ _ Hb) as Hh. assert (Hi : i < 2 ^ 256).
    { pose proof (ti_wf _ _ H) as W. rewrite Forall_forall in W. pose proof (block_info_wf _ (W _ (nthN_in _ _ _ Hb))) as (_ & _ & _ & Hu & _). rewrite Hh in Hu. exact Hu. }
    rewrite (mi_blocks _ _ HM i Hi), Hb. reflexivity.
  - intros n i b Hb. change (mc_refs (mc_flush (t_main t))) with (sled_flush (mc_refs (t_main t))). rewrite crash_flush.
    apply (mi_refs_complete _ _ HM i b Hb).
  - intros h Hh n. change (mc_txs (mc_flush (t_main t))) with (sled_flush (mc_txs (t_main t))).
    cbn [t_settle with_main t_main mc_txs t_flush]. change (mc_txs (mc_flush (t_main t))) with (sled_flush (mc_txs (t_main t))).
    rewrite crash_flush. unfold mc_transaction_exists, sled_contains in Hh. destruct (sled_get h (mc_txs (t_main t))); [discriminate|discriminate Hh].
Qed.

Lemma crash_txs_grow s s' h : sled_ok s -> txs_grow s s' -> (forall n, sled_get h (sled_crash n s) <> None) -> forall n, sled_get h (sled_crash n s') <> None.
Proof.
  intros Hs (l & _ & ->). revert s Hs. induction l as [|[k v] l IH]; intros s Hs H; [exact H|]. cbn [fold_left fst snd].
  apply IH; [apply sled_ok_commit, Hs|]. intros n. unfold sled_insert. destruct (crash_commit n [(k, v)] s Hs) as [G|G]; rewrite G; [apply H|].
  rewrite sled_get_commit1. destruct (bytes_eqb h k); [discriminate|]. pose proof (H (length (pend s))) as Hc. rewrite crash_full in Hc by exact Hs. exact Hc.
Qed.

Lemma dur_step p t o L L0 : tree_inv t L -> op_wf o -> N.of_nat (length L) + 1 < 2 ^ 256 -> crash_inv (t_main t) L ->
  (length L0 <= length L)%nat -> dur_inv (t_main t) L0 -> ~ flushes p t o ->
  dur_inv (t_main (fst (step p t o))) L0 /\ forall h, dur_txs (t_main t) h -> dur_txs (t_main (fst (step p t o))) h.
Proof.
  intros H Hwf Hlen HC Hle [D1 D2 D3] Hnf. pose proof (mi_height _ _ (ti_main _ _ H)) as Hh.
  destruct (step_core p t o L H Hwf Hlen) as [[(E1 & E2 & E3 & E4 & E5) S2]|[(b & Sb & Sh & (E1 & E2 & E3 & E4 & E5) & S2)|[(Hf & _)|(Hf & _)]]]; try contradiction.
  - split; [split; rewrite ?E1, ?E2, ?E5; assumption|]. intros h Hd. unfold dur_txs in *. eapply crash_txs_grow; [exact (ci_txs_ok _ _ HC)|exact S2|exact Hd].
  - split; [|intros h Hd; unfold dur_txs in *; eapply crash_txs_grow; [exact (ci_txs_ok _ _ HC)|exact S2|exact Hd]].
    split; rewrite ?E1, ?E2, ?E5; cbn [mc_appended mc_cfg mc_blocks mc_refs]; [exact D1| |].
    + intros n i x Hx. unfold sled_insert. destruct (crash_commit n [(height_key (mc_height (t_main t)), block_dump b)] _ (ci_blocks_ok _ _ HC)) as [G|G]; rewrite G; [apply D2, Hx|].
      pose proof (nthN_some _ _ _ Hx). rewrite sled_get_commit1, height_key_eqb by lia. destruct (N.eqb_spec i (mc_height (t_main t))); [lia|].
      pose proof (D2 (length (pend (mc_blocks (t_main t)))) i x Hx) as Hc. rewrite crash_full in Hc by apply HC. exact Hc.
    + intros n i x Hx. unfold sled_insert. destruct (crash_commit n [(block_hash b, height_key (mc_height (t_main t)))] _ (ci_refs_ok _ _ HC)) as [G|G]; rewrite G; [apply (D3 n i), Hx|].
      rewrite sled_get_commit1. destruct (bytes_eqb _ _); [discriminate|].
      pose proof (D3 (length (pend (mc_refs (t_main t)))) i x Hx) as Hc. rewrite crash_full in Hc by apply HC. exact Hc.
Qed.

Lemma run_snoc p t ops o : run p t (ops ++ [o]) = fst (step p (run p t ops) o).
Proof. unfold run. rewrite fold_left_app. reflexivity. Qed.

Lemma dur_run p t L0 ops : tree_inv t L0 -> crash_inv (t_main t) L0 -> dur_inv (t_main t) L0 ->
  unflushed p t ops -> N.of_nat (length L0 + length ops) + 1 < 2 ^ 256 ->
  exists L, tree_inv (run p t ops) (L0 ++ L) /\ (length L <= length ops)%nat /\ crash_inv (t_main (run p t ops)) (L0 ++ L) /\ dur_inv (t_main (run p t ops)) L0 /\
    forall h, dur_txs (t_main t) h -> dur_txs (t_main (run p t ops)) h.
Proof.
  intros H HC HD Hu. induction Hu as [|ops o Hu IH Hwf Hnf]; intros Hlen.
  - exists []. rewrite app_nil_r. cbn. auto.
  - rewrite app_length in Hlen. cbn [length] in Hlen. destruct IH as (L & I1 & I2 & I3 & I4 & I5); [lia|]. rewrite run_snoc.
    assert (Hl : N.of_nat (length (L0 ++ L)) + 1 < 2 ^ 256) by (rewrite app_length; lia).
    destruct (crash_inv_step p _ o _ I1 Hwf Hl I3) as (L' & J1 & J2 & J3).
    destruct (dur_step p _ o _ L0 I1 Hwf Hl I3 ltac:(rewrite app_length; lia) I4 Hnf) as [K1 K2].
    destruct J3 as [->|(b & ->)].
    + exists L. split; [exact J1|]. split; [rewrite app_length; cbn; lia|]. split; [exact J2|]. split; [exact K1|]. intros h Hh. apply K2, I5, Hh.
    + exists (L ++ [b]). rewrite app_assoc. split; [exact J1|]. split; [rewrite !app_length; cbn; lia|]. split; [exact J2|]. split; [exact K1|]. intros h Hh. apply K2, I5, Hh.
Qed.

Lemma mc_new_settled d h df : file_cur (md_cfg d) = Some (height_key h ++ df) -> 0 < h < 2 ^ 256 -> length df = 32%nat ->
  mc_new d = Ok (MkMain (md_blocks d) (md_refs d) (md_txs d) h df (md_cfg d)).
Proof.
  intros E Hh Hd. unfold mc_new, mc_read_config. rewrite E.
  replace (height_key h ++ df) with (concat [height_key h; df]) by (cbn [concat]; rewrite app_nil_r; reflexivity).
  rewrite read_fields_concat by first [reflexivity | constructor; [apply height_key_length|constructor; [exact Hd|constructor]]].
  cbn [bind index nth_error]. rewrite from_height_key by lia. destruct (N.eqb_spec h 0); [lia|]. reflexivity.
Qed.
Lemma file_crash_settled n d : file_cur (file_crash n (MkFile d [])) = d.
Proof. unfold file_crash, file_cur. cbn [f_pend f_dur last]. rewrite firstn_nil. reflexivity. Qed.
