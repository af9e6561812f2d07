(** Proofs of the theorems about emission next to chain handles. *)
From Coq Require Import Lia ZifyBool ZifyNat ZifyN.
From Verif Require Import Base Sha256 Merkle Tools Transaction Block Sled Chain Tree Spec Reach LedgerSpec ConcSpec Conc ConcTree ConcFlush ConcEmit EmitSpec Demo.
From Verif Require Import BaseFacts ToolsFacts MerkleFacts DiffFacts CodecFacts SledFacts ChainFacts TreeFacts LedgerFacts ConcFacts FlushProps MainProps EpochDemo EmitFacts.

Local Strategy 1000 [u256_mul u256_add u256_sub BYTE_GAS_PRICE t_get_amount t_get_gas mc_decode recalculate_fee recalculate_difficulty t_send_amount t_sub_gas lcall_run sled_get check_pow emit_block].

Definition MAXH : N := 2 ^ 256 - 1.
Definition held (s s' : shared) : Prop := sh_locked s = true -> sh_locked s' = true \/ mc_height (mainof s) < mc_height (mainof s') \/ mc_height (mainof s') = MAXH.
Definition keeps (s s' : shared) : Prop := mc_height (mainof s) <= mc_height (mainof s') /\
  forall i, i < mc_height (mainof s) -> sled_get (height_key i) (mc_blocks (mainof s')) = sled_get (height_key i) (mc_blocks (mainof s)).
Lemma keeps_refl s : keeps s s.
Proof. split; [lia|reflexivity]. Qed.
Lemma keeps_trans a b c : keeps a b -> keeps b c -> keeps a c.
Proof. intros [A1 A2] [B1 B2]. split; [lia|]. intros i Hi. rewrite B2 by lia. apply A2, Hi. Qed.
Lemma held_refl s : held s s.
Proof. intros H. left. exact H. Qed.
Lemma held_trans a b c : held a b -> held b c -> keeps a b -> keeps b c -> mc_height (mainof c) < 2 ^ 256 -> held a c.
Proof.
  intros A B [KA _] [KB _] Hc H. unfold MAXH in *. destruct (A H) as [A1|[A1|A1]]; [destruct (B A1) as [B1|[B1|B1]]; auto|right; left; lia|right; right; unfold MAXH in *; lia].
  right. left. lia.
Qed.

Lemma eqv_keeps s s' : eqv s s' -> keeps s s'.
Proof. intros (_ & E2 & E3). split; [lia|]. intros i _. apply sled_get_cur, E3. Qed.
Lemma eqv_held s s' : eqv s s' -> held s s'.
Proof. intros (E1 & _) H. left. rewrite E1. exact H. Qed.
(** What a step does. *)
Lemma chain_facts st ts k th a s' a' : ginv st ts -> nth_error ts k = Some th -> prj th = a -> handle_kind a -> tok (mainof (es_sh st)) a ->
  tree_step (es_sh st) a = Some (s', a') ->
  keeps (es_sh st) s' /\ held (es_sh st) s' /\ ledgers (sh_tree s') = ledgers (sh_tree (es_sh st)) /\
  (in_add_block a = false -> mc_height (mainof s') = mc_height (mainof (es_sh st)) /\ cur (mc_blocks (mainof s')) = cur (mc_blocks (mainof (es_sh st)))).
Proof.
  intros G Hk Ha Hkind Ht E.
  assert (Hp : nth_error (map prj ts) k = Some a) by (rewrite nth_error_map, Hk, <- Ha; reflexivity).
  assert (Hl : in_add_block a = true -> sh_locked (es_sh st) = true) by (eapply lock_held; [apply G|eapply nth_error_In, Hp]).
  destruct (step_tok _ a s' a' Hkind E Hl (g_h _ _ G) Ht) as (T1 & T2 & T3 & T4 & T5 & T6 & T7 & T8).
  split; [split; [lia|exact T7]|]. split; [|split; assumption].
  intros Hlock. pose proof (step_lock _ _ _ _ E Hl) as X. unfold locked1 in X. rewrite Hlock in X. destruct (sh_locked s') eqn:El; [left; reflexivity|right].
  unfold holds in X. destruct (in_add_block a) eqn:Ea; [|destruct (in_add_block a'); lia].
  destruct a; try discriminate Ea; cbn [tree_step] in E.
  - apply some_inv in E as [<- _]. cbn [with_tree sh_locked] in El. congruence.
  - apply some_inv in E as [<- _]. cbn [with_tree sh_locked] in El. congruence.
  - revert E. unfold u256_add. destruct (N.ltb_spec (mc_height (t_main (sh_tree (es_sh st))) + 1) (2 ^ 256)); intros E; apply some_inv in E as [<- _].
    + left. unfold mainof. cbn [sh_tree with_main t_main put_height mc_height]. lia.
    + right. pose proof (g_h _ _ G). unfold MAXH, mainof in *. cbn [sh_tree]. lia.
Qed.
Lemma estep_facts p st ts k th st' th' : ginv st ts -> nth_error ts k = Some th -> estep p st th st' th' ->
  keeps (es_sh st) (es_sh st') /\ held (es_sh st) (es_sh st') /\
  ((forall b, th <> ERotate b) -> ledgers (sh_tree (es_sh st')) = ledgers (sh_tree (es_sh st))) /\
  (in_add_block (prj th) = false -> mc_height (mainof (es_sh st')) = mc_height (mainof (es_sh st)) /\ cur (mc_blocks (mainof (es_sh st'))) = cur (mc_blocks (mainof (es_sh st)))).
Proof.
  intros G Hk E. pose proof (g_th _ _ G th (nth_error_In _ _ Hk)) as Ht.
  assert (HQ : eqv (es_sh st) (es_sh st') -> ((forall b, th <> ERotate b) -> ledgers (sh_tree (es_sh st')) = ledgers (sh_tree (es_sh st))) ->
    keeps (es_sh st) (es_sh st') /\ held (es_sh st) (es_sh st') /\
    ((forall b, th <> ERotate b) -> ledgers (sh_tree (es_sh st')) = ledgers (sh_tree (es_sh st))) /\
    (in_add_block (prj th) = false -> mc_height (mainof (es_sh st')) = mc_height (mainof (es_sh st)) /\ cur (mc_blocks (mainof (es_sh st'))) = cur (mc_blocks (mainof (es_sh st))))).
  { intros H1 H2. split; [apply eqv_keeps, H1|]. split; [apply eqv_held, H1|]. split; [exact H2|]. intros _. apply H1. }
  destruct E as [a a' s' E|f f' m F1 F2 Q| |tx txs|w f txs ts0 Eb|w f txs ts0|w f txs ts0 i Ei El|w f txs ts0 i El|w f txs ts0 i|w f txs ts0 i info root Eb|w f txs ts0 i b Eb Hs|w f txs ts0 i r Eb Hr|b f f' m F1 F2 Q|b|b|b a a' s' E|b c r];
    try (apply HQ; [first [apply eqv_refl|apply eqv_quiet; assumption|repeat split]|reflexivity]).
  - cbn [th_ok] in Ht. destruct (chain_facts st ts k _ a s' a' G Hk eq_refl ltac:(apply Ht) ltac:(apply Ht) E) as (A & B & C & D). repeat split; auto; apply A || apply D; assumption.
  - apply HQ; [repeat split|]. intros H. destruct (H b eq_refl).
  - destruct Ht as (A1 & A2 & A3). destruct (chain_facts st ts k _ a s' a' G Hk eq_refl ltac:(eapply shape_kind; exact A3) A2 E) as (A & B & C & D). repeat split; auto; apply A || apply D; assumption.
Qed.

Lemma ledgers_rotated t t' : ledgers t = ledgers t' -> ledgers (rotated t) = ledgers (rotated t').
Proof. unfold ledgers, rotated. cbn. intros E. injection E as E1 _ E3 _. rewrite E1, E3. reflexivity. Qed.
Lemma ledgers_base b t t' : ledgers t = ledgers t' -> ledgers (emit_base b t) = ledgers (emit_base b t').
Proof. destruct b; cbn [emit_base]; [auto..|apply ledgers_rotated]. Qed.
Lemma ledgers_refilled b t : is_summ b = true -> ledgers (refilled t) = ledgers (emit_base b t).
Proof. destruct b; try discriminate. reflexivity. Qed.

(** ** The history of one emission *)
Section History.
Variables (p : profile) (t : bct) (calls : list ecall) (k : nat) (w f : bytes) (txs : list bytes) (ts : N).
Let run (sch : list nat) := emit_exec p sch t calls.
Let sh (sch : list nat) : shared := es_sh (fst (run sch)).
Let tr (sch : list nat) : bct := sh_tree (sh sch).
Let thr (sch : list nat) : option ethread := nth_error (snd (run sch)) k.

Definition began (sch : list nat) : Prop :=
  exists pre mid, sch = pre ++ mid /\ thr pre = Some (EStart w f txs ts) /\ ledgers (tr sch) = ledgers (tr pre).
Definition read_at (pre : list nat) (i : N) (b : block) : Prop :=
  began pre /\ thr pre = Some (EGet w f txs ts i) /\
  emit_block p w f txs ts (sled_get (height_key i) (mc_blocks (mainof (sh pre)))) (tr pre) = Ok b /\
  i + 1 <= mc_height (mainof (sh pre)) /\ bi_height (get_info b) = i + 1 /\ (is_summ b = true -> txs = []) /\
  exists lb, mc_decode (sled_get (height_key i) (mc_blocks (mainof (sh pre)))) = Ok (Some lb) /\ main_link p lb b.
Definition made (rot : bool) (b : block) (sch : list nat) : Prop :=
  exists pre post i, sch = pre ++ post /\ read_at pre i b /\
    keeps (sh pre) (sh sch) /\ held (sh pre) (sh sch) /\ ledgers (tr sch) = ledgers (if rot then emit_base b (tr pre) else tr pre).
Definition won (b : block) (sch : list nat) : Prop :=
  exists pre post i, sch = pre ++ post /\ read_at pre i b /\
    keeps (sh pre) (sh sch) /\ (mc_height (mainof (sh sch)) <> MAXH -> sh_locked (sh pre) = false) /\
    ledgers (tr sch) = ledgers (emit_base b (tr pre)) /\ mc_height (mainof (sh pre)) = i + 1.
Definition succ (b : block) (sch : list nat) : Prop :=
  exists pre mid post i, sch = pre ++ mid ++ post /\ read_at pre i b /\
    sh_locked (sh pre) = false /\ mc_height (mainof (sh pre)) = i + 1 /\ i + 2 < 2 ^ 256 /\
    ledgers (tr (pre ++ mid)) = ledgers (emit_base b (tr pre)) /\ mc_height (mainof (sh (pre ++ mid))) = i + 2 /\
    keeps (sh pre) (sh (pre ++ mid)) /\ keeps (sh (pre ++ mid)) (sh sch) /\
    sled_get (height_key (i + 1)) (mc_blocks (mainof (sh (pre ++ mid)))) = Some (block_dump b).
Definition fail (r : out block) (sch : list nat) : Prop :=
  exists pre mid post, sch = pre ++ mid ++ post /\ thr pre = Some (EStart w f txs ts) /\ thr (pre ++ mid) = Some (EDone r) /\
    (ledgers (tr (pre ++ mid)) = ledgers (tr pre) \/
     txs = [] /\ (r = Err EChainAddingBlock \/ r = Panic) /\ ledgers (tr (pre ++ mid)) = ledgers (rotated (tr pre))).
Definition hist (th : ethread) (sch : list nat) : Prop :=
  match th with
  | EStart w' f' txs' ts' => (w', f', txs', ts') = (w, f, txs, ts)
  | ELast w' f' txs' ts' | EIdx w' f' txs' ts' _ | EGet w' f' txs' ts' _ => (w', f', txs', ts') = (w, f, txs, ts) /\ began sch
  | EFlush b _ | ERotate b => made false b sch
  | EAdd b (TWrite _) | EAdd b (TRef _) | EAdd b (TBump _) => won b sch
  | EAdd b (TDone _ (Ok _)) | EDone (Ok b) => succ b sch
  | EAdd b _ => made true b sch
  | EDone r => fail r sch
  | _ => False
  end.

Lemma began_ext sch x : ledgers (tr (sch ++ x)) = ledgers (tr sch) -> began sch -> began (sch ++ x).
Proof. intros E (pre & mid & -> & H & L). exists pre, (mid ++ x). split; [rewrite app_assoc; reflexivity|]. split; [exact H|congruence]. Qed.
Lemma made_ext rot b sch x : ledgers (tr (sch ++ x)) = ledgers (tr sch) -> keeps (sh sch) (sh (sch ++ x)) -> held (sh sch) (sh (sch ++ x)) ->
  mc_height (mainof (sh (sch ++ x))) < 2 ^ 256 -> made rot b sch -> made rot b (sch ++ x).
Proof.
  intros E HK HH Hb (pre & post & i & -> & R & K & H & L). exists pre, (post ++ x), i. split; [rewrite app_assoc; reflexivity|]. split; [exact R|].
  split; [eapply keeps_trans; eassumption|]. split; [eapply held_trans; eassumption|congruence].
Qed.
Lemma won_ext b sch x : ledgers (tr (sch ++ x)) = ledgers (tr sch) -> keeps (sh sch) (sh (sch ++ x)) ->
  mc_height (mainof (sh (sch ++ x))) = mc_height (mainof (sh sch)) -> won b sch -> won b (sch ++ x).
Proof.
  intros E HK Hh (pre & post & i & -> & R & K & H & L & I). exists pre, (post ++ x), i. split; [rewrite app_assoc; reflexivity|]. split; [exact R|].
  split; [eapply keeps_trans; eassumption|]. split; [rewrite Hh; exact H|]. split; [congruence|exact I].
Qed.
Lemma succ_ext b sch x : keeps (sh sch) (sh (sch ++ x)) -> succ b sch -> succ b (sch ++ x).
Proof.
  intros HK (pre & mid & post & i & -> & R & A1 & A2 & A3 & A4 & A5 & A6 & A7 & A8). exists pre, mid, (post ++ x), i. split; [rewrite !app_assoc; reflexivity|]. split; [exact R|].
  repeat (split; [first [assumption|eapply keeps_trans; eassumption]|]). exact A8.
Qed.
Lemma fail_ext r sch x : fail r sch -> fail r (sch ++ x).
Proof. intros (pre & mid & post & -> & H). exists pre, mid, (post ++ x). split; [rewrite !app_assoc; reflexivity|exact H]. Qed.

Lemma run_snoc sch j : run (sch ++ [j]) = sched_step (emit_step p) (run sch) j.
Proof. unfold run, emit_exec. apply exec_snoc. Qed.
(** Another thread's step. *)
Lemma hist_other sch x th : ledgers (tr (sch ++ x)) = ledgers (tr sch) \/ active th = 0 ->
  keeps (sh sch) (sh (sch ++ x)) -> held (sh sch) (sh (sch ++ x)) -> mc_height (mainof (sh (sch ++ x))) < 2 ^ 256 ->
  (in_add_block (prj th) = true -> mc_height (mainof (sh (sch ++ x))) = mc_height (mainof (sh sch))) ->
  hist th sch -> hist th (sch ++ x).
Proof.
  intros HL HK HH Hb Hlock. destruct th as [| |w' f' txs' ts'|w' f' txs' ts'|w' f' txs' ts' i|w' f' txs' ts' i|b g|b|b a|[b|e| |]]; cbn [hist active prj] in *; try contradiction; auto;
    try (destruct HL as [HL|HL]; [|discriminate HL]).
  1-3: intros [A B]; split; [exact A|apply began_ext; assumption].
  1-2: intros H; apply made_ext; assumption.
  - destruct a as [| | | | | | | |b'|b'|b'| | |c [v|e| |]]; try (intros H; apply made_ext; assumption); try (intros H; apply won_ext; try assumption; apply Hlock; reflexivity). apply succ_ext, HK.
  - apply succ_ext, HK.
  - apply fail_ext.
  - apply fail_ext.
  - apply fail_ext.
Qed.

Lemma made_fail b sch x r : made true b sch -> ledgers (tr (sch ++ x)) = ledgers (tr sch) -> thr (sch ++ x) = Some (EDone r) ->
  r = Err EChainAddingBlock \/ r = Panic -> fail r (sch ++ x).
Proof.
  intros (pre & post & i & -> & ((pre0 & mid & -> & Hp & HL0) & _ & _ & _ & _ & Hs & _) & _ & _ & HL) HE Ht Hr.
  exists pre0, ((mid ++ post) ++ x), []. rewrite app_nil_r. split; [rewrite !app_assoc; reflexivity|]. split; [exact Hp|].
  replace (pre0 ++ (mid ++ post) ++ x) with (((pre0 ++ mid) ++ post) ++ x) by (rewrite !app_assoc; reflexivity). split; [exact Ht|]. rewrite HE, HL.
  destruct b as [fee root info l|info|info root]; cbn [emit_base]; [left; exact HL0..|]. right. split; [apply Hs; reflexivity|]. split; [exact Hr|]. apply ledgers_rotated, HL0.
Qed.
Lemma hist_own sch th st' th' : ginv (fst (run sch)) (snd (run sch)) -> thr sch = Some th -> hist th sch ->
  estep p (fst (run sch)) th st' th' -> fst (run (sch ++ [k])) = st' -> thr (sch ++ [k]) = Some th' -> mc_height (mainof (es_sh st')) < 2 ^ 256 ->
  hist th' (sch ++ [k]).
Proof.
  intros G Hk H E Est Hk' Hb. pose proof (estep_facts _ _ _ _ _ _ _ G Hk E) as (F1 & F2 & F3 & F4).
  pose proof (g_th _ _ G th (nth_error_In _ _ Hk)) as Ht.
  assert (Hsh : es_sh st' = sh (sch ++ [k])) by (unfold sh; rewrite Est; reflexivity).
  change (es_sh (fst (run sch))) with (sh sch) in *. rewrite Hsh in *. change (sh_tree (sh sch)) with (tr sch) in *. change (sh_tree (sh (sch ++ [k]))) with (tr (sch ++ [k])) in *.
  assert (HB : forall rot b, (forall b, th <> ERotate b) -> made rot b sch -> made rot b (sch ++ [k])) by (intros rot b Hn; apply made_ext; auto).
  destruct E as [a a' s' E|g g' m G1 G2 Q| |tx l|w' f' txs' ts' Eb|w' f' txs' ts'|w' f' txs' ts' i Ei El|w' f' txs' ts' i El|w' f' txs' ts' i|w' f' txs' ts' i info root Eb|w' f' txs' ts' i b Eb Hs|w' f' txs' ts' i r Eb Hr|b g g' m G1 G2 Q|b|b|b a a' s' E|b c r]; cbn [hist] in H; try contradiction.
  - split; [exact H|]. injection H as -> -> -> ->. exists sch, [k]. split; [reflexivity|]. split; [exact Hk|]. apply F3. discriminate.
  - destruct H as [Ha (pre & mid & Es & Hp & HL)]. exists pre, (mid ++ [k]), []. split; [rewrite app_nil_r, Es, app_assoc; reflexivity|]. split; [exact Hp|]. rewrite app_assoc, <- Es. split; [exact Hk'|]. left. rewrite F3 by discriminate. exact HL.
  - destruct H as [Ha H]. split; [exact Ha|]. apply began_ext; [apply F3; discriminate|exact H].
  - destruct H as [Ha (pre & mid & Es & Hp & HL)]. exists pre, (mid ++ [k]), []. split; [rewrite app_nil_r, Es, app_assoc; reflexivity|]. split; [exact Hp|]. rewrite app_assoc, <- Es. split; [exact Hk'|]. left. rewrite F3 by discriminate. exact HL.
  - destruct H as [Ha H]. split; [exact Ha|]. apply began_ext; [apply F3; discriminate|exact H].
  - destruct H as [Ha H]. injection Ha as -> -> -> ->. destruct Ht as [(A1 & A2 & A3 & A4) Hi].
    assert (Hi' : i < mc_height (mainof (es_sh (fst (run sch))))) by (change (es_sh (fst (run sch))) with (sh sch); lia).
    destruct (emit_block_spec _ _ _ _ _ _ _ _ _ Eb (g_st _ _ G i Hi') A1 A2 A3 A4) as (_ & B2 & _ & B4 & B5).
    exists sch, [k], i. split; [reflexivity|]. split; [split; [exact H|]; split; [exact Hk|]; split; [exact Eb|]; split; [exact Hi|]; split; [exact B2|]; split; [intros _; exact B5|exact B4]|]. split; [exact F1|]. split; [exact F2|]. apply F3. discriminate.
  - destruct H as [Ha H]. injection Ha as -> -> -> ->. destruct Ht as [(A1 & A2 & A3 & A4) Hi].
    assert (Hi' : i < mc_height (mainof (es_sh (fst (run sch))))) by (change (es_sh (fst (run sch))) with (sh sch); lia).
    destruct (emit_block_spec _ _ _ _ _ _ _ _ _ Eb (g_st _ _ G i Hi') A1 A2 A3 A4) as (_ & B2 & _ & B4 & B5).
    exists sch, [k], i. split; [reflexivity|]. split; [split; [exact H|]; split; [exact Hk|]; split; [exact Eb|]; split; [exact Hi|]; split; [exact B2|]; split; [destruct b; [discriminate|discriminate|intros _; exact B5]|exact B4]|]. split; [exact F1|]. split; [exact F2|]. rewrite F3 by discriminate. destruct b; [reflexivity|reflexivity|]. destruct (Hs _ _ eq_refl).
  - destruct H as [Ha (pre & mid & Es & Hp & HL)].
    assert (fail r (sch ++ [k])) as X; [|destruct r; [destruct (Hr _ eq_refl)|exact X..]].
    exists pre, (mid ++ [k]), []. split; [rewrite app_nil_r, Es, app_assoc; reflexivity|]. split; [exact Hp|]. rewrite app_assoc, <- Es. split; [exact Hk'|]. left. rewrite F3 by discriminate. exact HL.
  - apply HB; [discriminate|exact H].
  - apply HB; [discriminate|exact H].
  - destruct H as (pre & post & i & Es & R & K & HH & HL). destruct Ht as [_ Hsum]. exists pre, (post ++ [k]), i. split; [rewrite Es, app_assoc; reflexivity|]. split; [exact R|].
    split; [eapply keeps_trans; eassumption|]. split; [eapply held_trans; eassumption|]. cbn [es_sh with_tree sh_tree] in *.
    assert (Etr : tr (sch ++ [k]) = refilled (tr sch)) by (unfold tr; rewrite <- Hsh; reflexivity). rewrite Etr, (ledgers_refilled b) by exact Hsum. apply ledgers_base, HL.
  - destruct Ht as (A1 & A2 & A3). assert (HL : ledgers (tr (sch ++ [k])) = ledgers (tr sch)) by (apply F3; discriminate).
    destruct a as [c| | | | | | | |b'|b'|b'| | |c r]; cbn [shape] in A3; try contradiction; subst; cbn [tree_step] in E.
    + change (es_sh (fst (run sch))) with (sh sch) in E. destruct (sh_locked (sh sch)) eqn:El; [discriminate E|].
      destruct (N.eqb_spec (bi_height (get_info b)) (mc_height (t_main (sh_tree (sh sch))))) as [Heq|]; cbn [negb] in E; apply some_inv in E as [<- <-]; cbn [hist]; [|apply HB; [discriminate|exact H]].
      destruct H as (pre & post & i & Es & R & K & HH & HL'). pose proof R as (_ & _ & _ & Hi & Hbi & _). destruct K as [K1 K2].
      assert (mc_height (mainof (sh (sch ++ [k]))) = mc_height (mainof (sh sch))) as Hsame by (apply F4; reflexivity). unfold mainof in Hsame at 2.
      exists pre, (post ++ [k]), i. split; [rewrite Es, app_assoc; reflexivity|]. split; [exact R|]. split; [eapply keeps_trans; [split; eassumption|exact F1]|].
      assert (mc_height (mainof (sh pre)) = i + 1) as Hpre by (unfold mainof in *; lia).
      split; [|split; [rewrite HL; exact HL'|exact Hpre]].
      intros Hmax. destruct (sh_locked (sh pre)) eqn:Elp; [|reflexivity]. exfalso. destruct (HH Elp) as [C|[C|C]]; [congruence|unfold mainof in *; lia|]. unfold mainof in *. rewrite Hsame in Hmax. contradiction.
    + apply some_inv in E as [E1 <-]. cbn [hist] in *. apply won_ext; try assumption. rewrite <- Hsh, <- E1. reflexivity.
    + apply some_inv in E as [E1 <-]. cbn [hist] in *. apply won_ext; try assumption. rewrite <- Hsh, <- E1. reflexivity.
    + cbn [hist tok] in H, A2. destruct H as (pre & post & i & Es & R & K & HF & HL' & Hpre). pose proof R as (_ & _ & _ & Hi & Hbi & _). destruct A2 as (_ & A2 & A4).
      change (es_sh (fst (run sch))) with (sh sch) in *. change (t_main (sh_tree (sh sch))) with (mainof (sh sch)) in *.
      revert E. unfold u256_add. destruct (N.ltb_spec (mc_height (mainof (sh sch)) + 1) (2 ^ 256)) as [Hlt|]; intros E; apply some_inv in E as [E1 <-]; cbn [hist].
      * exists pre, (post ++ [k]), [], i. rewrite app_nil_r, app_assoc, <- Es. split; [reflexivity|]. split; [exact R|]. split; [apply HF; unfold MAXH; lia|]. split; [exact Hpre|]. split; [lia|].
        split; [rewrite HL; exact HL'|]. split; [rewrite <- Hsh, <- E1; unfold mainof at 1; cbn [es_sh sh_tree with_main t_main put_height mc_height]; lia|]. split; [eapply keeps_trans; eassumption|]. split; [apply keeps_refl|].
        rewrite <- Hsh, <- E1. unfold mainof at 1. cbn [es_sh sh_tree with_main t_main put_height mc_blocks]. rewrite <- Hbi, A2. exact A4.
      * exists pre, (post ++ [k]), i. split; [rewrite Es, app_assoc; reflexivity|]. split; [exact R|]. split; [eapply keeps_trans; eassumption|]. split; [|rewrite HL; exact HL'].
        intros _. right. right. rewrite <- Hsh, <- E1. cbn [es_sh]. change (mainof (MkShared (sh_tree (sh sch)) false)) with (mainof (sh sch)). pose proof (g_h _ _ G) as Hg. change (es_sh (fst (run sch))) with (sh sch) in Hg. unfold MAXH. lia.
    + discriminate E.
  - destruct Ht as (A1 & A2 & A3 & A4). cbn [shape] in A3. subst c. destruct A4 as [->|[->| ->]]; cbn [bind hist] in *.
    + apply succ_ext; assumption.
    + apply (made_fail b); auto. apply F3. discriminate.
    + apply (made_fail b); auto. apply F3. discriminate.
Qed.

Lemma hist_all L : tree_inv t L -> N.of_nat (length L) < 2 ^ 256 -> Forall handle_or_emission calls -> nth_error calls k = Some (EEmission w f txs ts) ->
  forall sch, ginv (fst (run sch)) (snd (run sch)) /\ exists th, thr sch = Some th /\ hist th sch.
Proof.
  intros HI Hl Hc Hk sch. induction sch as [|j sch [G (th & Hth & HH)]] using rev_ind.
  - split; [exact (ginv_start t L calls HI Hl Hc)|]. exists (EStart w f txs ts). split; [|reflexivity]. unfold thr, run, emit_exec. cbn [exec fold_left snd]. rewrite nth_error_map, Hk. reflexivity.
  - pose proof (run_snoc sch j) as Er. unfold sched_step in Er. destruct (run sch) as [st tl] eqn:Erun. cbn [fst snd] in G.
    assert (Hth' : nth_error tl k = Some th) by (unfold thr in Hth; rewrite Erun in Hth; exact Hth).
    assert (Hsame : run (sch ++ [j]) = (st, tl) -> ginv (fst (run (sch ++ [j]))) (snd (run (sch ++ [j]))) /\ exists th, thr (sch ++ [j]) = Some th /\ hist th (sch ++ [j])).
    { intros E. rewrite E. split; [exact G|]. exists th. split; [unfold thr; rewrite E; exact Hth'|].
      assert (Esh : sh (sch ++ [j]) = sh sch) by (unfold sh; rewrite E, Erun; reflexivity). pose proof (g_h _ _ G) as Hh.
      apply hist_other; [left; unfold tr; rewrite Esh; reflexivity|rewrite Esh; apply keeps_refl|rewrite Esh; apply held_refl|rewrite Esh; unfold sh; rewrite Erun; apply Hh|rewrite Esh; reflexivity|exact HH]. }
    destruct (nth_error tl j) as [thj|] eqn:Ej; [|apply Hsame, Er]. destruct (emit_step p st thj) as [[st' thj']|] eqn:Es; [|apply Hsame, Er].
    apply estep_of in Es; [|eapply ginv_flushing; eassumption]. pose proof (ginv_step _ _ _ _ _ _ _ G Ej Es) as G'. rewrite Er. cbn [fst snd]. split; [exact G'|].
    destruct (Nat.eq_dec j k) as [->|Hne].
    + exists thj'. assert (Ht' : thr (sch ++ [k]) = Some thj') by (unfold thr; rewrite Er; cbn [snd]; apply (replace_same _ _ _ _ Ej)). split; [exact Ht'|].
      rewrite Hth' in Ej. injection Ej as <-. apply (hist_own sch th st' thj'); [rewrite Erun; exact G|exact Hth|exact HH|rewrite Erun; exact Es|rewrite Er; reflexivity|exact Ht'|apply (g_h _ _ G')].
    + exists th. split; [unfold thr; rewrite Er; cbn [snd]; rewrite replace_other by exact Hne; exact Hth'|].
      destruct (estep_facts _ _ _ _ _ _ _ G Ej Es) as (F1 & F2 & F3 & F4).
      assert (E1 : sh sch = es_sh st) by (unfold sh; rewrite Erun; reflexivity). assert (E2 : sh (sch ++ [j]) = es_sh st') by (unfold sh; rewrite Er; reflexivity).
      apply hist_other; unfold tr; rewrite ?E1, ?E2; try assumption; [|apply (g_h _ _ G')|].
      * destruct (N.eq_dec (active th) 0) as [Ha|Ha]; [right; exact Ha|left]. apply F3. intros b ->.
        pose proof (total_replace active tl k th (EDone Panic) Hth') as T1. assert (Hj' : nth_error (replace tl k (EDone Panic)) j = Some (ERotate b)) by (rewrite replace_other by congruence; exact Ej).
        pose proof (total_in active _ _ (nth_error_In _ _ Hj')) as T2. pose proof (g_busy _ _ G) as T3. unfold busy1 in T3. cbn [active] in *. destruct (es_busy st); lia.
      * intros Hin. apply F4. destruct (in_add_block (prj thj)) eqn:Ein; [exfalso|reflexivity]. apply Hne.
        apply (lock_unique (es_sh st) (map prj tl) j k (prj thj) (prj th)); try assumption; [apply (g_lock _ _ G)|rewrite nth_error_map, Ej; reflexivity|rewrite nth_error_map, Hth'; reflexivity].
Qed.
End History.

Lemma reach_tree ok p n t : reachable ok p n t -> few n -> exists L, tree_inv t L /\ N.of_nat (length L) < 2 ^ 256.
Proof. intros Hr Hn. destruct (reachable_inv ok p n t Hr Hn) as (L & H1 & H2). exists L. split; [exact H1|]. unfold few in Hn. lia. Qed.
Lemma base_blocks b t : mc_height (t_main (emit_base b t)) = mc_height (t_main t) /\ cur (mc_blocks (t_main (emit_base b t))) = cur (mc_blocks (t_main t)).
Proof. destruct b; split; reflexivity. Qed.

Lemma solo {S T} (step : S -> T -> option (S * T)) n s th : exec step (repeat 0%nat (Datatypes.S n)) (s, [th]) =
  exec step (repeat 0%nat n) (match step s th with Some (s', th') => (s', [th']) | None => (s, [th]) end).
Proof. unfold exec. cbn [repeat fold_left sched_step nth_error]. destruct (step s th) as [[s' th']|]; reflexivity. Qed.
Lemma solo_end p n s r : exec (emit_step p) (repeat 0%nat n) (s, [EDone r]) = (s, [EDone r]).
Proof. induction n as [|n IH]; [reflexivity|]. rewrite solo. exact IH. Qed.
Lemma solo_add p n t b busy : exec (emit_step p) (repeat 0%nat (5 + n)) (MkEs (MkShared t false) busy, [EAdd b (TStart (CAddBlock b))]) =
  (let '(m, r) := mc_add_block b (t_main t) in (MkEs (MkShared (with_main t m) false) false, [EDone (let! _ := r in Ok b)])).
Proof.
  unfold mc_add_block. cbn [Nat.add]. rewrite solo. cbn [emit_step tree_step es_sh sh_tree sh_locked].
  destruct (negb (bi_height (get_info b) =? mc_height (t_main t))).
  - rewrite solo. cbn [emit_step emit_ends]. rewrite solo_end. destruct t. reflexivity.
  - rewrite solo. cbn [emit_step tree_step]. rewrite solo. cbn [emit_step tree_step]. rewrite solo. cbn [emit_step tree_step].
    cbn [es_sh with_tree sh_tree with_main t_main put_ref put_block mc_height mc_blocks]. 
    destruct (u256_add (mc_height (t_main t)) 1) as [h|e| |]; rewrite solo; cbn [emit_step emit_ends]; rewrite solo_end; reflexivity.
Qed.
Lemma phased_cfg m : with_cfg (file_write_at 32 (mc_difficulty m) (file_write_at 0 (height_key (mc_height m)) (file_truncate (mc_cfg m)))) m = mc_dump_config m.
Proof.
  unfold mc_dump_config, with_cfg. f_equal. unfold file_write_at at 1, file_append at 1. rewrite file_bytes_write, file_bytes_truncate, overwrite_0, skipn_nil, app_nil_r, overwrite_32.
  unfold file_write_at, file_append. rewrite file_bytes_truncate, overwrite_0, skipn_nil, app_nil_r. unfold file_cur. cbn [f_pend f_dur file_truncate]. rewrite !last_last. reflexivity.
Qed.
Lemma solo_flush p n t b busy :
  exec (emit_step p) (repeat 0%nat (8 + n)) (MkEs (MkShared t false) busy, [EFlush b FOpen]) =
  exec (emit_step p) (repeat 0%nat n) (MkEs (MkShared (with_main t (mc_flush (t_main t))) false) busy, [ERotate b]).
Proof.
  cbn [Nat.add]. do 8 (rewrite solo; cbn [emit_step flush_step es_sh es_busy with_tree sh_tree sh_locked with_main t_main with_cfg mc_cfg mc_height mc_difficulty]).
  unfold mc_flush. rewrite <- phased_cfg. reflexivity.
Qed.
Lemma emit_block_not_deriv p w f txs ts d t i : emit_block p w f txs ts d t <> Ok (DerivBlock i).
Proof.
  unfold emit_block. destruct (mc_decode d) as [last|e| |]; cbn [bind]; try discriminate. destruct (unwrap_opt last) as [lb|e| |]; cbn [bind]; try discriminate.
  destruct (check_pow _ _ _ _) as [[|]|e| |]; cbn [bind negb]; try discriminate. destruct (recalculate_difficulty _ _ _ _) as [dd|e| |]; cbn [bind]; try discriminate.
  destruct (recalculate_fee dd) as [fee|e| |]; cbn [bind]; try discriminate. destruct (u256_add _ _) as [h|e| |]; cbn [bind]; try discriminate.
  destruct (_ =? 0); destruct txs; try discriminate; [destruct (t_summarize t); discriminate|]. destruct (build_tree _) as [tr|e| |]; cbn [bind]; try discriminate. destruct (get_root tr); discriminate.
Qed.

(*@T C93.  An emission running alone, step by step, does what the sequential emission does. *)
Lemma p_C93_alone : forall p t pow founder txs ts,
  emit_exec p (repeat 0%nat 18) t [EEmission pow founder txs ts] =
    (let '(t', r) := t_emmit_new_main_block p pow founder txs ts t in (MkEs (MkShared t' false) false, [EDone r])).
Proof.
  intros p t w f txs ts. unfold emit_exec. cbn [map estart]. rewrite emit_block_seq. rewrite solo. cbn [emit_step es_busy es_sh]. rewrite solo. cbn [emit_step es_sh sh_locked sh_tree].
  destruct (u256_sub (mc_height (t_main t)) 1) as [i|e| |] eqn:Ei; cbn [bind]; [|unfold u256_sub in Ei; destruct (1 <=? _); discriminate Ei|unfold emit_ends; rewrite solo_end; reflexivity|unfold u256_sub in Ei; destruct (1 <=? _); discriminate Ei].
  assert (Hi : (mc_height (t_main t) <? i) = false).
  { revert Ei. unfold u256_sub. destruct (N.leb_spec 1 (mc_height (t_main t))); [|discriminate]. intros E. apply ok_inv in E. apply N.ltb_ge. lia. }
  rewrite solo. cbn [emit_step es_sh sh_locked sh_tree]. unfold mc_find_raw_by_height. rewrite Hi. rewrite solo. cbn [emit_step es_sh sh_tree].
  destruct (emit_block p w f txs ts (sled_get (height_key i) (mc_blocks (t_main t))) t) as [b|e| |] eqn:Eb; try (unfold emit_ends; cbn [es_sh]; rewrite solo_end; reflexivity).
  destruct b as [fee root info l|info|info root]; cbn [emit_base].
  - rewrite (solo_add p 9). destruct (mc_add_block _ _) as [m r]. reflexivity.
  - destruct (emit_block_not_deriv _ _ _ _ _ _ _ _ Eb).
  - rewrite (solo_flush p 6), solo. cbn [emit_step es_sh sh_tree]. rewrite set_root. cbn [with_tree sh_tree sh_locked es_sh es_busy].
    set (t' := with_summary _ _). assert (t' = rotated t) as -> by reflexivity. etransitivity; [exact (solo_add p 0 (rotated t) _ true)|]. destruct (mc_add_block _ _) as [m r]. reflexivity.
Qed.

(*@T C93.  An emission that succeeds next to any calls on chain handles and to other emissions does so as if it were done
   at once: at some moment while it runs, with nobody inside [add_block], the sequential emission on the tree of that moment gives the same
   block; later the balances are those that the sequential emission leaves; every block up to the new one stays as the sequential emission leaves it;
   and the new block follows the one found below it. *)
Lemma p_C93_success : forall ok p n t calls schedule k pow founder txs ts b,
  reachable ok p n t -> few n -> Forall handle_or_emission calls ->
  nth_error calls k = Some (EEmission pow founder txs ts) ->
  state_of p schedule t calls k = Some (EDone (Ok b)) ->
  exists before during after, schedule = before ++ during ++ after /\
    let t0 := tree_after p before t calls in let t1 := tree_after p (before ++ during) t calls in let t2 := tree_after p schedule t calls in
    let '(te, r) := t_emmit_new_main_block p pow founder txs ts t0 in
    (exists i, state_of p before t calls k = Some (EGet pow founder txs ts i)) /\ sh_locked (es_sh (fst (emit_exec p before t calls))) = false /\
    r = Ok b /\ bi_height (get_info b) = mc_get_height (t_main t0) /\
    ledgers t1 = ledgers te /\ mc_get_height (t_main t1) = mc_get_height (t_main te) /\ mc_get_height (t_main t1) <= mc_get_height (t_main t2) /\
    (forall i, i <= bi_height (get_info b) -> mc_find_raw_by_height i (t_main t2) = mc_find_raw_by_height i (t_main te)) /\
    exists prev, mc_find_by_height (bi_height (get_info b) - 1) (t_main t2) = Ok (Some prev) /\ main_link p prev b.
Proof.
  intros ok p n t calls sch k w f txs ts b Hr Hn Hc Hk Hdone. destruct (reach_tree _ _ _ _ Hr Hn) as (L & HI & Hl).
  destruct (hist_all p t calls k w f txs ts L HI Hl Hc Hk sch) as [_ (th & Hth & HH)]. unfold state_of in Hdone. rewrite Hdone in Hth. injection Hth as <-. cbn [hist] in HH.
  destruct HH as (pre & mid & post & i & -> & (_ & R2 & R3 & R4 & R5 & _ & lb & R7 & R8) & A1 & A2 & A3 & A4 & A5 & A6 & A7 & A8). exists pre, mid, post. split; [reflexivity|]. unfold tree_after, state_of. cbv zeta.
  set (s0 := es_sh (fst (emit_exec p pre t calls))) in *. set (s1 := es_sh (fst (emit_exec p (pre ++ mid) t calls))) in *. set (s2 := es_sh (fst (emit_exec p (pre ++ mid ++ post) t calls))) in *.
  change (t_main (sh_tree s0)) with (mainof s0). rewrite emit_block_seq. change (t_main (sh_tree s0)) with (mainof s0). rewrite A2.
  replace (u256_sub (i + 1) 1) with (Ok i) by (unfold u256_sub; destruct (N.leb_spec 1 (i + 1)); [f_equal; lia|lia]). cbn [bind]. unfold mc_find_raw_by_height at 1. rewrite A2.
  destruct (N.ltb_spec (i + 1) i); [lia|]. rewrite R3. destruct (base_blocks b (sh_tree s0)) as [B1 B2]. change (t_main (sh_tree s0)) with (mainof s0) in B1, B2.
  rewrite mc_add_block_right by (rewrite B1; lia). cbn [bind]. split; [exists i; exact R2|]. split; [exact A1|]. split; [reflexivity|]. split; [unfold mc_get_height; lia|].
  split; [rewrite A4; destruct b; reflexivity|]. unfold mc_get_height. cbn [with_main t_main mc_appended mc_height]. rewrite B1, A2. split; [unfold mainof in A5; lia|]. split; [apply A7|].
  destruct A6 as [A6 A6']. destruct A7 as [A7 A7']. unfold mainof in A5, A6, A6', A7, A7', A8, A2, R7. change (t_main (sh_tree s0)) with (mainof s0) in *.
  split.
  - intros x Hx. unfold mc_find_raw_by_height. cbn [with_main t_main mc_appended mc_height mc_blocks]. rewrite B1, A2.
    destruct (N.ltb_spec (mc_height (t_main (sh_tree s2))) x); [lia|]. destruct (N.ltb_spec (i + 1 + 1) x); [lia|].
    rewrite A7' by lia. rewrite sled_get_insert, height_key_eqb by lia. destruct (N.eqb_spec x (i + 1)) as [->|Hne]; [exact A8|].
    rewrite A6' by lia. symmetry. apply sled_get_cur, B2.
  - exists lb. split; [|exact R8]. unfold mc_find_by_height, mc_find_raw_by_height. rewrite R5. replace (i + 1 - 1) with i by lia.
    destruct (N.ltb_spec (mc_height (t_main (sh_tree s2))) i); [lia|]. rewrite A7' by lia. rewrite A6' by lia. exact R7.
Qed.
(*@E
Example C93_success_ex :
  let calls := [EEmission (repeat 3 32) addrA [repeat 7 32] 1597924900; HChain FFlush; HChain (FCall (CAddBlock (filler 2))); HChain (FCall CLast)] in
  let schedule := [3; 1; 1; 0; 0; 1; 0; 2; 0; 1; 0; 0; 1; 0; 0; 0; 3; 3; 1; 1; 1]%nat in
  reachable any_op Debug 0 fresh /\ Forall handle_or_emission calls /\
  match state_of Debug schedule fresh calls 0, state_of Debug schedule fresh calls 2 with
  | Some (EDone (Ok b)), Some (HTh (FTh (TDone _ (Err _)))) => bi_height (get_info b) = 1
  | _, _ => False
  end.
Proof.
  split; [apply fresh_reachable|]. split.
  - repeat (constructor; try reflexivity); apply filler_wf; reflexivity.
  - vm_compute. reflexivity.
Qed.
@*)

(*@T C93.  An emission that is refused next to any calls on chain handles and to other emissions leaves the four balance databases alone,
   unless it was refused by [add_block] (or by the last possible height) after the balances had been rotated for a summarize block: then the root account has been refilled
   and the old balances replaced.  Missing from the full claim: that case. *)
Lemma p_C93_refused_partial : forall ok p n t calls schedule k pow founder txs ts r,
  reachable ok p n t -> few n -> Forall handle_or_emission calls ->
  nth_error calls k = Some (EEmission pow founder txs ts) ->
  state_of p schedule t calls k = Some (EDone r) -> (forall b, r <> Ok b) ->
  exists before during after, schedule = before ++ during ++ after /\
    state_of p before t calls k = Some (EStart pow founder txs ts) /\ state_of p (before ++ during) t calls k = Some (EDone r) /\
    let t0 := tree_after p before t calls in let t1 := tree_after p (before ++ during) t calls in
    ledgers t1 = ledgers t0 \/
    txs = [] /\ (r = Err EChainAddingBlock \/ r = Panic) /\
    (forall w, t_get_amount w t1 = if bytes_eqb w ROOT_PUBLIC_ADDRESS then Ok COINS_PER_CYCLE else t_get_amount w t0) /\
    (forall w, t_get_gas w t1 = t_get_gas w t0) /\ cur (t_old_summary t1) = cur (t_summary t0) /\ cur (t_old_gas t1) = cur (t_gas t0).
Proof.
  intros ok p n t calls sch k w f txs ts r Hr Hn Hc Hk Hdone Hnok. destruct (reach_tree _ _ _ _ Hr Hn) as (L & HI & Hl).
  destruct (hist_all p t calls k w f txs ts L HI Hl Hc Hk sch) as [_ (th & Hth & HH)]. unfold state_of in Hdone. rewrite Hdone in Hth. injection Hth as <-. cbn [hist] in HH.
  assert (HF : fail p t calls k w f txs ts r sch) by (destruct r; [destruct (Hnok _ eq_refl)|exact HH..]). clear HH.
  destruct HF as (pre & mid & post & -> & A1 & A2 & A3). exists pre, mid, post. split; [reflexivity|]. split; [exact A1|]. split; [exact A2|]. unfold tree_after. cbv zeta.
  set (t0 := sh_tree (es_sh (fst (emit_exec p pre t calls)))) in *. set (t1 := sh_tree (es_sh (fst (emit_exec p (pre ++ mid) t calls)))) in *.
  destruct A3 as [A3|(A3 & A4 & A5)]; [left; exact A3|right]. split; [exact A3|]. split; [exact A4|]. unfold ledgers in A5. injection A5 as E1 E2 E3 E4.
  unfold t_get_amount, t_get_gas. rewrite E1, E2, E3, E4. split; [|repeat split].
  intros x. unfold led_get. cbn [rotated with_summary t_summary t_rotate_dbs t_flush]. rewrite sled_get_commit1. destruct (bytes_eqb x ROOT_PUBLIC_ADDRESS); [apply led_decode_encode; reflexivity|reflexivity].
Qed.
(*@E
Example C93_refused_ex :
  let calls := [EEmission (repeat 3 32) addrA [repeat 7 32] 1597924900; HChain (FCall (CAddBlock (filler 1)))] in
  let schedule := [0; 0; 0; 0; 1; 1; 1; 1; 0; 0]%nat in
  reachable any_op Debug 0 fresh /\ Forall handle_or_emission calls /\
  match state_of Debug schedule fresh calls 0 with Some (EDone (Err EChainAddingBlock)) => mc_get_height (t_main (tree_after Debug schedule fresh calls)) = 2 | _ => False end.
Proof.
  split; [apply fresh_reachable|]. split.
  - repeat (constructor; try reflexivity); apply filler_wf; reflexivity.
  - vm_compute. reflexivity.
Qed.
@*)

(** ** Where the blocks come from *)
Lemma added_tree s a s' a' (b : block) : tok (mainof s) a -> tree_step s a = Some (s', a') ->
  match a' with TDone (CAddBlock _) (Ok CRUnit) => exists b, a = TBump b /\ a' = TDone (CAddBlock b) (Ok CRUnit) /\ mainof s' = put_height (mc_height (mainof s) + 1) (mainof s) | _ => mc_height (mainof s') = mc_height (mainof s) end.
Proof.
  intros Ht E. pose proof (step_main s a s' a' E) as M. pose proof (step_call s a s' a' E) as C.
  destruct a as [[c|tx|b0| |h|h]|tx g|tx g am|tx g am i|tx g am i|tx g|tx g|tx g|b0|b0|b0|c i|c i|c r]; cbn [tree_step th_call] in *;
    try (assert (X : mc_height (mainof s') = mc_height (mainof s)) by (first [apply M|rewrite M; reflexivity]); destruct a' as [| | | | | | | | | | | | |[| |b1| | |] [[]| | |]]; try exact X; cbn [th_call] in C; try discriminate C; exfalso).
  - destruct (sh_locked s); [discriminate E|]. destruct (negb _); apply some_inv in E as [_ E]; discriminate E.
  - apply some_inv in E as [_ E]. discriminate E.
  - apply some_inv in E as [_ E]. discriminate E.
  - revert E M. unfold u256_add. fold (mainof s). destruct (N.ltb_spec (mc_height (mainof s) + 1) (2 ^ 256)); intros E M; apply some_inv in E as [_ <-]; [exists b0; auto|rewrite M; reflexivity].
  - destruct (sh_locked s); [discriminate E|]. apply some_inv in E as [_ E]. destruct (_ <? _); discriminate E.
  - apply some_inv in E as [_ E]. discriminate E.
  - discriminate E.
Qed.
Lemma added_step p st ts k th st' th' : ginv st ts -> nth_error ts k = Some th -> estep p st th st' th' ->
  (mc_height (mainof (es_sh st')) = mc_height (mainof (es_sh st)) /\ added th' = added th) \/
  (added th = None /\ exists b, added th' = Some b /\ mc_height (mainof (es_sh st')) = mc_height (mainof (es_sh st)) + 1 /\ bi_height (get_info b) = mc_height (mainof (es_sh st)) /\
   sled_get (height_key (mc_height (mainof (es_sh st)))) (mc_blocks (mainof (es_sh st'))) = Some (block_dump b)).
Proof.
  intros G Hk E. pose proof (g_th _ _ G th (nth_error_In _ _ Hk)) as Ht.
  destruct E as [a a' s' E|f f' m F1 F2 Q| |tx txs|w f txs ts0 Eb|w f txs ts0|w f txs ts0 i Ei El|w f txs ts0 i El|w f txs ts0 i|w f txs ts0 i info root Eb|w f txs ts0 i b Eb Hs|w f txs ts0 i r Eb Hr|b f f' m F1 F2 Q|b|b|b a a' s' E|b c r];
    try (left; split; [reflexivity|reflexivity]).
  - destruct Ht as [Ht _]. pose proof (added_tree _ _ _ _ genesis Ht E) as X. cbn [es_sh added].
    assert (Ha : match a with TDone (CAddBlock b) (Ok CRUnit) => Some b | _ => None end = None) by (destruct a as [| | | | | | | | | | | | |c0 r0]; try reflexivity; discriminate E).
    destruct a' as [| | | | | | | | | | | | |[| |b1| | |] [[]| | |]]; try (left; split; [exact X|rewrite Ha; reflexivity]).
    destruct X as (b & -> & Eq & M). injection Eq as <-. right. split; [reflexivity|]. exists b1. split; [reflexivity|]. rewrite M. cbn [put_height mc_height mc_blocks]. cbn [tok] in Ht. split; [reflexivity|]. split; apply Ht.
  - left. split; [apply Q|]. destruct f; [discriminate F1|..]; destruct f'; try discriminate F2; reflexivity.
  - left. split; [reflexivity|]. destruct r; [destruct (Hr _ eq_refl)|reflexivity..].
  - left. split; [apply Q|reflexivity].
  - destruct Ht as (A1 & A2 & A3). pose proof (step_shape _ _ _ _ _ A3 E) as A4. pose proof (added_tree _ _ _ _ genesis A2 E) as X. cbn [es_sh added].
    assert (Ha : match a with TDone _ (Ok _) => Some b | _ => None end = None) by (destruct a as [| | | | | | | | | | | | |c0 r0]; try reflexivity; discriminate E).
    destruct a' as [| | | | | | | | | | | | |c0 r0]; cbn [shape] in A4; try contradiction; try (left; split; [exact X|rewrite Ha; reflexivity]).
    destruct A4 as [-> [->|[->| ->]]]; try (left; split; [exact X|rewrite Ha; reflexivity]).
    destruct X as (b' & -> & Eq & M). injection Eq as <-. right. split; [reflexivity|]. exists b. split; [reflexivity|]. rewrite M. cbn [put_height mc_height mc_blocks]. cbn [tok] in A2. split; [reflexivity|]. split; apply A2.
  - left. split; [reflexivity|]. destruct Ht as (_ & _ & A3 & A4). destruct A4 as [->|[->| ->]]; reflexivity.
Qed.
Definition origin (t : bct) (st : estate) (ts : list ethread) : Prop :=
  ginv st ts /\ keeps (MkShared t false) (es_sh st) /\
  (forall i, mc_height (t_main t) <= i < mc_height (mainof (es_sh st)) -> exists j th b, nth_error ts j = Some th /\ added th = Some b /\ bi_height (get_info b) = i) /\
  (forall j th b, nth_error ts j = Some th -> added th = Some b -> mc_height (t_main t) <= bi_height (get_info b) < mc_height (mainof (es_sh st)) /\
     sled_get (height_key (bi_height (get_info b))) (mc_blocks (mainof (es_sh st))) = Some (block_dump b)) /\
  (forall j j' th th' b b', nth_error ts j = Some th -> nth_error ts j' = Some th' -> added th = Some b -> added th' = Some b' ->
     bi_height (get_info b) = bi_height (get_info b') -> j = j').
Lemma origin_step p t st ts k th st' th' : origin t st ts -> nth_error ts k = Some th -> emit_step p st th = Some (st', th') -> origin t st' (replace ts k th').
Proof.
  intros (G & K & O1 & O2 & O3) Hk E. apply estep_of in E; [|eapply ginv_flushing; eassumption].
  pose proof (ginv_step _ _ _ _ _ _ _ G Hk E) as G'. pose proof (estep_facts _ _ _ _ _ _ _ G Hk E) as (F1 & _). pose proof (added_step _ _ _ _ _ _ _ G Hk E) as A.
  split; [exact G'|]. split; [eapply keeps_trans; eassumption|]. destruct F1 as [F1 F1']. destruct K as [K _]. unfold mainof at 1 in K. cbn [sh_tree] in K.
  assert (Hnth : forall j z, nth_error (replace ts k th') j = Some z -> (j = k /\ z = th') \/ (j <> k /\ nth_error ts j = Some z)).
  { intros j z Hj. destruct (Nat.eq_dec j k) as [->|Hne]; [left|right; split; [exact Hne|]; rewrite replace_other in Hj by congruence; exact Hj]. rewrite (replace_same _ _ _ th' Hk) in Hj. injection Hj as <-. auto. }
  assert (Hold : forall j z, j <> k -> nth_error ts j = Some z -> nth_error (replace ts k th') j = Some z) by (intros j z Hne Hj; rewrite replace_other by congruence; exact Hj).
  pose proof (replace_same ts k th th' Hk) as Hnew.
  assert (Hlow : forall j z b, nth_error ts j = Some z -> added z = Some b -> mc_height (t_main t) <= bi_height (get_info b) < mc_height (mainof (es_sh st)) /\
     sled_get (height_key (bi_height (get_info b))) (mc_blocks (mainof (es_sh st'))) = Some (block_dump b)).
  { intros j z b Hj Hz. destruct (O2 _ _ _ Hj Hz) as [X Y]. split; [exact X|]. rewrite F1' by lia. exact Y. }
  destruct A as [[A1 A2]|(A1 & b0 & A2 & A3 & A4 & A5)].
  - split; [|split].
    + intros i Hi. rewrite A1 in Hi. destruct (O1 i Hi) as (j & z & b & H1 & H2 & H3). destruct (Nat.eq_dec j k) as [->|Hne]; [|exists j, z, b; auto].
      rewrite Hk in H1. injection H1 as <-. exists k, th', b. rewrite A2. auto.
    + intros j z b Hj Hz. rewrite A1. destruct (Hnth j z Hj) as [[-> ->]|[_ Hj']]; [rewrite A2 in Hz; apply (Hlow k th); assumption|apply (Hlow j z); assumption].
    + intros j j' z z' b b' Hj Hj' Hz Hz' Hh.
      assert (exists y, nth_error ts j = Some y /\ added y = Some b) as (y & Y1 & Y2) by (destruct (Hnth j z Hj) as [[-> ->]|[_ X]]; [exists th; rewrite <- A2; auto|exists z; auto]).
      assert (exists y, nth_error ts j' = Some y /\ added y = Some b') as (y' & Y1' & Y2') by (destruct (Hnth j' z' Hj') as [[-> ->]|[_ X]]; [exists th; rewrite <- A2; auto|exists z'; auto]).
      eapply O3; eassumption.
  - split; [|split].
    + intros i Hi. destruct (N.lt_ge_cases i (mc_height (mainof (es_sh st)))) as [Hc|Hc]; [|exists k, th', b0; split; [exact Hnew|]; split; [exact A2|lia]].
      destruct (O1 i ltac:(lia)) as (j & z & b & H1 & H2 & H3). destruct (Nat.eq_dec j k) as [->|Hne]; [|exists j, z, b; auto]. rewrite Hk in H1. injection H1 as <-. congruence.
    + intros j z b Hj Hz. destruct (Hnth j z Hj) as [[-> ->]|[_ Hj']].
      * assert (b = b0) as -> by congruence. rewrite A4. split; [lia|exact A5].
      * destruct (Hlow j z b Hj' Hz) as [X Y]. split; [lia|exact Y].
    + intros j j' z z' b b' Hj Hj' Hz Hz' Hh. destruct (Hnth j z Hj) as [[-> ->]|[_ X]]; destruct (Hnth j' z' Hj') as [[-> ->]|[_ X']].
      * reflexivity.
      * exfalso. assert (b = b0) as -> by congruence. destruct (O2 _ _ _ X' Hz') as [Y _]. lia.
      * exfalso. assert (b' = b0) as -> by congruence. destruct (O2 _ _ _ X Hz) as [Y _]. lia.
      * eapply O3; eassumption.
Qed.

(*@T C93.  The chain next to any calls on handles and any emissions: blocks present at the start stay; every further block was added by a call
   (through a handle or by an emission) and is found at its height; no two calls added a block at the same height.  In particular a refused emission has added none. *)
Lemma p_C93_chain : forall ok p n t calls schedule,
  reachable ok p n t -> few n -> Forall handle_or_emission calls ->
  let t2 := tree_after p schedule t calls in
  (forall i, i < mc_get_height (t_main t) -> mc_find_raw_by_height i (t_main t2) = mc_find_raw_by_height i (t_main t)) /\
  (forall i, mc_get_height (t_main t) <= i < mc_get_height (t_main t2) ->
     exists k th b, state_of p schedule t calls k = Some th /\ added th = Some b /\ bi_height (get_info b) = i) /\
  (forall k th b, state_of p schedule t calls k = Some th -> added th = Some b ->
     mc_get_height (t_main t) <= bi_height (get_info b) < mc_get_height (t_main t2) /\
     mc_find_raw_by_height (bi_height (get_info b)) (t_main t2) = Some (block_dump b)) /\
  (forall k k' th th' b b', state_of p schedule t calls k = Some th -> state_of p schedule t calls k' = Some th' ->
     added th = Some b -> added th' = Some b' -> bi_height (get_info b) = bi_height (get_info b') -> k = k').
Proof.
  intros ok p n t calls sch Hr Hn Hc. destruct (reach_tree _ _ _ _ Hr Hn) as (L & HI & Hl).
  pose proof (exec_ind (emit_step p) (origin t) (origin_step p t) sch (MkEs (MkShared t false) false) (map estart calls)) as H.
  unfold tree_after, state_of, emit_exec, mc_get_height. destruct (exec (emit_step p) sch _) as [st ts]. cbn [fst snd]. cbv zeta.
  destruct H as (G & [K1 K2] & O1 & O2 & O3).
  { split; [apply (ginv_start t L); assumption|]. split; [apply keeps_refl|]. cbn [es_sh]. assert (HN : forall j th b, nth_error (map estart calls) j = Some th -> added th = Some b -> False).
    { intros j th b Hj Hb. rewrite nth_error_map in Hj. destruct (nth_error calls j) as [[[]| |]|]; try discriminate Hj; injection Hj as <-; discriminate Hb. }
    split; [intros i Hi; unfold mainof in Hi; cbn [sh_tree] in Hi; lia|]. split; [intros j th b Hj Hb; destruct (HN j th b Hj Hb)|]. intros j j' th th' b b' Hj _ Hb. destruct (HN j th b Hj Hb). }
  unfold mainof in *. cbn [sh_tree] in *. split; [|split; [exact O1|split; [|exact O3]]].
  - intros i Hi. unfold mc_find_raw_by_height. destruct (N.ltb_spec (mc_height (t_main (sh_tree (es_sh st)))) i); [lia|]. destruct (N.ltb_spec (mc_height (t_main t)) i); [lia|]. apply K2, Hi.
  - intros k th b Hk Hb. destruct (O2 k th b Hk Hb) as [X Y]. split; [exact X|]. unfold mc_find_raw_by_height. destruct (N.ltb_spec (mc_height (t_main (sh_tree (es_sh st)))) (bi_height (get_info b))); [lia|exact Y].
Qed.

(** ** A lost epoch *)
Lemma duo0 {S T} (step : S -> T -> option (S * T)) n s a c : exec step (repeat 0%nat (Datatypes.S n)) (s, [a; c]) =
  exec step (repeat 0%nat n) (match step s a with Some (s', a') => (s', [a'; c]) | None => (s, [a; c]) end).
Proof. unfold exec. cbn [repeat fold_left sched_step nth_error]. destruct (step s a) as [[s' a']|]; reflexivity. Qed.
Lemma duo1 {S T} (step : S -> T -> option (S * T)) n s a c : exec step (repeat 1%nat (Datatypes.S n)) (s, [a; c]) =
  exec step (repeat 1%nat n) (match step s c with Some (s', c') => (s', [a; c']) | None => (s, [a; c]) end).
Proof. unfold exec. cbn [repeat fold_left sched_step nth_error]. destruct (step s c) as [[s' c']|]; reflexivity. Qed.

Lemma duo_flush p n t b c busy :
  exec (emit_step p) (repeat 0%nat (8 + n)) (MkEs (MkShared t false) busy, [EFlush b FOpen; c]) =
  exec (emit_step p) (repeat 0%nat n) (MkEs (MkShared (with_main t (mc_flush (t_main t))) false) busy, [ERotate b; c]).
Proof.
  cbn [Nat.add]. do 8 (rewrite duo0; cbn [emit_step flush_step es_sh es_busy with_tree sh_tree sh_locked with_main t_main with_cfg mc_cfg mc_height mc_difficulty]).
  unfold mc_flush. rewrite <- phased_cfg. reflexivity.
Qed.

(*@T C93.  Whenever an emission would make a summarize block, a block added through a handle at the wrong moment has it refused after
   the balances were rotated: the root account is refilled, the other balances stay, and there is no summarize block at that height. *)
Lemma p_C93_lost_epoch : forall p t pow founder ts i root b,
  snd (t_emmit_new_main_block p pow founder [] ts t) = Ok (SummBlock i root) -> bi_height (get_info b) = mc_get_height (t_main t) ->
  let '(st, ths) := emit_exec p (repeat 0%nat 4 ++ repeat 1%nat 4 ++ repeat 0%nat 11) t [EEmission pow founder [] ts; HChain (FCall (CAddBlock b))] in
  let t1 := sh_tree (es_sh st) in
  ths = [EDone (Err EChainAddingBlock); HTh (FTh (TDone (CAddBlock b) (Ok CRUnit)))] /\
  (forall w, t_get_amount w t1 = if bytes_eqb w ROOT_PUBLIC_ADDRESS then Ok COINS_PER_CYCLE else t_get_amount w t) /\
  mc_get_height (t_main t1) = mc_get_height (t_main t) + 1 /\
  mc_find_raw_by_height (mc_get_height (t_main t)) (t_main t1) = Some (block_dump b).
Proof.
  intros p t w f ts info root b E Hh. unfold mc_get_height in *.
  rewrite emit_block_seq in E. destruct (u256_sub (mc_height (t_main t)) 1) as [i|e| |] eqn:Ei; cbn [bind] in E; try discriminate E.
  assert (Hi : mc_height (t_main t) = i + 1) by (revert Ei; unfold u256_sub; destruct (N.leb_spec 1 (mc_height (t_main t))); [|discriminate]; intros X; apply ok_inv in X; lia).
  assert (Hlt : (mc_height (t_main t) <? i) = false) by (apply N.ltb_ge; lia).
  unfold mc_find_raw_by_height in E. rewrite Hlt in E.
  destruct (emit_block p w f [] ts (sled_get (height_key i) (mc_blocks (t_main t))) t) as [b0|e| |] eqn:Eb; try discriminate E.
  assert (X : b0 = SummBlock info root /\ bi_height (get_info b0) = mc_height (t_main t) /\ mc_height (t_main t) + 1 < 2 ^ 256).
  { revert E. unfold mc_add_block. destruct (base_blocks b0 t) as [B1 _]. rewrite B1. destruct (N.eqb_spec (bi_height (get_info b0)) (mc_height (t_main t))) as [H1|]; cbn [negb]; [|discriminate].
    unfold u256_add. destruct (N.ltb_spec (mc_height (t_main t) + 1) (2 ^ 256)); [|discriminate]. intros X. apply ok_inv in X. auto. }
  destruct X as (-> & Hb0 & Hmax). clear E.
  unfold emit_exec. cbn [map estart fstart]. rewrite !exec_app.
  rewrite duo0. cbn [emit_step es_busy es_sh]. rewrite duo0. cbn [emit_step es_sh sh_locked sh_tree]. rewrite Ei. rewrite duo0. cbn [emit_step es_sh sh_locked sh_tree]. rewrite Hlt.
  rewrite duo0. cbn [emit_step es_sh sh_tree]. rewrite Eb. change (exec (emit_step p) (repeat 0%nat 0)) with (fun x : estate * list ethread => x). cbv beta.
  assert (Hadd : exec (emit_step p) (repeat 1%nat 4) (MkEs (MkShared t false) true, [EFlush (SummBlock info root) FOpen; HTh (FTh (TStart (CAddBlock b)))]) =
    (MkEs (MkShared (with_main t (mc_appended b (t_main t))) false) true, [EFlush (SummBlock info root) FOpen; HTh (FTh (TDone (CAddBlock b) (Ok CRUnit)))])).
  { rewrite duo1. cbn [emit_step flush_step tree_step es_sh sh_tree sh_locked]. rewrite Hh, N.eqb_refl. cbn [negb].
    rewrite duo1. cbn [emit_step flush_step tree_step es_sh with_tree sh_tree sh_locked]. rewrite duo1. cbn [emit_step flush_step tree_step es_sh with_tree sh_tree sh_locked].
    rewrite duo1. cbn [emit_step flush_step tree_step es_sh with_tree sh_tree sh_locked with_main t_main put_ref put_block mc_height].
    unfold u256_add. destruct (N.ltb_spec (mc_height (t_main t) + 1) (2 ^ 256)); [reflexivity|lia]. }
  rewrite Hadd. clear Hadd. set (t' := with_main t (mc_appended b (t_main t))).
  assert (Hfl : exec (emit_step p) (repeat 0%nat 11) (MkEs (MkShared t' false) true, [EFlush (SummBlock info root) FOpen; HTh (FTh (TDone (CAddBlock b) (Ok CRUnit)))]) =
    (MkEs (MkShared (rotated t') false) false, [EDone (Err EChainAddingBlock); HTh (FTh (TDone (CAddBlock b) (Ok CRUnit)))])).
  { etransitivity; [exact (duo_flush p 3 t' (SummBlock info root) _ true)|].
    rewrite duo0. cbn [emit_step es_sh sh_tree]. rewrite set_root.
    etransitivity; [exact (eq_refl (exec (emit_step p) (repeat 0%nat 2) (MkEs (MkShared (rotated t') false) true, [EAdd (SummBlock info root) (TStart (CAddBlock (SummBlock info root))); HTh (FTh (TDone (CAddBlock b) (Ok CRUnit)))])))|].
    rewrite duo0. cbn [emit_step tree_step with_tree es_sh sh_tree sh_locked]. 
    assert (bi_height (get_info (SummBlock info root)) =? mc_height (t_main (rotated t')) = false) as ->.
    { change (mc_height (t_main (rotated t'))) with (mc_height (t_main t) + 1). rewrite Hb0. apply N.eqb_neq. lia. }
    cbn [negb]. rewrite duo0. reflexivity. }
  rewrite Hfl. cbn [es_sh sh_tree]. split; [reflexivity|]. split.
  - intros x. unfold t_get_amount, led_get. cbn [rotated with_summary t_summary t_rotate_dbs t_flush t' with_main]. rewrite sled_get_commit1. destruct (bytes_eqb x ROOT_PUBLIC_ADDRESS); [apply led_decode_encode; reflexivity|reflexivity].
  - change (mc_height (t_main (rotated t'))) with (mc_height (t_main t) + 1). split; [reflexivity|]. unfold mc_find_raw_by_height. change (mc_height (t_main (rotated t'))) with (mc_height (t_main t) + 1).
    destruct (N.ltb_spec (mc_height (t_main t) + 1) (mc_height (t_main t))); [lia|]. change (mc_blocks (t_main (rotated t'))) with (sled_flush (sled_insert (height_key (mc_height (t_main t))) (block_dump b) (mc_blocks (t_main t)))).
    rewrite (sled_get_cur _ _ (sled_insert (height_key (mc_height (t_main t))) (block_dump b) (mc_blocks (t_main t)))) by reflexivity. rewrite sled_get_insert, bytes_eqb_refl. reflexivity.
Qed.

(*@T C93.  A refused emission can change balances: a reachable tree, an emission and one block added through a handle. *)
Lemma p_C93_refused_refuted : forall p, exists t calls schedule pow founder ts,
  reachable main_kinds p (N.to_nat 1000000) t /\ Forall handle_or_emission calls /\ nth_error calls 0 = Some (EEmission pow founder [] ts) /\
  state_of p schedule t calls 0 = Some (EDone (Err EChainAddingBlock)) /\
  t_get_amount ROOT_PUBLIC_ADDRESS t = Ok 5 /\ t_get_amount ROOT_PUBLIC_ADDRESS (tree_after p schedule t calls) = Ok COINS_PER_CYCLE.
Proof.
  intros p. destruct (filled p 999999) as (t0 & L & Hr & HL & Hlen & Hl & Hs & Hg & Hd & Hc); [reflexivity|].
  set (t := fst (step p t0 (OSetAmount ROOT_PUBLIC_ADDRESS 5))).
  assert (Ht : t = with_summary t0 (sled_commit [(ROOT_PUBLIC_ADDRESS, led_encode 5)] (t_summary t0))) by reflexivity.
  assert (HL' : tree_inv t L) by (apply (tree_inv_main t0); [exact HL|rewrite Ht; reflexivity]).
  exists t, [EEmission (repeat 3 32) addrA [] 1597924900; HChain (FCall (CAddBlock (filler 1000000)))], (repeat 0%nat 4 ++ repeat 1%nat 4 ++ repeat 0%nat 11), (repeat 3 32), addrA, 1597924900.
  split.
  { change 1000000 with (N.succ 999999). rewrite Nnat.N2Nat.inj_succ. apply reach_call; [exact Hr| |exact I]. split; [repeat constructor; reflexivity|reflexivity]. }
  split.
  { constructor; [|constructor; [|constructor]].
    - split; [split; [reflexivity|repeat constructor; reflexivity]|]. split; [split; [reflexivity|repeat constructor; reflexivity]|]. split; [constructor|reflexivity].
    - apply filler_wf. reflexivity. }
  split; [reflexivity|].
  pose proof (epoch_emits p t L HL' Hlen (Hl eq_refl)) as E. pose proof (mi_height _ _ (ti_main _ _ HL')) as Hh.
  assert (Hfh : bi_height (get_info (filler 1000000)) = mc_get_height (t_main t)) by (unfold mc_get_height; rewrite Hh, Hlen; reflexivity).
  pose proof (p_C93_lost_epoch p t (repeat 3 32) addrA 1597924900 _ _ (filler 1000000) E Hfh) as X. unfold state_of, tree_after. clear E Hl.
  destruct (emit_exec p _ t _) as [st ths]. destruct X as (X1 & X2 & _). cbn [fst snd]. rewrite X1. split; [reflexivity|]. split.
  - rewrite Ht. unfold t_get_amount, led_get. cbn [with_summary t_summary]. rewrite sled_get_commit1, bytes_eqb_refl. apply led_decode_encode. reflexivity.
  - rewrite X2, bytes_eqb_refl. reflexivity.
Qed.
