(** Proofs of the statements in P_Hist.v. *)
From Coq Require Import Lia ZifyBool ZifyNat ZifyN.
From Verif Require Import Base Sha256 Merkle Tools Transaction Block Sled Chain Tree Spec Reach CrashSpec DcrashSpec HistSpec Demo.
From Verif Require Import BaseFacts ToolsFacts MerkleFacts DiffFacts CodecFacts SledFacts ChainFacts TreeFacts CrashFacts CodecProps MainProps DcrashProps.

(** ** The invariant: [L] is the chain, at least [k] blocks of it are kept by every crash *)
Definition cand (s : sled) (L : list block) (k : nat) (c : option bytes) : Prop :=
  match c with
  | None => k = 0%nat
  | Some x => (length x < 64)%nat \/ exists h, (0 < h /\ k <= h /\ h <= length L)%nat /\ x = height_key (N.of_nat h) ++ BEGINNING_DIFFICULTY /\
      forall n i b, i < N.of_nat h -> nthN L i = Some b -> sled_get (height_key i) (sled_crash n s) = Some (block_dump b)
  end.
Record hist (m : main_chain) (L : list block) (k : nat) : Prop := {
  h_height : mc_height m = N.of_nat (length L);
  h_blocks : forall i b, nthN L i = Some b -> sled_get (height_key i) (mc_blocks m) = Some (block_dump b);
  h_heights : forall i b, nthN L i = Some b -> bi_height (get_info b) = i;
  h_gen : nth_error L 0 = Some genesis;
  h_wf : Forall block_wf L;
  h_diff : mc_difficulty m = BEGINNING_DIFFICULTY;
  h_log : sled_log (mc_blocks m);
  h_low : (k <= length L)%nat;
  h_cfg : forall c, c = f_dur (mc_cfg m) \/ In c (f_pend (mc_cfg m)) -> cand (mc_blocks m) L k c
}.

Lemma hist_core m m' L k : hist m L k -> core_eq m' m -> hist m' L k.
Proof. intros [H1 H2 H3 H4 H5 H6 H7 H8 H9] (E1 & _ & E3 & E4 & E5). split; rewrite ?E1, ?E3, ?E4, ?E5; assumption. Qed.
Lemma hist_append m L k b : hist m L k -> block_wf b -> bi_height (get_info b) = mc_height m -> mc_height m + 1 < 2 ^ 256 -> hist (mc_appended b m) (L ++ [b]) k.
Proof.
  intros [H1 H2 H3 H4 H5 H6 H7 H8 H9] Hw Hh Hb. split; cbn [mc_appended mc_height mc_blocks mc_difficulty mc_cfg].
  - rewrite app_length. cbn [length]. lia.
  - intros i x Hx. pose proof (nthN_some _ _ _ Hx) as Hi. rewrite app_length in Hi. cbn [length] in Hi. rewrite sled_get_insert, height_key_eqb by lia.
    destruct (N.eqb_spec i (mc_height m)) as [->|Hne].
    + rewrite H1, nthN_snoc in Hx. injection Hx as <-. reflexivity.
    + rewrite nthN_app1 in Hx by lia. apply H2, Hx.
  - intros i x Hx. pose proof (nthN_some _ _ _ Hx) as Hi. rewrite app_length in Hi. cbn [length] in Hi.
    destruct (N.eq_dec i (N.of_nat (length L))) as [->|Hne].
    + rewrite nthN_snoc in Hx. injection Hx as <-. congruence.
    + rewrite nthN_app1 in Hx by lia. apply H3, Hx.
  - destruct L; [discriminate|exact H4].
  - apply Forall_app. split; [exact H5|repeat constructor; exact Hw].
  - exact H6.
  - apply log_commit, H7.
  - rewrite app_length. lia.
  - intros c Hc. specialize (H9 c Hc). destruct c as [x|]; [|exact H9]. destruct H9 as [H9|(h & Hk & -> & H9)]; [left; exact H9|right].
    exists h. split; [rewrite app_length; lia|]. split; [reflexivity|]. intros n i y Hi Hy. rewrite nthN_app1 in Hy by lia.
    unfold sled_insert. destruct (log_crash_commit n [(height_key (mc_height m), block_dump b)] _ H7) as [G|G]; rewrite G; [apply H9; assumption|].
    rewrite sled_get_commit1, height_key_eqb by lia. destruct (N.eqb_spec i (mc_height m)); [lia|]. apply H2, Hy.
Qed.
Lemma BD_length : length BEGINNING_DIFFICULTY = 32%nat.
Proof. reflexivity. Qed.
Lemma hist_flushed m m' L k : hist m L k -> mc_height m' = mc_height m -> mc_blocks m' = sled_flush (mc_blocks m) -> mc_difficulty m' = mc_difficulty m ->
  mc_cfg m' = mc_cfg (mc_dump_config m) -> hist m' L k.
Proof.
  intros [H1 H2 H3 H4 H5 H6 H7 H8 H9] E1 E2 E3 E4. split; rewrite ?E1, ?E2, ?E3, ?E4; try assumption; try reflexivity.
  assert (Hk : forall n i b, nthN L i = Some b -> sled_get (height_key i) (sled_crash n (sled_flush (mc_blocks m))) = Some (block_dump b)) by (intros n i b Hi; rewrite crash_flush; apply H2, Hi).
  cbn [mc_dump_config mc_cfg file_append file_truncate f_dur f_pend]. rewrite !file_cur_append, file_cur_truncate. intros c Hc.
  rewrite !in_app_iff in Hc. cbn [In] in Hc.
  assert (Hold : c = f_dur (mc_cfg m) \/ In c (f_pend (mc_cfg m)) -> cand (sled_flush (mc_blocks m)) L k c).
  { intros Ho. specialize (H9 c Ho). destruct c as [x|]; [|exact H9]. destruct H9 as [H9|(h & Hh & -> & _)]; [left; exact H9|right]. exists h. split; [exact Hh|]. split; [reflexivity|]. intros. apply Hk. assumption. }
  destruct Hc as [Hc|[[[Hc|[Hc|[]]]|[Hc|[]]]|[Hc|[]]]]; [apply Hold; left; exact Hc|apply Hold; right; exact Hc|subst c..].
  - left. cbn. lia.
  - left. rewrite app_length, height_key_length. cbn. lia.
  - right. exists (length L). assert (L <> []) by (destruct L; [discriminate H4|discriminate]).
    split; [destruct L; [contradiction|cbn [length] in *; lia]|]. split; [rewrite H1, H6; reflexivity|]. intros. apply Hk. assumption.
Qed.
Lemma last_or {A} (l : list A) d : last l d = d \/ In (last l d) l.
Proof. destruct l as [|x l _] using rev_ind; [left; reflexivity|right]. rewrite last_last. apply in_or_app. right. left. reflexivity. Qed.
Lemma last_firstn_or {A} n (l : list A) d : last (firstn n l) d = d \/ In (last (firstn n l) d) l.
Proof. destruct (last_or (firstn n l) d) as [E|E]; [left; exact E|right]. revert E. generalize (last (firstn n l) d). intros x E. rewrite <- (firstn_skipn n l). apply in_or_app. left. exact E. Qed.
Lemma hist_settle m L k : hist m L k -> hist (MkMain (mc_blocks m) (mc_refs m) (mc_txs m) (mc_height m) (mc_difficulty m) (file_settle (mc_cfg m))) L k.
Proof.
  intros [H1 H2 H3 H4 H5 H6 H7 H8 H9]. split; cbn [mc_blocks mc_height mc_difficulty mc_cfg file_settle f_dur f_pend]; try assumption.
  intros c [->|[]]. apply H9. unfold file_cur. apply last_or.
Qed.
Lemma hist_kept m L k : hist m L k -> hist (MkMain (sled_flush (mc_blocks m)) (sled_flush (mc_refs m)) (sled_flush (mc_txs m)) (mc_height m) (mc_difficulty m)
  (file_settle (mc_cfg (mc_flush m)))) L (length L).
Proof.
  intros [H1 H2 H3 H4 H5 H6 H7 H8 H9]. split; cbn [mc_blocks mc_height mc_difficulty mc_cfg file_settle f_dur f_pend]; try assumption; try reflexivity.
  intros c [->|[]]. rewrite mc_cfg_flush, H1, H6. right. exists (length L). split; [destruct L; [discriminate H4|cbn [length]; lia]|]. split; [reflexivity|].
  intros n i b _ Hi. rewrite crash_flush. apply H2, Hi.
Qed.
Lemma hist_weaken m L k k' : hist m L k -> (k' <= k)%nat -> hist m L k'.
Proof.
  intros [H1 H2 H3 H4 H5 H6 H7 H8 H9] Hk. split; try assumption; [lia|]. intros c Hc. specialize (H9 c Hc). destruct c as [x|]; cbn [cand] in *; [|lia].
  destruct H9 as [H9|(h & Hh & H9)]; [left; exact H9|right]. exists h. split; [lia|exact H9].
Qed.
Lemma nthN_firstn {A} n (l : list A) i : i < N.of_nat n -> nthN (firstn n l) i = nthN l i.
Proof.
  unfold nthN. intros H. assert (Hi : (N.to_nat i < n)%nat) by lia. revert Hi. generalize (N.to_nat i). clear. intros j. revert n l.
  induction j as [|j IH]; intros [|n] [|x l] Hj; try lia; try reflexivity. apply IH. lia.
Qed.
Lemma short_config x : (length x < 64)%nat -> exists e, read_fields 2 x = Err e.
Proof.
  intros H. cbn [read_fields]. destruct (Nat.ltb_spec (length x) 32); [eexists; reflexivity|]. rewrite skipn_length.
  destruct (Nat.ltb_spec (length x - 32) 32); [|lia]. cbn [bind]. eexists; reflexivity.
Qed.
Lemma hist_crash m L k s m' : hist m L k -> N.of_nat (length L) + 1 < 2 ^ 256 -> mc_new (mc_crash s m) = Ok m' ->
  exists h, (0 < h /\ k <= h /\ h <= length L)%nat /\ hist m' (firstn h L) k.
Proof.
  intros [H1 H2 H3 H4 H5 H6 H7 H8 H9] Hlen E.
  set (c := last (firstn (sv_cfg s) (f_pend (mc_cfg m))) (f_dur (mc_cfg m))) in *.
  assert (Hc : cand (mc_blocks m) L k c) by (apply H9; apply last_firstn_or).
  assert (Ec : md_cfg (mc_crash s m) = MkFile c []) by reflexivity.
  assert (Ec' : file_crash (sv_cfg s) (mc_cfg m) = MkFile c []) by reflexivity.
  destruct c as [x|] eqn:Ex; [destruct Hc as [Hc|(h & Hh & -> & Hk)]|].
  - exfalso. unfold mc_new, mc_read_config in E. rewrite Ec in E. cbn [file_cur f_pend f_dur last] in E.
    destruct (short_config x Hc) as (e & Er). rewrite Er in E. discriminate E.
  - exists h. split; [exact Hh|].
    rewrite (mc_new_settled _ (N.of_nat h) BEGINNING_DIFFICULTY) in E; [|rewrite Ec; reflexivity|lia|exact BD_length].
    injection E as <-. cbn [mc_crash md_blocks md_refs md_txs md_cfg]. rewrite Ec'.
    assert (Hlf : length (firstn h L) = h) by (rewrite firstn_length; lia).
    assert (Hn : forall i b, nthN (firstn h L) i = Some b -> i < N.of_nat h /\ nthN L i = Some b).
    { intros i b Hi. pose proof (nthN_some _ _ _ Hi) as Hl. rewrite Hlf in Hl. rewrite nthN_firstn in Hi by lia. auto. }
    split; cbn [mc_blocks mc_height mc_difficulty mc_cfg f_dur f_pend]; rewrite ?Hlf; try reflexivity; try lia.
    + intros i b Hi. destruct (Hn i b Hi) as [Hl Hi']. apply Hk; assumption.
    + intros i b Hi. apply H3, (Hn i b Hi).
    + destruct h; [lia|]. destruct L; [discriminate H4|exact H4].
    + rewrite Forall_forall in *. intros b Hb. apply H5. rewrite <- (firstn_skipn h L). apply in_or_app. left. exact Hb.
    + intros c' [->|[]]. right. exists h. rewrite Hlf. split; [lia|]. split; [reflexivity|].
      intros n i b _ Hi. destruct (Hn i b Hi) as [Hl Hi']. unfold sled_crash at 1. cbn [sled_crash pend dur]. rewrite firstn_nil. cbn [fold_left].
      exact (Hk (sv_blocks s) i b Hl Hi').
  - cbn [cand] in Hc. subst k. unfold mc_new, mc_read_config in E. rewrite Ec in E. cbn [file_cur f_pend f_dur last bind] in E. cbn [N.eqb] in E. rewrite genesis_eq in E. cbn [bind] in E.
    rewrite mc_add_block_right in E by reflexivity. cbn [change_context bind] in E. injection E as <-.
    exists 1%nat. assert (EL : firstn 1 L = [genesis]) by (destruct L; [discriminate H4|injection H4 as ->; reflexivity]).
    rewrite EL. split; [destruct L; [discriminate H4|cbn [length]; lia]|].
    assert (Hg : forall i b, nthN [genesis] i = Some b -> i = 0 /\ b = genesis).
    { intros i b Hi. pose proof (nthN_some _ _ _ Hi) as Hl. cbn in Hl. assert (i = 0) by lia. subst i. injection Hi as <-. auto. }
    split; cbn [mc_appended mc_blocks mc_height mc_difficulty mc_cfg]; try reflexivity; try lia.
    + intros i b Hi. destruct (Hg i b Hi) as [-> ->]. rewrite sled_get_insert, bytes_eqb_refl. reflexivity.
    + intros i b Hi. destruct (Hg i b Hi) as [-> ->]. reflexivity.
    + constructor; [|constructor]. rewrite Forall_forall in H5. apply H5. destruct L; [discriminate H4|]. injection H4 as ->. left. reflexivity.
    + cbn [f_dur f_pend]. intros c' [->|[]]. reflexivity.
Qed.

(** ** One call *)
Lemma hist_find m L k i b : hist m L k -> nthN L i = Some b -> mc_find_raw_by_height i m = Some (block_dump b).
Proof.
  intros H Hi. unfold mc_find_raw_by_height. rewrite (h_height _ _ _ H). pose proof (nthN_some _ _ _ Hi). destruct (N.ltb_spec (N.of_nat (length L)) i); [lia|].
  apply (h_blocks _ _ _ H), Hi.
Qed.
Lemma hist_readable m L k i b : hist m L k -> nthN L i = Some b -> readable b \/ exists info, b = DerivBlock info.
Proof.
  intros H Hn. pose proof (h_wf _ _ _ H) as W. rewrite Forall_forall in W. pose proof (W b (nthN_in _ _ _ Hn)) as Hb. pose proof (h_heights _ _ _ H _ _ Hn) as Hh.
  destruct b as [fee root info txs|info|info root]; [|right; eauto|left; split; [exact Hb|exact I]].
  left. split; [exact Hb|]. cbn in Hh. intros E. rewrite E in Hh. subst i.
  pose proof (h_gen _ _ _ H) as Hg. unfold nthN in Hn. change (N.to_nat 0) with 0%nat in Hn. rewrite Hg in Hn. discriminate.
Qed.
Lemma hist_ne m L k : hist m L k -> L <> [].
Proof. intros H ->. pose proof (h_gen _ _ _ H). discriminate. Qed.
Lemma hist_last m L k : hist m L k ->
  mc_get_last_block m = Ok (Some (last L genesis)) \/ ((exists info, last L genesis = DerivBlock info) /\ mc_get_last_block m = Err EChainFindByHeight).
Proof.
  intros H. pose proof (hist_ne _ _ _ H) as Hne. pose proof (nthN_last L genesis Hne) as Hn.
  assert (Hraw : mc_get_last_raw_block m = Ok (Some (block_dump (last L genesis)))).
  { unfold mc_get_last_raw_block, u256_sub. rewrite (h_height _ _ _ H). assert (0 < N.of_nat (length L)) by (destruct L; [contradiction|cbn [length]; lia]).
    destruct (N.leb_spec 1 (N.of_nat (length L))); [|lia]. cbn [bind]. rewrite (hist_find _ _ _ _ _ H Hn). reflexivity. }
  unfold mc_get_last_block. rewrite Hraw. cbn [bind].
  destruct (hist_readable _ _ _ _ _ H Hn) as [Hr|(info & Hi)]; [left; apply readable_decode, Hr|right].
  split; [eauto|]. rewrite Hi. unfold mc_decode. rewrite deserialize_deriv. reflexivity.
Qed.
Lemma hist_step p t o L k : hist (t_main t) L k -> op_wf o -> N.of_nat (length L) + 1 < 2 ^ 256 ->
  exists L', hist (t_main (fst (step p t o))) L' k /\ main_grows p o L L'.
Proof.
  intros H Hwf Hlen.
  assert (Hsame : forall t', t_main t' = t_main t -> exists L', hist (t_main t') L' k /\ main_grows p o L L').
  { intros t' E. exists L. rewrite E. split; [exact H|left; reflexivity]. }
  pose proof (h_height _ _ _ H) as Hh.
  destruct o; cbn [step ret_unit ret_block fst].
  - apply Hsame, on_summary_main.
  - apply Hsame, on_summary_main.
  - apply Hsame, on_summary_main.
  - apply Hsame, send_amount_main.
  - apply Hsame, on_gas_main.
  - apply Hsame, on_gas_main.
  - apply Hsame, on_gas_main.
  - destruct (send_tx_main tx t) as [E|E]; [apply Hsame, E|]. exists L. split; [|left; reflexivity].
    rewrite E. eapply hist_core; [exact H|apply (core_txs [tx])].
  - destruct Hwf as (W1 & W2 & W3 & W4).
    destruct (t_emmit_new_main_block p pow founder txs ts t) as [t' r] eqn:E. cbn [fst].
    destruct (hist_last _ _ _ H) as [Hl|[_ Hl]].
    2:{ unfold t_emmit_new_main_block in E. rewrite Hl in E. cbn [bind] in E. apply pair_inv in E as [<- _]. apply Hsame. reflexivity. }
    pose proof (nthN_last L genesis (hist_ne _ _ _ H)) as Hn. pose proof (h_heights _ _ _ H _ _ Hn) as Hlh.
    pose proof (h_wf _ _ _ H) as W. rewrite Forall_forall in W. specialize (W _ (nthN_in _ _ _ Hn)). pose proof (block_info_wf _ W) as (_ & _ & _ & _ & [Hdl Hdo] & _).
    assert (0 < N.of_nat (length L)) by (pose proof (hist_ne _ _ _ H); destruct L; [contradiction|cbn [length]; lia]).
    pose proof (emit_main_spec p pow founder txs ts t _ t' r Hl Hdo Hdl ltac:(lia) ltac:(lia) E) as S.
    destruct r as [b|e| |]; try (subst t'; apply Hsame; reflexivity). destruct S as (S1 & S2 & S3 & S4 & S5 & S6 & S7).
    assert (Hbw : block_wf b).
    { apply (main_link_wf p (last L genesis) b pow founder txs ts); try assumption; try lia.
      destruct b; try assumption. destruct S6 as [_ S6]. rewrite summarize_ok in S6. injection S6 as <-. apply mroot_array. }
    exists (L ++ [b]). split; [|right; exists b; split; [reflexivity|right; eauto 8]].
    rewrite S7. cbn [with_main t_main]. assert (Hb : hist (t_main (emit_base b t)) L k).
    { destruct b; [exact H|exact H|]. apply (hist_flushed (t_main t)); try exact H; reflexivity. }
    assert (Hhb : mc_height (t_main (emit_base b t)) = mc_height (t_main t)) by (destruct b; reflexivity).
    apply hist_append; [exact Hb|exact Hbw|congruence|rewrite Hhb; lia].
  - apply Hsame, emit_deriv_main.
  - destruct (t_get_derivative_chain owner t) as [t' r] eqn:E. cbn [fst]. apply Hsame.
    change t' with (fst (t', r)). rewrite <- E. apply get_deriv_main.
  - unfold t_add_new_block. destruct (N.eq_dec (bi_height (get_info b)) (mc_height (t_main t))) as [E|E].
    + rewrite mc_add_block_right; [|exact E|lia]. cbn [fst with_main t_main]. exists (L ++ [b]). split; [|right; exists b; split; [reflexivity|left; eauto]].
      eapply hist_core; [|apply core_txs]. apply hist_append; [exact H|apply Hwf|exact E|lia].
    + rewrite mc_add_block_wrong by exact E. cbn [fst]. apply Hsame. reflexivity.
  - exists L. split; [|left; reflexivity]. eapply hist_core; [exact H|apply core_txs].
  - destruct (assoc_get owner (t_derivs t)); [|apply Hsame; reflexivity].
    destruct (dc_add_block i d). apply Hsame. reflexivity.
  - exists L. split; [|left; reflexivity]. apply (hist_flushed (t_main t)); try exact H; reflexivity.
  - exists L. split; [|left; reflexivity]. apply (hist_flushed (t_main t)); try exact H; reflexivity.
  - destruct (assoc_get owner (t_derivs t)); apply Hsame; reflexivity.
Qed.

(** ** Histories *)
Lemma t_new_main d t : t_new d = Ok t -> mc_new (k_main d) = Ok (t_main t).
Proof. unfold t_new. intros E. destruct (mc_new (k_main d)) as [m|e| |]; cbn [bind] in E; try discriminate E. injection E as <-. reflexivity. Qed.
Lemma hist_open t : t_new disk_empty = Ok t -> hist (t_main t) [genesis] 0.
Proof.
  intros E. pose proof (open_main t E) as H. apply t_new_main in E. cbn [k_main disk_empty] in E. rewrite mc_new_empty in E.
  assert (Em : t_main t = mc_fresh) by congruence. clear E.
  assert (Hg : forall i b, nthN [genesis] i = Some b -> i = 0 /\ b = genesis).
  { intros i b Hi. pose proof (nthN_some _ _ _ Hi) as Hl. cbn in Hl. assert (i = 0) by lia. subst i. injection Hi as <-. auto. }
  split.
  - exact (mi_height _ _ (ti_main _ _ H)).
  - intros i b Hi. destruct (Hg i b Hi) as [-> ->]. rewrite Em. unfold mc_fresh. cbn [mc_appended mc_blocks mc_height]. rewrite sled_get_insert, bytes_eqb_refl. reflexivity.
  - exact (mi_heights _ _ (ti_main _ _ H)).
  - reflexivity.
  - exact (ti_wf _ _ H).
  - exact (ti_diff _ _ H).
  - rewrite Em. unfold mc_fresh. cbn [mc_appended mc_blocks]. apply log_commit. reflexivity.
  - lia.
  - rewrite Em. intros c [->|[]]. reflexivity.
Qed.
Lemma chained_firstn {A} (R : A -> A -> Prop) L : chained R L -> forall h, chained R (firstn h L).
Proof.
  induction 1 as [|x|x y l H _ IH]; intros h; [destruct h; constructor| |].
  - destruct h as [|[|h]]; constructor.
  - destruct h as [|[|h]]; [constructor|constructor|]. constructor; [exact H|]. apply (IH (S h)).
Qed.
Definition linked (ok : op -> Prop) p L := (forall o, ok o -> no_raw_main o) -> chained (main_link p) L.
Lemma later_hist ok p t0 n t L0 k : later ok p t0 n t -> hist (t_main t0) L0 k -> linked ok p L0 -> N.of_nat (length L0 + n) + 1 < 2 ^ 256 ->
  exists L, hist (t_main t) L k /\ (length L <= length L0 + n)%nat /\ firstn k L = firstn k L0 /\ linked ok p L.
Proof.
  intros Hl H0 HK0. induction Hl as [|n t o Hl IH Hwf Ho|n t t' Hl IH E|n t Hl IH|n t w Hl IH Hw|n t s t' Hl IH E|n t x s t' Hl IH Hx E|n t w x s t' Hl IH Hw Hx E]; intros Hn.
  - exists L0. split; [exact H0|]. split; [lia|]. split; [reflexivity|exact HK0].
  - destruct IH as (L & I1 & I2 & I3 & I4); [lia|]. destruct (hist_step p t o L k I1 Hwf ltac:(lia)) as (L' & J1 & J2). exists L'. split; [exact J1|].
    destruct J2 as [->|(b & -> & Hb)]; [split; [lia|auto]|]. split; [rewrite app_length; cbn; lia|]. split.
    + rewrite firstn_app. pose proof (h_low _ _ _ I1). replace (k - length L)%nat with 0%nat by lia. cbn [firstn]. rewrite app_nil_r. exact I3.
    + intros Hok. destruct Hb as [(txs & ->)|(pow & f & txs & ts & -> & Hlk)]; [destruct (Hok _ Ho)|]. eapply chained_snoc; [apply I4, Hok|eapply hist_ne, I1|exact Hlk].
  - destruct IH as (L & I1 & I2 & I3 & I4); [lia|]. exists L. split; [|auto]. apply t_new_main in E. cbn [t_close k_main t_flush t_main] in E.
    pose proof (hist_kept _ _ _ I1) as HK. pose proof (h_height _ _ _ I1) as Hh. pose proof (hist_ne _ _ _ I1) as Hne.
    assert (0 < N.of_nat (length L)) by (destruct L; [contradiction|cbn [length]; lia]).
    rewrite (mc_new_settled _ (mc_height (t_main t)) (mc_difficulty (t_main t))) in E;
      [|cbn [mc_close md_cfg]; rewrite file_cur_settle; apply mc_cfg_flush|rewrite Hh; lia|rewrite (h_diff _ _ _ I1); exact BD_length].
    injection E as <-. eapply hist_weaken; [exact HK|apply (h_low _ _ _ I1)].
  - destruct IH as (L & I1 & I2 & I3 & I4); [lia|]. exists L. split; [apply hist_settle, I1|auto].
  - destruct IH as (L & I1 & I2 & I3 & I4); [lia|]. exists L. split; [|auto]. unfold deriv_settle. destruct (assoc_get w (t_derivs t)); exact I1.
  - destruct IH as (L & I1 & I2 & I3 & I4); [lia|]. apply t_new_main in E. cbn [t_crash k_main] in E.
    destruct (hist_crash _ _ _ _ _ I1 ltac:(lia) E) as (h & Hh & J). exists (firstn h L). split; [exact J|]. split; [rewrite firstn_length; lia|].
    split; [rewrite firstn_firstn, Nat.min_l by lia; exact I3|]. intros Hok. apply chained_firstn, I4, Hok.
  - destruct IH as (L & I1 & I2 & I3 & I4); [lia|]. apply t_new_main in E. cbn [t_crash k_main] in E.
    assert (J0 : hist (t_main x) L k).
    { cbn [flush_points skipn In] in Hx. destruct Hx as [<-|[<-|[<-|[<-|[]]]]]; apply (hist_flushed (t_main t)); try exact I1; reflexivity. }
    destruct (hist_crash _ _ _ _ _ J0 ltac:(lia) E) as (h & Hh & J). exists (firstn h L). split; [exact J|]. split; [rewrite firstn_length; lia|].
    split; [rewrite firstn_firstn, Nat.min_l by lia; exact I3|]. intros Hok. apply chained_firstn, I4, Hok.
  - destruct IH as (L & I1 & I2 & I3 & I4); [lia|]. apply t_new_main in E. cbn [t_crash k_main] in E.
    assert (J0 : hist (t_main x) L k).
    { unfold deriv_flush_points in Hx. destruct (assoc_get w (t_derivs t)) as [c|]; [|destruct Hx]. cbn [skipn In] in Hx. destruct Hx as [<-|[<-|[]]]; exact I1. }
    destruct (hist_crash _ _ _ _ _ J0 ltac:(lia) E) as (h & Hh & J). exists (firstn h L). split; [exact J|]. split; [rewrite firstn_length; lia|].
    split; [rewrite firstn_firstn, Nat.min_l by lia; exact I3|]. intros Hok. apply chained_firstn, I4, Hok.
Qed.
Lemma nth_firstn_eq {A} k (L M : list A) i : firstn k L = firstn k M -> i < N.of_nat k -> nthN L i = nthN M i.
Proof. intros E Hi. rewrite <- (nthN_firstn k L), <- (nthN_firstn k M) by exact Hi. rewrite E. reflexivity. Qed.

(*@T C88: a block of the main chain that has once been flushed, with the config write on disk, is never lost: it is found at its height after
    every continuation of the history, with any calls, restarts and any number of crashes. *)
Lemma p_C88_flushed_blocks_are_never_lost : forall p n m t0 t t', t_new disk_empty = Ok t0 ->
  later any_op p t0 n t -> later any_op p (t_settle (t_flush t)) m t' -> few (n + m) ->
  mc_get_height (t_main t) <= mc_get_height (t_main t') /\
  forall i, i < mc_get_height (t_main t) ->
    mc_find_raw_by_height i (t_main t') = mc_find_raw_by_height i (t_main t) /\ mc_find_raw_by_height i (t_main t) <> None.
Proof.
  intros p n m t0 t t' E0 H1 H2 Hn. unfold few in Hn. assert (N1 : forall L, linked any_op p L).
  { intros L Hok. exfalso. apply (Hok (OAddNewBlock genesis [])). exact I. }
  destruct (later_hist _ _ _ _ _ _ _ H1 (hist_open _ E0) (N1 _) ltac:(cbn [length]; lia)) as (L & I1 & I2 & _). cbn [length] in I2.
  pose proof (hist_kept _ _ _ I1) as HK.
  destruct (later_hist _ _ _ _ _ L (length L) H2 HK (N1 _) ltac:(lia)) as (L' & J1 & J2 & J3 & _).
  pose proof (h_low _ _ _ J1). unfold mc_get_height. rewrite (h_height _ _ _ I1), (h_height _ _ _ J1). split; [lia|].
  intros i Hi. destruct (nthN_ex L i Hi) as (b & Hb). rewrite (hist_find _ _ _ _ _ I1 Hb).
  rewrite <- (nth_firstn_eq _ _ _ _ J3 Hi) in Hb. rewrite (hist_find _ _ _ _ _ J1 Hb). split; [reflexivity|discriminate].
Qed.
(*@T C89: after any history, with any number of earlier crashes, every crash, whatever survives, either leaves a
    directory that does not open (the config file is cut short) or a main chain that is a non-empty initial part of the chain before the crash. *)
Lemma p_C89_crash_truncates : forall p n t0 t s t', t_new disk_empty = Ok t0 -> later any_op p t0 n t -> few n ->
  t_new (t_crash s t) = Ok t' ->
  1 <= mc_get_height (t_main t') <= mc_get_height (t_main t) /\
  forall i, i < mc_get_height (t_main t') ->
    mc_find_raw_by_height i (t_main t') = mc_find_raw_by_height i (t_main t) /\ mc_find_raw_by_height i (t_main t) <> None.
Proof.
  intros p n t0 t s t' E0 H1 Hn E. unfold few in Hn. assert (N1 : forall L, linked any_op p L).
  { intros L Hok. exfalso. apply (Hok (OAddNewBlock genesis [])). exact I. }
  destruct (later_hist _ _ _ _ _ _ _ H1 (hist_open _ E0) (N1 _) ltac:(cbn [length]; lia)) as (L & I1 & I2 & _). cbn [length] in I2.
  apply t_new_main in E. cbn [t_crash k_main] in E. destruct (hist_crash _ _ _ _ _ I1 ltac:(lia) E) as (h & Hh & J).
  unfold mc_get_height. rewrite (h_height _ _ _ I1), (h_height _ _ _ J). rewrite firstn_length, Nat.min_l by lia. split; [lia|].
  intros i Hi. destruct (nthN_ex L i ltac:(lia)) as (b & Hb). rewrite (hist_find _ _ _ _ _ I1 Hb).
  rewrite <- (nthN_firstn h L) in Hb by lia. rewrite (hist_find _ _ _ _ _ J Hb). split; [reflexivity|discriminate].
Qed.
(*@T C89, links: if main-chain blocks are only made by emission, the main chain starts with the genesis block and every block is linked to the one
    before it (hash, height, difficulty, work), and the last block can be read, after any number of crashes.
    Missing: crashes inside a flush between the writing of the config and the flush of the blocks, see [C89_window_refuted]. *)
Lemma p_C89_linked_after_crashes_partial : forall p n t0 t, t_new disk_empty = Ok t0 -> later no_raw_main p t0 n t -> few n ->
  exists L g,
    genesis_block = Ok g /\ hd_error L = Some g /\
    mc_get_height (t_main t) = N.of_nat (length L) /\
    (forall i b, nth_error L i = Some b -> mc_find_by_height (N.of_nat i) (t_main t) = Ok (Some b)) /\
    mc_get_last_block (t_main t) = Ok (Some (last L g)) /\
    chained (main_link p) L.
Proof.
  intros p n t0 t E0 H1 Hn. unfold few in Hn.
  destruct (later_hist _ _ _ _ _ _ _ H1 (hist_open _ E0) ltac:(intros _; constructor) ltac:(cbn [length]; lia)) as (L & I1 & I2 & _ & I4). cbn [length] in I2.
  specialize (I4 (fun o h => h)). pose proof (h_gen _ _ _ I1) as Hg.
  assert (Hkind : forall i b, nth_error L i = Some b -> match b with DerivBlock _ => False | _ => True end).
  { intros [|i] b Hb; [rewrite Hg in Hb; injection Hb as <-; exact I|]. exact (chained_in_kind p L I4 i _ Hb). }
  exists L, genesis. split; [exact genesis_eq|]. split; [destruct L; [discriminate|exact Hg]|]. split; [apply (h_height _ _ _ I1)|]. split; [|split; [|exact I4]].
  - intros i b Hb. assert (Hb' : nthN L (N.of_nat i) = Some b) by (unfold nthN; rewrite Nnat.Nat2N.id; exact Hb).
    unfold mc_find_by_height. rewrite (hist_find _ _ _ _ _ I1 Hb'). destruct (hist_readable _ _ _ _ _ I1 Hb') as [Hr|(info & ->)]; [apply readable_decode, Hr|destruct (Hkind _ _ Hb)].
  - destruct (hist_last _ _ _ I1) as [Hl|[(info & Hi) _]]; [exact Hl|exfalso]. pose proof (nthN_last L genesis (hist_ne _ _ _ I1)) as Hn'. rewrite Hi in Hn'. exact (Hkind _ _ Hn').
Qed.
(*@E
(* flush, emit, crash losing the block, emit again, flush, crash *)
Example C88_ex :
  let reopened s t := match t_new (t_crash s t) with Ok t' => t' | _ => t end in
  let t1 := t_settle (run Debug fresh [OFlush]) in
  let t2 := run Debug t1 [emit_good] in
  let t3 := reopened (svs 0 0 0 0 0 0) t2 in
  let t4 := t_settle (run Debug t3 [emit_good; OMainFlush]) in
  let t5 := reopened (svs 0 1 0 0 0 0) t4 in
  map (fun t => mc_get_height (t_main t)) [t1; t2; t3; t4; t5] = [1; 2; 1; 2; 2].
Proof. vm_compute. reflexivity. Qed.
@*)
(*@T C89 fails at the one point left out: a crash inside a flush after the config was written and before the blocks are flushed can leave
    a chain whose last block does not exist. *)
Lemma p_C89_window_refuted : exists t0 x s t', t_new disk_empty = Ok t0 /\ In x (flush_points t0) /\ t_new (t_crash s x) = Ok t' /\
  mc_get_height (t_main t') = 1 /\ mc_get_last_block (t_main t') = Ok None /\
  forall p pow founder txs ts, snd (t_emmit_new_main_block p pow founder txs ts t') = Panic.
Proof.
  exists fresh, (with_main fresh (mc_dump_config (t_main fresh))), (svs 0 0 0 3 0 0). eexists. split; [vm_compute; reflexivity|].
  split; [right; left; reflexivity|]. split; [vm_compute; reflexivity|]. split; [vm_compute; reflexivity|]. split; [vm_compute; reflexivity|].
  intros p pow founder txs ts. vm_compute. reflexivity.
Qed.
(*@T C89 fails above the end of the chain: after a crash that kept a block but not the config, the chain has height 1 and a block is
    still found at height 1; it is not part of the chain, and the next emission replaces it. *)
Lemma p_C89_ghost_block_refuted : exists n t0 t s t' d, t_new disk_empty = Ok t0 /\ later no_raw_main Debug t0 n t /\ few n /\ t_new (t_crash s t) = Ok t' /\
  mc_get_height (t_main t') = 1 /\ mc_find_raw_by_height 1 (t_main t') = Some d /\
  mc_find_raw_by_height 1 (t_main (fst (step Debug t' emit_bad))) <> Some d.
Proof.
  exists 2%nat, fresh, (run Debug fresh [OFlush; emit_good]), (svs 1 1 0 3 0 0). do 2 eexists. split; [vm_compute; reflexivity|].
  split.
  { apply (later_call no_raw_main Debug fresh 1 (run Debug fresh [OFlush]) emit_good);
      [apply (later_call no_raw_main Debug fresh 0 fresh OFlush); [apply later_refl|exact I|exact I]| |exact I].
    repeat split; try (repeat constructor; fail); vm_compute; repeat constructor. }
  split; [unfold few; lia|]. split; [vm_compute; reflexivity|]. split; [vm_compute; reflexivity|]. split; [vm_compute; reflexivity|].
  vm_compute. discriminate.
Qed.
