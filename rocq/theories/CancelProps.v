(** Proofs of the statements in P_Cancel.v. *)
From Coq Require Import Lia ZifyBool ZifyNat ZifyN.
From Verif Require Import Base Sha256 Merkle Tools Transaction Block Sled Chain Tree Spec Reach QuietSpec Conc ConcTree ConcFlush FlushSpec ConcEmit Cancel CancelSpec Demo.
From Verif Require Import BaseFacts ToolsFacts MerkleFacts DiffFacts CodecFacts SledFacts ChainFacts TreeFacts LedgerFacts DerivFacts EmitFacts QuietProps.
Local Strategy 1000 [u256_add u256_sub sled_get check_pow].

(** ** A dropped call changes nothing but what is on disk *)
Definition silent (t t' : bct) : Prop := norm t' = norm t /\ mc_difficulty (t_main t') = mc_difficulty (t_main t).
Lemma main_points_silent m : Forall (fun m' => mnorm m' = mnorm m /\ mc_difficulty m' = mc_difficulty m) (main_flush_points m).
Proof. repeat constructor. Qed.
Lemma deriv_points_norm c : Forall (fun c' => dnorm c' = dnorm c) (deriv_flush_points c).
Proof. repeat constructor. Qed.
Lemma with_main_silent t m' : mnorm m' = mnorm (t_main t) -> mc_difficulty m' = mc_difficulty (t_main t) -> silent t (with_main t m').
Proof.
  intros E D. split; [|exact D].
  change (norm t) with (norm (MkTree0 (t_main t) (t_derivs t) (t_summary t) (t_old_summary t) (t_gas t) (t_old_gas t) (t_closed t))).
  unfold norm. cbn. rewrite E. reflexivity.
Qed.
Lemma tree_points_silent t : Forall (silent t) (tree_flush_points t).
Proof.
  apply Forall_app. split.
  - apply Forall_map. eapply Forall_impl; [|apply main_points_silent]. intros m [E D]. apply with_main_silent; assumption.
  - repeat constructor.
Qed.
Lemma assoc_set_same {A} w (c : A) l : assoc_get w l = Some c -> assoc_set w c l = l.
Proof.
  induction l as [|[k x] l IH]; cbn [assoc_get assoc_set]; [discriminate|].
  destruct (bytes_eqb w k) eqn:E; [intros [= ->]; apply bytes_eqb_eq in E as ->; reflexivity|intros H; rewrite IH by exact H; reflexivity].
Qed.
Lemma drop_points_silent p t o : Forall (silent t) (drop_points p t o).
Proof.
  assert (H0 : Forall (silent t) [t]) by (repeat constructor).
  destruct o; cbn [drop_points]; try exact H0; try apply tree_points_silent.
  - destruct (let! i := _ in _) as [[]| | |]; try exact H0. apply tree_points_silent.
  - apply Forall_map. eapply Forall_impl; [|apply main_points_silent]. intros m [E D]. apply with_main_silent; assumption.
  - destruct (assoc_get owner (t_derivs t)) as [c|] eqn:E; [|exact H0].
    apply Forall_map. eapply Forall_impl; [|apply deriv_points_norm]. intros c' H. split; [|reflexivity].
    unfold norm. cbn. rewrite ndnorm_set, H, assoc_set_same; [reflexivity|]. rewrite ndnorm_get, E. reflexivity.
Qed.
Lemma drop_silent p t o k : silent t (drop_at p t o k).
Proof.
  unfold drop_at. destruct (nth_in_or_default k (drop_points p t o) t) as [H|E]; [|rewrite E; split; reflexivity].
  eapply Forall_forall in H; [|apply drop_points_silent]. exact H.
Qed.
Lemma silent_inv t t' L : silent t t' -> tree_inv t L -> tree_inv t' L.
Proof.
  intros [E D] H. apply (f_equal t_main) in E. cbn [norm t_main] in E.
  apply (tree_inv_ext t); [exact H|exact (f_equal mc_height E)| | |exact D].
  - intros k. exact (f_equal (fun m => sm_get k (cur (mc_blocks m))) E).
  - intros k. exact (f_equal (fun m => sm_get k (cur (mc_refs m))) E).
Qed.

Lemma events_alike p es : forall t t', norm t = norm t' ->
  norm (happened p t es) = norm (run p t' (made es)) /\ Forall2 same_result (event_results p t es) (results p t' (made es)).
Proof.
  induction es as [|e es IH]; intros t t' E; [split; [exact E|constructor]|].
  destruct e as [o|o k].
  - destruct (step_alike p t t' o E) as [E1 E2]. destruct (IH _ _ E1) as [I1 I2].
    split; [exact I1|]. cbn [event_results made flat_map app results]. fold (made es).
    destruct (QuietSpec.flushing o); [exact I2|]. constructor; [apply rnorm_same, E2|exact I2].
  - destruct (IH (drop_at p t o k) t') as [I1 I2]; [rewrite (proj1 (drop_silent p t o k)); exact E|]. split; [exact I1|exact I2].
Qed.

(*@T C94: a dropped call is as good as one never made. In every history, whatever calls are dropped and
    wherever, the others return what they return without the dropped ones, and at the end every question
    about the open tree has the same answer. *)
Lemma p_C94_invisible : forall p t es,
  Forall2 same_result (event_results p t es) (results p t (made es)) /\ same_answers (happened p t es) (run p t (made es)).
Proof. intros p t es. destruct (events_alike p es t t eq_refl) as [E F]. split; [exact F|apply norm_answers, E]. Qed.

(*@T C94: a dropped call can be made again: it returns what it would have returned. *)
Lemma p_C94_retry : forall p t o k,
  same_result (snd (step p (drop_at p t o k) o)) (snd (step p t o)) /\
  same_answers (fst (step p (drop_at p t o k) o)) (fst (step p t o)).
Proof.
  intros p t o k. destruct (step_alike p _ _ o (proj1 (drop_silent p t o k))) as [E F]. split; [apply rnorm_same, F|apply norm_answers, E].
Qed.

Lemma events_inv p es : forall n t L, tree_inv t L -> (length L <= n + 1)%nat -> Forall event_wf es -> few (n + length es) ->
  exists L', tree_inv (happened p t es) L' /\ (length L' <= n + length es + 1)%nat.
Proof.
  induction es as [|e es IH]; intros n t L H Hl Hwf Hn.
  - exists L. split; [exact H|lia].
  - inversion Hwf as [|? ? W1 W2]; subst. cbn [length] in *.
    replace (n + S (length es))%nat with (S n + length es)%nat in * by lia.
    change (happened p t (e :: es)) with (happened p (happen p t e) es).
    destruct e as [o|o k]; cbn [event_wf happen] in *.
    + destruct (step_main p t o L H W1) as (L' & HL' & Hg); [unfold few in Hn; lia|].
      apply (IH (S n) _ L' HL'); [|exact W2|exact Hn]. destruct Hg as [->|(b & -> & _)]; [lia|]. rewrite app_length. cbn. lia.
    + apply (IH (S n) _ L (silent_inv _ _ _ (drop_silent p t o k) H)); [lia|exact W2|exact Hn].
Qed.
Lemma reopen_inv t L : tree_inv t L -> N.of_nat (length L) < 2 ^ 256 -> mc_get_height (t_main t) <> 1 ->
  exists t', t_new (t_close (t_flush t)) = Ok t' /\ core t' = core t.
Proof.
  intros H Hl Hh. destruct (reopen_main t L H Hl) as (t1 & E1 & _ & R1 & R2 & R3 & R4 & R5 & R6 & R7 & R8 & _). exists t1. split; [exact E1|].
  unfold mc_get_height in Hh. apply N.eqb_neq in Hh. rewrite Hh in R5. unfold core, mnorm. rewrite R1, R2, R3, R4, R5, R6, R7, R8. reflexivity.
Qed.
Lemma core_same t t' : core t = core t' -> same_main (t_main t) (t_main t') /\ same_balances t t'.
Proof.
  intros E. split; [apply mnorm_same; exact (f_equal t_main E)|].
  apply norm_balances; [exact (f_equal t_summary E)|exact (f_equal t_gas E)|exact (f_equal t_old_summary E)|exact (f_equal t_old_gas E)].
Qed.

(*@T C94: a completed flush makes up for every dropped call: close the tree after it, and the directory opens with the main
    chain and the balances of the calls that were not dropped. *)
Lemma p_C94_repaired : forall p n t es, reachable any_op p n t -> Forall event_wf es -> few (n + length es) ->
  mc_get_height (t_main (happened p t es)) <> 1 ->
  exists t', t_new (t_close (t_flush (happened p t es))) = Ok t' /\
    same_main (t_main t') (t_main (run p t (made es))) /\ same_balances t' (run p t (made es)).
Proof.
  intros p n t es Hr Hwf Hn Hh. destruct (reachable_inv _ _ _ _ Hr) as (L & HL & Hlen); [unfold few in *; lia|].
  destruct (events_inv p es n t L HL Hlen Hwf Hn) as (L' & HL' & Hlen'). unfold few in Hn.
  destruct (reopen_inv _ _ HL' ltac:(lia) Hh) as (t' & E & C). exists t'. split; [exact E|]. apply core_same.
  rewrite C. rewrite <- core_norm, (proj1 (events_alike p es t t eq_refl)), core_norm. reflexivity.
Qed.

(** ** Closing right after a dropped flush *)
Lemma append_cur d f : file_cur (file_append d f) = Some (match file_cur f with Some c => c | None => [] end ++ d).
Proof. unfold file_append, file_cur. cbn [f_pend f_dur]. apply last_last. Qed.
Lemma truncate_cur f : file_cur (file_truncate f) = Some [].
Proof. unfold file_truncate, file_cur. cbn [f_pend f_dur]. apply last_last. Qed.
Lemma short_config t f c : (length c < 64)%nat -> file_cur f = Some c -> t_new (t_close (with_main t (with_cfg f (t_main t)))) = Err EChainInit.
Proof.
  intros Hl E. unfold t_new, t_close, mc_new, mc_read_config. cbn [k_main with_main t_main mc_close with_cfg md_cfg mc_cfg].
  replace (file_cur (file_settle f)) with (Some c) by (symmetry; exact E).
  cbn [read_fields]. destruct (Nat.ltb (length c) 32) eqn:E1; [reflexivity|]. cbn [bind].
  assert (E2 : Nat.ltb (length (skipn 32 c)) 32 = true) by (rewrite skipn_length; apply Nat.ltb_lt; apply Nat.ltb_ge in E1; lia).
  rewrite E2. reflexivity.
Qed.

Lemma epoch_points p t w f txs ts i r : snd (step p t (OEmitMain w f txs ts)) = Ok (RBlock (SummBlock i r)) ->
  drop_points p t (OEmitMain w f txs ts) = tree_flush_points t.
Proof.
  cbn [step drop_points]. rewrite emit_block_seq. destruct (let! i := _ in _) as [b| | |]; try discriminate.
  destruct (mc_add_block b (t_main (emit_base b t))) as [m [u| | |]]; cbn [bind ret_block snd]; try discriminate. intros [= ->]. reflexivity.
Qed.

(*@T C94 is false of the code when the tree is closed without another flush: from every tree, a flush or the emission of a
    summarize block dropped between emptying the config file and writing the difficulty leaves a directory that cannot be opened any more. *)
Lemma p_C94_unopenable_refuted : forall p t o k,
  o = OFlush \/ o = OMainFlush \/ (exists w f txs ts i r, o = OEmitMain w f txs ts /\ snd (step p t o) = Ok (RBlock (SummBlock i r))) ->
  k = 1%nat \/ k = 2%nat -> t_new (t_close (drop_at p t o k)) = Err EChainInit.
Proof.
  intros p t o k Ho Hk. set (f1 := file_truncate (mc_cfg (t_main t))).
  assert (E : drop_at p t o k = with_main t (with_cfg (if Nat.eqb k 1 then f1 else file_append (height_key (mc_height (t_main t))) f1) (t_main t))).
  { unfold drop_at. destruct Ho as [->|[->|(w & f & txs & ts & i & r & -> & Er)]]; [| |rewrite (epoch_points _ _ _ _ _ _ _ _ Er)]; destruct Hk as [-> | ->]; reflexivity. }
  rewrite E. destruct Hk as [-> | ->]; cbn [Nat.eqb].
  - apply short_config with (c := []); [cbn; lia|]. unfold f1, file_truncate, file_cur. cbn [f_pend f_dur]. apply last_last.
  - apply short_config with (c := height_key (mc_height (t_main t))); [rewrite height_key_length; lia|].
    unfold file_append, file_cur. cbn [f_pend f_dur]. rewrite last_last. unfold f1, file_truncate. cbn [f_pend]. rewrite last_last. reflexivity.
Qed.

(*@T C94 is false of the code also with a completed flush in between, if the operation in flight is carried out late: from every tree,
    a flush (number 0) dropped while its file is being opened, a second flush that runs to its end, and then the file opened and emptied by the blocking
    thread of the first leave a directory that cannot be opened any more. *)
Lemma p_C94_late_refuted : forall t,
  let '(s, calls) := flush_exec [1; 1; 1; 1; 1; 1; 1; 0]%nat t [FFlush; FFlush] in
  nth_error calls 1 = Some FDone /\ t_new (t_close (sh_tree s)) = Err EChainInit.
Proof.
  intros t. cbn [flush_exec exec fold_left Conc.sched_step map fstart nth_error flush_step sh_locked with_tree]. split; [reflexivity|].
  match goal with |- t_new (t_close (sh_tree (with_tree ?s (with_main ?t (with_cfg (file_truncate ?f) ?m))))) = _ => set (t1 := t); set (f1 := f) end.
  apply (short_config t1 (file_truncate f1) []); [cbn; lia|apply truncate_cur].
Qed.

(*@T C94, for calls dropped after the config file was written: the tree can be closed, and opens with the same main chain and balances. *)
Lemma p_C94_closed_partial : forall p n t o k, reachable any_op p n t -> few n -> mc_get_height (t_main t) <> 1 ->
  o = OFlush \/ o = OMainFlush \/ (exists w f txs ts i r, o = OEmitMain w f txs ts /\ snd (step p t o) = Ok (RBlock (SummBlock i r))) ->
  (3 <= k < length (drop_points p t o))%nat ->
  exists t', t_new (t_close (drop_at p t o k)) = Ok t' /\ same_main (t_main t') (t_main t) /\ same_balances t' t.
Proof.
  intros p n t o k Hr Hn Hh Ho Hk. destruct (reachable_inv _ _ _ _ Hr Hn) as (L & HL & Hlen). unfold few in Hn.
  assert (E : t_close (drop_at p t o k) = t_close (t_flush t)).
  { unfold drop_at in *. destruct Ho as [->|[->|(w & f & txs & ts & i & r & -> & Er)]]; [| |rewrite (epoch_points _ _ _ _ _ _ _ _ Er) in *];
      cbn [drop_points tree_flush_points main_flush_points map app length] in Hk;
      do 3 (destruct k as [|k]; [lia|]); do 8 (destruct k as [|k]; [first [lia|reflexivity]|]); lia. }
  rewrite E. destruct (reopen_inv t L HL ltac:(lia) Hh) as (t' & E' & C). exists t'. split; [exact E'|apply core_same, C].
Qed.

(** ** Derivative chains *)
Lemma set_keys {A} w (c c' : A) l : assoc_get w l = Some c -> map fst (assoc_set w c' l) = map fst l.
Proof.
  induction l as [|[k x] l IH]; cbn [assoc_get assoc_set]; [discriminate|].
  destruct (bytes_eqb w k) eqn:E; [apply bytes_eqb_eq in E as ->; reflexivity|]. intros H. cbn [map fst]. rewrite IH by exact H. reflexivity.
Qed.
Lemma deriv_reopened p n t w c c' b : reachable any_op p n t -> few n -> mc_get_height (t_main t) <> 1 -> mc_get_last_block (t_main t) = Ok (Some b) -> assoc_get w (t_derivs t) = Some c ->
  exists t', t_new (t_close (t_flush (with_derivs t (assoc_set w c' (t_derivs t))))) = Ok t' /\ same_main (t_main t') (t_main t) /\ same_balances t' t /\
    exists g, snd (t_get_derivative_chain w t') = dc_new (dc_close c') g.
Proof.
  intros Hr Hn Hh Hb0 Hc. destruct (reachable_derivs false any_op p n t Hr ltac:(intros o _ H; discriminate H) Hn) as (L & HL & Hlen & HD). unfold few in Hn.
  set (t1 := with_derivs t (assoc_set w c' (t_derivs t))).
  assert (H1 : tree_inv t1 L) by (apply (tree_inv_main t); [exact HL|reflexivity]).
  destruct (reopen_main t1 L H1 ltac:(lia)) as (t2 & E1 & H2 & R1 & R2 & R3 & R4 & R5 & R6 & R7 & R8 & R9 & R10). exists t2. split; [exact E1|].
  assert (C : core t2 = core t).
  { unfold mc_get_height in Hh. apply N.eqb_neq in Hh. change (mc_height (t_main t1)) with (mc_height (t_main t)) in *. rewrite Hh in R5.
    unfold core, mnorm. rewrite R1, R2, R3, R4, R5, R6, R7, R8. reflexivity. }
  destruct (core_same _ _ C) as [C1 C2]. split; [exact C1|]. split; [exact C2|].
  assert (Hb : mc_get_last_block (t_main t2) = Ok (Some b)) by (destruct C1 as (_ & _ & _ & _ & C1 & _); rewrite C1; exact Hb0).
  exists (block_hash b). unfold t_get_derivative_chain. rewrite R9. cbn [assoc_get]. rewrite Hb. cbn [bind unwrap_opt].
  destruct HD as (D1 & D2 & D3).
  assert (Eg : assoc_get (hex_encode w) (t_closed t2) = Some (dc_close c')).
  { rewrite R10. unfold close_derivs, t1. cbn [t_derivs with_derivs t_closed].
    apply (close_derivs_open (fun _ => dc_close) w c').
    - rewrite (set_keys w c c') by exact Hc. exact D1.
    - intros w' x Hi. assert (Hk : In w' (map fst (t_derivs t))) by (rewrite <- (set_keys w c c' _ Hc); apply (in_map fst _ _ Hi)).
      apply in_map_iff in Hk as ([w2 x2] & E & Hi2). cbn [fst] in E. subst w2. apply (D2 _ _ Hi2).
    - apply assoc_get_in. rewrite assoc_get_set, bytes_eqb_refl. reflexivity. }
  rewrite Eg. destruct (dc_new (dc_close c') (block_hash b)); reflexivity.
Qed.
Lemma short_deriv f c g d : (length d < 96)%nat -> file_cur f = Some d -> dc_new (dc_close (deriv_with_cfg f c)) g = Err EChainInit.
Proof.
  intros Hl E. unfold dc_new, dc_close. cbn [deriv_with_cfg dd_cfg dc_cfg].
  replace (file_cur (file_settle f)) with (Some d) by (symmetry; exact E). cbn [read_fields].
  destruct (Nat.ltb (length d) 32) eqn:E1; [reflexivity|]. cbn [bind]. apply Nat.ltb_ge in E1.
  destruct (Nat.ltb (length (skipn 32 d)) 32) eqn:E2; [reflexivity|]. cbn [bind]. apply Nat.ltb_ge in E2.
  assert (E3 : Nat.ltb (length (skipn 32 (skipn 32 d))) 32 = true) by (rewrite !skipn_length in *; apply Nat.ltb_lt; lia).
  rewrite E3. reflexivity.
Qed.
(*@T C94 is false of the code for derivative chains: the flush of an open chain dropped before the last part of its config file is
    written makes the chain unusable after the next restart, even when the tree is flushed completely before it is closed. *)
Lemma p_C94_derivative_refuted : forall p n t w c b k, reachable any_op p n t -> few n -> mc_get_height (t_main t) <> 1 -> mc_get_last_block (t_main t) = Ok (Some b) ->
  assoc_get w (t_derivs t) = Some c -> (1 <= k <= 3)%nat ->
  exists t', t_new (t_close (t_flush (drop_at p t (ODerivFlush w) k))) = Ok t' /\ snd (t_get_derivative_chain w t') = Err EChainInit.
Proof.
  intros p n t w c b k Hr Hn Hh Hb Hc Hk.
  destruct (reachable_derivs false any_op p n t Hr ltac:(intros o _ H; discriminate H) Hn) as (L & HL & Hlen & HD).
  destruct (derivs_inv_get _ _ _ _ _ _ _ HD Hc) as [_ (B & HB & _)].
  pose proof (proj1 (di_diff _ _ _ _ _ _ HB)) as Hd.
  set (f1 := file_truncate (dc_cfg c)). set (f2 := file_append (height_key (dc_height c)) f1). set (f3 := file_append (dc_difficulty c) f2).
  assert (X : exists f d, file_cur f = Some d /\ (length d < 96)%nat /\
    drop_at p t (ODerivFlush w) k = with_derivs t (assoc_set w (deriv_with_cfg f c) (t_derivs t))).
  { unfold drop_at. cbn [drop_points]. rewrite Hc. cbn [deriv_flush_points map].
    destruct k as [|[|[|[|k]]]]; try lia; cbn [nth].
    - exists f1, []. split; [apply truncate_cur|]. split; [cbn; lia|reflexivity].
    - exists f2, (height_key (dc_height c)). split; [unfold f2; rewrite append_cur; unfold f1; rewrite truncate_cur; reflexivity|].
      rewrite height_key_length. split; [lia|reflexivity].
    - exists f3, (height_key (dc_height c) ++ dc_difficulty c). split.
      + unfold f3, f2. rewrite !append_cur. unfold f1. rewrite truncate_cur. reflexivity.
      + rewrite app_length, height_key_length, Hd. split; [lia|reflexivity]. }
  destruct X as (f & d & E1 & E2 & E3). rewrite E3.
  destruct (deriv_reopened p n t w c (deriv_with_cfg f c) b Hr Hn Hh Hb Hc) as (t' & E & _ & _ & g & G). exists t'. split; [exact E|].
  rewrite G. eapply short_deriv; eassumption.
Qed.
(*@E
(* a history with two dropped flushes: its calls return, the directory opens after the completed flush and not without it *)
Example C94_ex : let es := [Made (OAddGas addrA 7); Dropped OFlush 2; Made emit_good; Dropped OMainFlush 1] in
  length (event_results Debug fresh es) = 2%nat /\ mc_get_height (t_main (happened Debug fresh es)) = 2 /\
  Forall event_wf es /\
  t_new (t_close (happened Debug fresh es)) = Err EChainInit /\
  exists t', t_new (t_close (t_flush (happened Debug fresh es))) = Ok t' /\ mc_get_height (t_main t') = 2.
Proof.
  cbv zeta. split; [vm_compute; reflexivity|]. split; [vm_compute; reflexivity|].
  split; [repeat split; repeat constructor; reflexivity|]. split; [vm_compute; reflexivity|]. eexists. split; [vm_compute; reflexivity|reflexivity].
Qed.
Example C94_closed_ex : let t := run Debug fresh [emit_good] in reachable any_op Debug 1 t /\ mc_get_height (t_main t) = 2 /\ length (drop_points Debug t OFlush) = 11%nat.
Proof.
  cbv zeta. split; [|split; vm_compute; reflexivity]. apply (reach_call any_op Debug 0 fresh emit_good); [apply reach_open; vm_compute; reflexivity| |exact I].
  repeat split; repeat constructor; reflexivity.
Qed.
(* an open derivative chain *)
Example C94_derivative_ex : let t := run Debug fresh [deriv_1; emit_good] in reachable any_op Debug 2 t /\ mc_get_height (t_main t) = 2 /\
  match assoc_get addrA (t_derivs t), mc_get_last_block (t_main t) with Some _, Ok (Some _) => True | _, _ => False end.
Proof.
  cbv zeta. split; [|split; vm_compute; auto].
  apply (reach_call any_op Debug 1 (run Debug fresh [deriv_1]) emit_good); [apply (reach_call any_op Debug 0 fresh deriv_1); [apply reach_open; vm_compute; reflexivity| |exact I]| |exact I];
    repeat split; repeat constructor; reflexivity.
Qed.
@*)
