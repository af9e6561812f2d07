(** Proofs of the statements in P_Dminer.v. *)
From Coq Require Import Lia ZifyBool ZifyNat ZifyN.
From Verif Require Import Base Sha256 Merkle Tools Transaction Block Sled Chain Tree Miner Spec Reach LedgerSpec LiveSpec CrashSpec MinerSpec Demo.
From Verif Require Import BaseFacts ToolsFacts MerkleFacts DiffFacts CodecFacts SledFacts ChainFacts TreeFacts DerivFacts CrashFacts LedgerFacts CodecProps MainProps LedgerProps LiveProps SupplyProps CrashProps MinerProps.

Local Strategy 1000 [u256_add u256_sub u256_mul sled_get sled_commit recalculate_difficulty check_pow].

Definition dsaved (c : deriv_chain) : Prop := file_cur (dc_cfg c) = Some (height_key (dc_height c) ++ dc_difficulty c ++ dc_genesis c).
Record dminv (p : profile) (w : bytes) (k r : nat) (now : N) (t : bct) (n : nat) (c : deriv_chain) (B : list basic_info) (g : bytes -> N) : Prop := {
  dv_reach : reachable emission_only p n t;
  dv_calls : (n <= 4 * k + r + 1)%nat;
  dv_tree : tree_inv t [genesis];
  dv_open : t_derivs t = [(w, c)];
  dv_chain : deriv_inv p true [genesis] w c B;
  dv_len : length B = k;
  dv_start : INCEPTION_TIMESTAMP <= now;
  dv_time : forall x, In x B -> bi_timestamp x <= now;
  dv_gas : gases t g;
  dv_exact : g w = N.of_nat k * PAY /\ forall a, a <> w -> g a = 0;
  dv_amounts : amounts t (upd (fun _ => 0) ROOT_PUBLIC_ADDRESS CYCLE);
  dv_saved : k <> 0%nat -> saved (t_main t) /\ dsaved c
}.

Lemma assoc_single {A} w (c : A) : assoc_get w [(w, c)] = Some c.
Proof. cbn [assoc_get]. rewrite bytes_eqb_refl. reflexivity. Qed.
Lemma set_single {A} w (c c' : A) : assoc_set w c' [(w, c)] = [(w, c')].
Proof. cbn [assoc_set]. rewrite bytes_eqb_refl. reflexivity. Qed.

Lemma find_genesis t h m : tree_inv t [genesis] -> mc_find_by_hash h (t_main t) = Ok (Some m) -> bi_timestamp (get_info m) = INCEPTION_TIMESTAMP.
Proof.
  intros HL E. unfold mc_find_by_hash in E. pose proof (main_find_raw_hash _ [genesis] h (ti_main _ _ HL) eq_refl) as H.
  destruct (mc_find_raw_by_hash h (t_main t)) as [[d|]|e| |]; cbn [bind] in E; try discriminate E.
  destruct H as (i & b & Hi & -> & _). assert (b = genesis) as ->. { apply nthN_in in Hi as [<-|[]]. reflexivity. }
  destruct (tree_readable t [genesis] i genesis HL eq_refl Hi) as [Hr|(x & Hx)]; [|discriminate Hx].
  rewrite (readable_decode _ Hr) in E. injection E as <-. exact genesis_time.
Qed.

Lemma mine_deriv_try_spec p w nonce ts k r now t n c B g : dminv p w k r now t n c B g -> is_array 33 w -> N.of_nat k < 2 ^ 64 -> N.of_nat r < 2 ^ 64 -> now <= ts -> u64_ok ts ->
  exists h d pts, deriv_predecessor t c h d pts /\
  ((mine_deriv_try p w nonce ts t = (t, Ok false) /\ ~ work h d ff32 (height_key nonce)) \/
  exists t' n' c' i g', mine_deriv_try p w nonce ts t = (t', Ok true) /\ dminv p w (S k) r ts t' n' c' (B ++ [i]) g' /\
    work h d ff32 (height_key nonce) /\ bi_pow i = height_key nonce /\ bi_timestamp i = ts).
Proof.
  intros [V1 V2 V3 V4 V5 V6 V7 V8 V9 V10 V11 V12] Hw Hk Hr Hts Hu.
  assert (Hfew : few n) by (unfold few; lia). set (pow := height_key nonce).
  assert (Hpow : is_array 32 pow) by (split; [apply height_key_length|apply to_be_ok]).
  assert (Hopen : assoc_get w (t_derivs t) = Some c) by (rewrite V4; apply assoc_single).
  assert (Hget : t_get_derivative_chain w t = (t, Ok c)) by (unfold t_get_derivative_chain; rewrite Hopen; reflexivity).
  destruct (p_C79_derivative_emission_decision p n t pow w ts V1 Hfew Hpow Hw Hu) as (c0 & h & d & pts & E0 & P & D1 & D2 & D3).
  rewrite Hget in E0. cbn [snd] in E0. injection E0 as <-.
  assert (Hpre : (let! last := unwrap (dc_get_last_block c) in
        match last with
        | Some b => Ok (block_hash b, bi_difficulty (get_info b))
        | None =>
            let! g := unwrap (mc_find_by_hash (dc_genesis c) (t_main t)) in
            let! b := unwrap_opt g in
            Ok (block_hash b, BEGINNING_DIFFICULTY)
        end) = Ok (h, d) /\ bytes_ok d /\ pts <= now).
  { pose proof (deriv_last _ _ _ _ _ _ V5) as Hl. destruct P as [(i & E & -> & -> & ->)|(E & m & Em & -> & _ & -> & ->)].
    - rewrite E. cbn [unwrap bind]. split; [reflexivity|]. rewrite E in Hl. destruct B as [|x B]; [discriminate Hl|]. injection Hl as ->.
      assert (Hin : In (last (x :: B) x) (x :: B)) by (apply last_in; discriminate). split; [|apply V8, Hin].
      pose proof (co_wf _ _ _ _ _ _ _ (di_chain _ _ _ _ _ _ V5)) as W. rewrite Forall_forall in W. apply (W _ Hin).
    - rewrite E, Em. cbn [unwrap bind unwrap_opt]. split; [reflexivity|]. split; [repeat constructor; reflexivity|]. rewrite (find_genesis t _ m V3 Em). exact V7. }
  destruct Hpre as (Hpre & Hd & Hpts).
  unfold mine_deriv_try. rewrite Hopen. cbv zeta. rewrite Hpre. cbn [bind]. rewrite check_pow_eq, mroot_nil. fold pow.
  exists h, d, pts. split; [exact P|].
  destruct (N.leb_spec (count_leading_zeros d) (count_leading_zeros (sha256 (h ++ ff32 ++ pow)))) as [Hwk|Hwk]; rewrite !clz_spec in Hwk by (try exact Hd; apply sha256_array); [right|left; split; [reflexivity|unfold work; lia]].
  destruct D3 as (b & Hb); [exact Hwk|intros _; lia|]. clear D1 D2.
  destruct (t_emmit_new_derivative_block p pow w ts t) as [t1 r1] eqn:E1. cbn [snd] in Hb. subst r1. cbn [and_then].
  destruct (linked_derivs p n t V1 Hfew) as (L & HL & Hlen & _ & HD). assert (L = [genesis]) as -> by (eapply tree_inv_unique; [exact HL|exact V3|lia]). clear HL Hlen.
  destruct (emit_deriv_spec p true [genesis] n t pow w ts t t1 (Ok b) V3 eq_refl HD ltac:(lia) Hpow Hw Hu ltac:(rewrite Hget; reflexivity) E1)
    as (i & c1 & B1 & -> & G1 & _ & HB1 & _ & G4 & G5 & G6 & G7 & Gp & G8).
  rewrite Hget in G1. injection G1 as <-.
  assert (R1 : reachable emission_only p (S n) t1).
  { pose proof (reach_call emission_only p n t (OEmitDeriv pow w ts) V1) as R. cbn [step ret_block fst] in R. rewrite E1 in R. apply R; [repeat split; try assumption; apply Hpow||apply Hw|split; exact I]. }
  pose proof (emit_deriv_ledgers p pow w ts t) as (S1 & S2 & _). rewrite E1 in S1, S2. cbn [fst] in S1, S2.
  pose proof (gases_same t t1 g S2 V9) as A1.
  assert (F1 : few (S n)) by (unfold few in *; lia).
  pose proof (add_gas_eff w PAY t1 g (lo_gas _ (reachable_ledgers _ _ _ _ R1 F1)) A1) as S3.
  assert (R2 : reachable emission_only p (S (S n)) (fst (t_add_gas w PAY t1))).
  { apply (reach_call emission_only p (S n) t1 (OAddGas w PAY) R1); [|split; exact I]. split; [apply Hw|reflexivity]. }
  rewrite pay_eq. destruct (t_add_gas w PAY t1) as [t2 r2]. cbn [fst] in R2. destruct S3 as [T2 S3]. destruct V10 as [X1 X2].
  rewrite X1 in S3. destruct (N.ltb_spec (N.of_nat k * PAY + PAY) (2 ^ 256)) as [_|Hbad]; [|unfold PAY in Hbad; lia]. destruct S3 as [-> A2]. cbn [and_then].
  assert (Ed2 : t_derivs t2 = [(w, dc_appended i c)]) by (rewrite T2; cbn [with_gas t_derivs]; rewrite G8; cbn [with_derivs t_derivs]; rewrite V4; apply set_single).
  assert (Em2 : t_main t2 = t_main t) by (rewrite T2; cbn [with_gas t_main]; rewrite G8; reflexivity).
  assert (Es2 : t_summary t2 = t_summary t) by (rewrite T2; cbn [with_gas t_summary]; exact S1).
  pose proof (reach_call emission_only p (S (S n)) t2 (ODerivFlush w) R2 Hw (conj I I)) as R3.
  cbn [step] in R3 |- *. rewrite Ed2, assoc_single in R3 |- *. cbn [fst] in R3. cbn [and_then].
  rewrite set_single in R3 |- *. set (t3 := with_derivs t2 [(w, dc_flush (dc_appended i c))]) in *.
  pose proof (reach_call emission_only p _ t3 OFlush R3 I (conj I I)) as R4. cbn [step fst] in R4.
  assert (HB' : deriv_inv p true [genesis] w (dc_flush (dc_appended i c)) (B ++ [i])).
  { pose proof (di_height _ _ _ _ _ _ V5) as Hh.
    apply deriv_flush, deriv_append; [exact V5|exact G5|exact G6|lia|]. intros _.
    pose proof (deriv_last _ _ _ _ _ _ V5) as Q1. pose proof (deriv_last _ _ _ _ _ _ HB1) as Q2.
    rewrite Q1 in Q2. injection Q2 as Q2. destruct G4 as [G4 G4']. split; [exact G4|]. destruct B as [|x B]; destruct B1 as [|x1 B1]; try discriminate Q2; [exact G4'|].
    assert (Q3 : last (x :: B) x = last (x1 :: B1) x1) by congruence. rewrite Q3. exact G4'. }
  exists (t_flush t3), (S (S (S (S n)))), (dc_flush (dc_appended i c)), i, (upd g w (N.of_nat k * PAY + PAY)). split; [reflexivity|]. split; [|split; [exact Hwk|split; [exact Gp|exact G7]]]. split.
  - exact R4.
  - lia.
  - apply (tree_inv_ext t); try (cbn [t_flush t_main t3 with_derivs]; rewrite Em2; reflexivity). exact V3.
  - reflexivity.
  - exact HB'.
  - rewrite app_length, V6. cbn [length]. lia.
  - lia.
  - intros x Hx. apply in_app_or in Hx as [Hx|[<-|[]]]; [specialize (V8 x Hx); lia|lia].
  - exact A2.
  - rewrite upd_same. split; [lia|]. intros a Ha. rewrite upd_other by exact Ha. apply X2, Ha.
  - intros a. rewrite <- (V11 a). unfold t_get_amount. rewrite <- Es2. reflexivity.
  - intros _. split; [|exact (dc_cfg_flush (dc_appended i c))]. unfold saved. cbn [t_flush t_main]. rewrite mc_cfg_flush. reflexivity.
Qed.

Lemma predecessor_unique t c h d ts h' d' ts' : deriv_predecessor t c h d ts -> deriv_predecessor t c h' d' ts' -> h = h' /\ d = d'.
Proof.
  intros [(i & E & -> & -> & _)|(E & m & Em & -> & _ & -> & _)] [(i' & E' & -> & -> & _)|(E' & m' & Em' & -> & _ & -> & _)]; rewrite E in E'; try discriminate E'.
  - assert (i = i') as -> by congruence. auto.
  - rewrite Em in Em'. assert (m = m') as -> by congruence. auto.
Qed.
Lemma mine_deriv_search_first p w tries : forall nonce ts k r now t n c B g, dminv p w k r now t n c B g -> is_array 33 w -> N.of_nat k < 2 ^ 64 -> N.of_nat r < 2 ^ 64 -> now <= ts -> u64_ok ts ->
  forall h d pts, deriv_predecessor t c h d pts ->
  (mine_deriv_search tries p w nonce ts t = (t, Ok false) /\ forall j, nonce <= j < N.min (nonce + N.of_nat tries) (2 ^ 256 - 1) -> ~ work h d ff32 (height_key j)) \/
  exists t' n' c' i g' j, mine_deriv_search tries p w nonce ts t = (t', Ok true) /\ dminv p w (S k) r ts t' n' c' (B ++ [i]) g' /\
    first_of (fun j => work h d ff32 (height_key j)) nonce (N.min (nonce + N.of_nat tries) (2 ^ 256 - 1)) j /\ bi_pow i = height_key j /\ bi_timestamp i = ts.
Proof.
  induction tries as [|tries IH]; intros nonce ts k r now t n c B g H Hw Hk Hr Hts Hu h d pts Hd; cbn [mine_deriv_search]; [left; split; [reflexivity|intros j; lia]|].
  destruct (N.ltb_spec nonce (2 ^ 256 - 1)) as [Hn|Hn]; [|left; split; [reflexivity|intros j; lia]].
  destruct (mine_deriv_try_spec p w nonce ts k r now t n c B g H Hw Hk Hr Hts Hu) as (h1 & d1 & pts1 & P & Q). destruct (predecessor_unique _ _ _ _ _ _ _ _ Hd P) as [<- <-].
  destruct Q as [[-> Hg]|(t' & n' & c' & i & g' & -> & H' & Hg & Hp & Ht)].
  - destruct (IH (nonce + 1) ts k r now t n c B g H Hw Hk Hr Hts Hu h d pts Hd) as [[E G]|(t' & n' & c' & i & g' & j & E & M & (J1 & J2 & J3) & PP)].
    + left. split; [exact E|]. intros j Hj. destruct (N.eq_dec j nonce) as [->|Hne]; [exact Hg|apply G; lia].
    + right. exists t', n', c', i, g', j. split; [exact E|]. split; [exact M|]. split; [|exact PP]. split; [lia|]. split; [exact J2|]. intros x Hi. destruct (N.eq_dec x nonce) as [->|Hne]; [exact Hg|apply J3; lia].
  - right. exists t', n', c', i, g', nonce. split; [reflexivity|]. split; [exact H'|]. split; [|auto]. split; [lia|]. split; [exact Hg|]. intros x. lia.
Qed.
Lemma dminv_predecessor p w k r now t n c B g : dminv p w k r now t n c B g -> is_array 33 w -> N.of_nat k < 2 ^ 64 -> N.of_nat r < 2 ^ 64 -> exists h d pts, deriv_predecessor t c h d pts.
Proof.
  intros [V1 V2 V3 V4 V5 V6 V7 V8 V9 V10 V11 V12] Hw Hk Hr. assert (Hfew : few n) by (unfold few; lia).
  destruct (p_C79_derivative_emission_decision p n t (height_key 0) w 0 V1 Hfew ltac:(split; [apply height_key_length|apply to_be_ok]) Hw ltac:(reflexivity)) as (c0 & h & d & pts & E0 & P & _).
  assert (Hopen : assoc_get w (t_derivs t) = Some c) by (rewrite V4; apply assoc_single).
  unfold t_get_derivative_chain in E0. rewrite Hopen in E0. cbn [snd] in E0. assert (c = c0) as <- by congruence. eauto.
Qed.
Lemma mine_deriv_search_spec p w tries : forall nonce ts k r now t n c B g, dminv p w k r now t n c B g -> is_array 33 w -> N.of_nat k < 2 ^ 64 -> N.of_nat r < 2 ^ 64 -> now <= ts -> u64_ok ts ->
  mine_deriv_search tries p w nonce ts t = (t, Ok false) \/
  exists t' n' c' i g', mine_deriv_search tries p w nonce ts t = (t', Ok true) /\ dminv p w (S k) r ts t' n' c' (B ++ [i]) g'.
Proof.
  intros nonce ts k r now t n c B g H Hw Hk Hr Hts Hu. destruct (dminv_predecessor _ _ _ _ _ _ _ _ _ _ H Hw Hk Hr) as (h & d & pts & P).
  destruct (mine_deriv_search_first p w tries nonce ts k r now t n c B g H Hw Hk Hr Hts Hu h d pts P) as [[E _]|(t' & n' & c' & i & g' & j & E & M & _)]; [left; exact E|right; exists t', n', c', i, g'; auto].
Qed.
Lemma dminv_later p w k r now ts t n c B g : dminv p w k r now t n c B g -> now <= ts -> dminv p w k r ts t n c B g.
Proof. intros [] H. split; try assumption; [lia|]. intros x Hx. specialize (dv_time0 x Hx). lia. Qed.

Lemma dminv_start p w : is_array 33 w -> exists t c, t_get_derivative_chain w fresh = (t, Ok c) /\ exists g, dminv p w 0 0 INCEPTION_TIMESTAMP t 1 c [] g.
Proof.
  intros Hw. assert (E : t_new disk_empty = Ok fresh) by (vm_compute; reflexivity).
  assert (R : reachable emission_only p 0 fresh) by (apply reach_open, E).
  pose proof (minv_start p w fresh E) as M. pose proof (mv_tree _ _ _ _ _ _ _ _ M) as HL.
  assert (Hd : t_derivs fresh = [] /\ t_closed fresh = []) by (vm_compute; auto). destruct Hd as [Hd Hcl].
  assert (Hlast : mc_get_last_block (t_main fresh) = Ok (Some genesis)) by (exact (last_main p fresh [genesis] HL (chained_one _ _) eq_refl)).
  set (c := MkDeriv sled_empty sled_empty 0 (block_hash genesis) BEGINNING_DIFFICULTY (MkFile None [])).
  assert (G : t_get_derivative_chain w fresh = (with_derivs fresh [(w, c)], Ok c)).
  { unfold t_get_derivative_chain. rewrite Hd, Hcl. cbn [assoc_get]. rewrite Hlast. cbn [bind unwrap_opt]. reflexivity. }
  exists (with_derivs fresh [(w, c)]), c. split; [exact G|]. exists (fun _ => 0). split.
  - pose proof (reach_call emission_only p 0 fresh (OGetDeriv w) R Hw (conj I I)) as R1. cbn [step] in R1. rewrite G in R1. exact R1.
  - lia.
  - eapply tree_inv_main; [exact HL|reflexivity].
  - reflexivity.
  - split; cbn [c dc_height dc_blocks dc_genesis dc_difficulty dc_refs dc_cfg].
    + reflexivity.
    + apply chain_ok_nil.
    + split; [apply sha_ok|]. exists genesis. split; [left; reflexivity|reflexivity].
    + split; [reflexivity|repeat constructor; reflexivity].
    + intros h v X. discriminate X.
    + left. reflexivity.
  - reflexivity.
  - lia.
  - intros x [].
  - apply gases_of; [apply (reachable_ledgers _ _ _ _ R); reflexivity|]. intros a. vm_compute. reflexivity.
  - split; [reflexivity|reflexivity].
  - exact (mv_amounts _ _ _ _ _ _ _ _ M).
  - intros X. contradiction.
Qed.

Lemma dminv_restart p w k r now t n c B g : dminv p w (S k) r now t n c B g -> is_array 33 w -> N.of_nat k < 2 ^ 64 -> N.of_nat r < 2 ^ 64 ->
  exists t' t'' n' c', t_new (t_close t) = Ok t' /\ t_get_derivative_chain w t' = (t'', Ok c') /\ dminv p w (S k) (S r) now t'' n' c' B g.
Proof.
  intros [V1 V2 V3 V4 V5 V6 V7 V8 V9 V10 V11 V12] Hw Hk Hr. destruct (V12 ltac:(discriminate)) as [V13 V14].
  assert (Hfew : few n) by (unfold few; lia).
  rewrite (close_saved t V13). destruct (reopen_main t [genesis] V3 eq_refl) as (t' & E & T & Eh & _ & _ & _ & Es & _ & Eg & _ & Ed & Ec).
  assert (R1 : reachable emission_only p n t') by (eapply reach_reopen; eassumption).
  assert (Hdisk : assoc_get (hex_encode w) (t_closed t') = Some (dc_close c)).
  { rewrite Ec. unfold close_derivs. rewrite V4. cbn [fold_left fst snd]. rewrite assoc_get_set, bytes_eqb_refl. reflexivity. }
  pose proof V5 as [W1 W2 [W3 W3'] W4 W5 W6].
  assert (Hc : dc_new (dc_close c) (block_hash genesis) = Ok (MkDeriv (sled_flush (dc_blocks c)) (sled_flush (dc_refs c)) (dc_height c) (dc_genesis c) (dc_difficulty c) (file_settle (dc_cfg c)))).
  { rewrite (dc_new_cfg (dc_close c) _ (dc_height c) (dc_difficulty c) (dc_genesis c)); [reflexivity|lia|exact W4|exact W3|]. cbn [dc_close dd_cfg]. rewrite file_cur_settle. exact V14. }
  set (c' := MkDeriv _ _ _ _ _ _) in Hc.
  assert (Hlast : mc_get_last_block (t_main t') = Ok (Some genesis)) by (exact (last_main p t' [genesis] T (chained_one _ _) eq_refl)).
  assert (G : t_get_derivative_chain w t' = (with_derivs t' [(w, c')], Ok c')).
  { unfold t_get_derivative_chain. rewrite Ed. cbn [assoc_get]. rewrite Hlast. cbn [bind unwrap_opt]. rewrite Hdisk, Hc. reflexivity. }
  exists t', (with_derivs t' [(w, c')]), (S n), c'. split; [exact E|]. split; [exact G|].
  pose proof (mi_height _ _ (ti_main _ _ V3)) as Hlen. cbn [length] in Hlen. change (N.of_nat 1) with 1 in Hlen. rewrite Hlen, N.eqb_refl in Es.
  pose proof (reachable_ledgers _ _ _ _ V1 Hfew) as Hled. split.
  - pose proof (reach_call emission_only p n t' (OGetDeriv w) R1 Hw (conj I I)) as R2. cbn [step] in R2. rewrite G in R2. exact R2.
  - lia.
  - eapply tree_inv_main; [exact T|reflexivity].
  - reflexivity.
  - split; cbn [c' dc_height dc_blocks dc_genesis dc_difficulty dc_refs dc_cfg].
    + exact W1.
    + eapply chain_ok_ext; [exact W2|reflexivity|auto].
    + split; assumption.
    + exact W4.
    + exact W5.
    + right. exists (dc_height c). split; [lia|]. exists (dc_difficulty c). split; [exact W4|]. rewrite file_cur_settle. exact V14.
  - exact V6.
  - exact V7.
  - exact V8.
  - intros a. rewrite <- (V9 a). unfold t_get_gas. cbn [with_derivs t_gas]. rewrite Eg. reflexivity.
  - exact V10.
  - pose proof (amounts_eq _ _ V11) as Ef. apply amounts_of; cbn [with_derivs t_summary]; rewrite Es.
    + apply led_ok_commit1; [apply led_ok_flush, Hled|reflexivity].
    + intros a. rewrite bal_commit1 by reflexivity. rewrite <- cycle_eq. unfold upd. destruct (bytes_eqb a ROOT_PUBLIC_ADDRESS) eqn:X; [reflexivity|]. rewrite bal_flush, <- Ef. unfold upd. rewrite X. reflexivity.
  - intros _. split.
    + unfold saved. cbn [with_derivs t_main]. unfold t_new in E. cbn [t_close k_main] in E.
      erewrite mc_new_settled in E.
      2:{ cbn [mc_close md_cfg]. rewrite file_cur_settle. cbn [t_flush t_main]. apply mc_cfg_flush. }
      2:{ lia. }
      2:{ rewrite (ti_diff _ _ V3). reflexivity. }
      cbn [bind] in E. injection E as <-. cbn [t_main mc_cfg mc_height mc_difficulty mc_close md_cfg]. rewrite file_cur_settle. cbn [t_flush t_main]. apply mc_cfg_flush.
    + unfold dsaved. cbn [c' dc_cfg dc_height dc_difficulty dc_genesis]. rewrite file_cur_settle. exact V14.
Qed.
Lemma mining_dminv p w k r now t : mining_deriv p w k r now t -> is_array 33 w -> N.of_nat k < 2 ^ 64 -> N.of_nat r < 2 ^ 64 -> exists n c B g, dminv p w k r now t n c B g.
Proof.
  intros H Hw. induction H as [t t' c E G|k r now t tries nonce ts t' H IH Hts Hu E|k r now t tries nonce ts t' H IH Hts Hu E|k r now t t' t'' c H IH E G]; intros Hk Hr.
  - destruct (dminv_start p w Hw) as (t1 & c1 & G1 & g & M). assert (X : t_new disk_empty = Ok fresh) by (vm_compute; reflexivity).
    rewrite X in E. injection E as <-. rewrite G in G1. apply pair_inv in G1 as [-> _]. eauto.
  - destruct (IH Hk Hr) as (n & c & B & g & M).
    destruct (mine_deriv_search_spec p w tries nonce ts k r now t n c B g M Hw Hk Hr Hts Hu) as [E'|(t1 & n' & c' & i & g' & E' & M')]; rewrite E in E'; [|discriminate E'].
    injection E' as ->. exists n, c, B, g. eapply dminv_later; eassumption.
  - destruct (IH ltac:(lia) Hr) as (n & c & B & g & M).
    destruct (mine_deriv_search_spec p w tries nonce ts k r now t n c B g M Hw ltac:(lia) Hr Hts Hu) as [E'|(t1 & n' & c' & i & g' & E' & M')]; rewrite E in E'; [discriminate E'|].
    injection E' as ->. eauto.
  - destruct (IH Hk ltac:(lia)) as (n & c0 & B & g & M). destruct (dminv_restart p w k r now t n c0 B g M Hw ltac:(lia) ltac:(lia)) as (t1 & t2 & n' & c1 & E1 & G1 & M1).
    rewrite E in E1. injection E1 as <-. rewrite G in G1. apply pair_inv in G1 as [-> _]. eauto.
Qed.

(*@T C92: the example miner of a derivative chain never panics, and it can be restarted whenever it has made a block. *)
Lemma p_C92_deriv_miner_never_panics : forall p w k r now t tries nonce ts,
  mining_deriv p w k r now t -> is_array 33 w -> N.of_nat k < 2 ^ 64 -> N.of_nat r < 2 ^ 64 -> now <= ts -> u64_ok ts ->
  (mine_deriv_search tries p w nonce ts t = (t, Ok false) \/ exists t', mine_deriv_search tries p w nonce ts t = (t', Ok true)) /\
  (k <> 0%nat -> exists t' t'' c, t_new (t_close t) = Ok t' /\ t_get_derivative_chain w t' = (t'', Ok c)).
Proof.
  intros p w k r now t tries nonce ts H Hw Hk Hr Hts Hu. destruct (mining_dminv _ _ _ _ _ _ H Hw Hk Hr) as (n & c & B & g & M). split.
  - destruct (mine_deriv_search_spec p w tries nonce ts k r now t n c B g M Hw Hk Hr Hts Hu) as [E|(t1 & n' & c' & i & g' & E & M')]; [left; exact E|right; eauto].
  - intros Hk0. destruct k as [|k]; [contradiction|]. destruct (dminv_restart p w k r now t n c B g M Hw ltac:(lia) Hr) as (t' & t'' & n' & c' & E1 & E2 & _). eauto.
Qed.
(*@E
Example C92_ex : let t0 := fst (t_get_derivative_chain addrA fresh) in let t1 := fst (mine_deriv_search 9 Debug addrA 0 1597925000 t0) in
  mining_deriv Debug addrA 1 0 1597925000 t1 /\ snd (mine_deriv_search 20 Debug addrA 0 1597926000 t1) = Ok true.
Proof.
  split; [|vm_compute; reflexivity].
  eapply (dmining_found _ _ 0 0 1597924800 (fst (t_get_derivative_chain addrA fresh)) 9 0 1597925000).
  - destruct (t_get_derivative_chain addrA fresh) as [t r] eqn:E. assert (X : match snd (t_get_derivative_chain addrA fresh) with Ok _ => true | _ => false end = true) by (vm_compute; reflexivity).
    rewrite E in X. destruct r as [c|e| |]; try discriminate X. cbn [fst]. apply (dmining_start Debug addrA fresh t c); [vm_compute; reflexivity|exact E].
  - discriminate.
  - reflexivity.
  - set (t0 := fst (t_get_derivative_chain addrA fresh)). assert (X : snd (mine_deriv_search 9 Debug addrA 0 1597925000 t0) = Ok true) by (vm_compute; reflexivity).
    destruct (mine_deriv_search 9 Debug addrA 0 1597925000 t0) as [t r]. cbn [snd] in X. rewrite X. reflexivity.
Qed.
@*)

(*@T C92, accounts: after [k] blocks the chain of the wallet has [k] linked blocks of the wallet, the wallet holds exactly [k] payments of gas, nobody else has gas,
    the main chain has only its first block and no coin has moved. *)
Lemma p_C92_deriv_miner_accounts : forall p w k r now t,
  mining_deriv p w k r now t -> is_array 33 w -> N.of_nat k < 2 ^ 64 -> N.of_nat r < 2 ^ 64 ->
  exists c B g f, snd (t_get_derivative_chain w t) = Ok c /\ length B = k /\ dc_get_height c = N.of_nat k /\
    (forall i x, nth_error B i = Some x -> dc_find_by_height (N.of_nat i) c = Ok (Some (DerivBlock x)) /\ bi_founder x = w) /\ chained (deriv_link p) B /\
    gases t g /\ g w = 25000000000000000 * N.of_nat k /\ (forall a, a <> w -> g a = 0) /\
    mc_get_height (t_main t) = 1 /\ amounts t f /\ f ROOT_PUBLIC_ADDRESS = COINS_PER_CYCLE /\ forall a, a <> ROOT_PUBLIC_ADDRESS -> f a = 0.
Proof.
  intros p w k r now t H Hw Hk Hr. destruct (mining_dminv _ _ _ _ _ _ H Hw Hk Hr) as (n & c & B & g & [V1 V2 V3 V4 V5 V6 V7 V8 V9 [V10 V10'] V11 V12]).
  exists c, B, g, (upd (fun _ => 0) ROOT_PUBLIC_ADDRESS CYCLE).
  split; [unfold t_get_derivative_chain; rewrite V4, assoc_single; reflexivity|]. split; [exact V6|].
  split; [unfold dc_get_height; rewrite (di_height _ _ _ _ _ _ V5), V6; reflexivity|].
  pose proof (di_chain _ _ _ _ _ _ V5) as [C1 C2 C3 C4]. destruct (C4 eq_refl) as (F1 & F2 & _). rewrite Forall_forall in C3, F1. split.
  { intros i x Hx. assert (Hx' : nthN B (N.of_nat i) = Some x) by (unfold nthN; rewrite Nnat.Nat2N.id; exact Hx). split; [|apply F1; eapply nthN_in, Hx'].
    unfold dc_find_by_height. rewrite (deriv_find_raw _ _ _ _ _ _ _ _ V5 Hx'). apply dc_decode_dump, C3. eapply nthN_in, Hx'. }
  split; [exact F2|]. split; [exact V9|]. split; [rewrite V10; unfold PAY; lia|]. split; [exact V10'|].
  split; [exact (mi_height _ _ (ti_main _ _ V3))|]. split; [exact V11|]. split; [apply upd_same|]. intros a Ha. apply upd_other, Ha.
Qed.
(*@E
Example C92_accounts_ex : let t0 := fst (t_get_derivative_chain addrA fresh) in let t1 := fst (mine_deriv_search 9 Debug addrA 0 1597925000 t0) in
  let t2 := fst (mine_deriv_search 20 Debug addrA 0 1597926000 t1) in
  t_get_gas addrA t2 = Ok 50000000000000000 /\ (let! c := snd (t_get_derivative_chain addrA t2) in Ok (dc_get_height c)) = Ok 2 /\ t_get_gas addrB t2 = Ok 0.
Proof. split; [|split]; vm_compute; reflexivity. Qed.
@*)
(*@T C92: the search tries the nonces one by one: it makes a block exactly when one of the nonces it may try gives enough work, and the block carries the first of them. *)
Lemma p_C92_first_nonce : forall p w k r now t tries nonce ts,
  mining_deriv p w k r now t -> is_array 33 w -> N.of_nat k < 2 ^ 64 -> N.of_nat r < 2 ^ 64 -> now <= ts -> u64_ok ts ->
  exists c h d prev_ts, snd (t_get_derivative_chain w t) = Ok c /\ deriv_predecessor t c h d prev_ts /\
  let enough j := work h d ff32 (to_be 32 j) in
  let stop := N.min (nonce + N.of_nat tries) (2 ^ 256 - 1) in
  match mine_deriv_search tries p w nonce ts t with
  | (_, Ok false) => forall j, nonce <= j < stop -> ~ enough j
  | (t', Ok true) => exists j c' i, nonce <= j < stop /\ enough j /\ (forall x, nonce <= x < j -> ~ enough x) /\
      snd (t_get_derivative_chain w t') = Ok c' /\ dc_get_last_block c' = Ok (Some (DerivBlock i)) /\ bi_pow i = to_be 32 j /\ bi_timestamp i = ts
  | _ => False
  end.
Proof.
  intros p w k r now t tries nonce ts H Hw Hk Hr Hts Hu. destruct (mining_dminv _ _ _ _ _ _ H Hw Hk Hr) as (n & c & B & g & M). destruct (dminv_predecessor _ _ _ _ _ _ _ _ _ _ M Hw Hk Hr) as (h & d & pts & P).
  exists c, h, d, pts. split; [unfold t_get_derivative_chain; rewrite (dv_open _ _ _ _ _ _ _ _ _ _ M), assoc_single; reflexivity|]. split; [exact P|]. cbv zeta.
  destruct (mine_deriv_search_first p w tries nonce ts k r now t n c B g M Hw Hk Hr Hts Hu h d pts P) as [[-> G]|(t' & n' & c' & i & g' & j & -> & M' & (J1 & J2 & J3) & P1 & P2)]; [exact G|].
  exists j, c', i. repeat (split; [assumption|]). split; [unfold t_get_derivative_chain; rewrite (dv_open _ _ _ _ _ _ _ _ _ _ M'), assoc_single; reflexivity|]. split; [|auto].
  pose proof (deriv_last _ _ _ _ _ _ (dv_chain _ _ _ _ _ _ _ _ _ _ M')) as X. rewrite X. destruct (B ++ [i]) as [|x l] eqn:Eb; [destruct B; discriminate Eb|]. rewrite <- Eb, last_last. reflexivity.
Qed.
(*@E
Example C92_first_ex : let t0 := fst (t_get_derivative_chain addrA fresh) in let t1 := fst (mine_deriv_search 9 Debug addrA 0 1597925000 t0) in
  map (fun k => match mine_deriv_search k Debug addrA 0 1597926000 t1 with (t', Ok true) => match (let! c := snd (t_get_derivative_chain addrA t') in dc_get_last_block c) with Ok (Some b) => Some (nth 31 (bi_pow (get_info b)) 0) | _ => None end | _ => None end) [1; 5; 9; 20]%nat =
  [None; None; Some 7; Some 7].
Proof. vm_compute. reflexivity. Qed.
@*)
