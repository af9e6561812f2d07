(** Proofs of the statements in P_Miner.v. *)
From Coq Require Import Lia ZifyBool ZifyNat ZifyN.
From Verif Require Import Base Sha256 Merkle Tools Transaction Block Sled Chain Tree Miner Spec Reach LedgerSpec LiveSpec CrashSpec MinerSpec Demo.
From Verif Require Import BaseFacts ToolsFacts MerkleFacts DiffFacts CodecFacts SledFacts ChainFacts TreeFacts DerivFacts CrashFacts LedgerFacts CodecProps MainProps LedgerProps LiveProps SupplyProps CrashProps.

Local Strategy 1000 [u256_add u256_sub u256_mul sled_get sled_commit recalculate_difficulty check_pow].

Definition PAY : N := 25000000000000000.
Definition CYCLE : N := 50010000000000000000000000.
Lemma pay_eq : MAIN_CHAIN_PAYMENT = PAY. Proof. reflexivity. Qed.
Lemma cycle_eq : COINS_PER_CYCLE = CYCLE. Proof. reflexivity. Qed.
Lemma pay_fees_one wallet fee t : pay_fees wallet fee [] t = (t, Ok tt). Proof. reflexivity. Qed.

(** ** What has been earned *)
Definition fee_part (prev b : block) : N := match b with TxBlock _ _ _ _ => fee_after prev | _ => 0 end.
Lemma earned_snoc L b g : L <> [] -> earned (L ++ [b]) = earned L + (PAY + fee_part (last L g) b).
Proof.
  intros Hne. induction L as [|x L IH]; [contradiction|]. destruct L as [|y L].
  - cbn [app earned last]. unfold PAY, fee_part. destruct b; lia.
  - specialize (IH ltac:(discriminate)). change ((x :: y :: L) ++ [b]) with (x :: (y :: L) ++ [b]). change (last (x :: y :: L) g) with (last (y :: L) g).
    cbn [app] in *. cbn [earned] in *. lia.
Qed.
Lemma fee_after_bound b : block_wf b -> fee_after b <= 16000000 /\ recalculate_fee (bi_difficulty (get_info b)) = Ok (fee_after b).
Proof.
  intros H. pose proof (block_info_wf _ H) as (_ & _ & _ & _ & [Hl Ho] & _). destruct (fee_eq (bi_difficulty (get_info b)) ltac:(lia)) as [E1 E2].
  rewrite clz_spec in E1, E2 by exact Ho. split; assumption.
Qed.
Lemma payments_next k : k <> 0 -> payments (k + 1) = if k mod 1000000 =? 0 then 1 else payments k + 1.
Proof.
  intros Hk. unfold payments. replace (k + 1 - 1) with k by lia.
  pose proof (N.div_mod k 1000000 ltac:(discriminate)) as D. pose proof (N.mod_lt k 1000000 ltac:(discriminate)) as M.
  pose proof (N.div_mod (k - 1) 1000000 ltac:(discriminate)) as D1. pose proof (N.mod_lt (k - 1) 1000000 ltac:(discriminate)) as M1.
  destruct (N.eqb_spec (k mod 1000000) 0) as [E|E].
  - rewrite E. destruct (N.leb_spec (k + 1) 1000000); [|reflexivity]. assert (k / 1000000 = 0) by (apply N.div_small; lia). lia.
  - assert (Eq : k / 1000000 = (k - 1) / 1000000) by nia. destruct (N.leb_spec (k + 1) 1000000); destruct (N.leb_spec k 1000000); try lia.
Qed.
Lemma payments_bound k : payments k <= 1000000.
Proof. unfold payments. pose proof (N.mod_lt (k - 1) 1000000 ltac:(discriminate)) as M. destruct (k <=? 1000000); lia. Qed.

(** ** Invariant of a run *)
Definition saved (m : main_chain) : Prop := file_cur (mc_cfg m) = Some (height_key (mc_height m) ++ mc_difficulty m).
Record minv (p : profile) (w : bytes) (k : nat) (now : N) (t : bct) (n : nat) (L : list block) (f : bytes -> N) : Prop := {
  mv_reach : reachable no_raw_main p n t;
  mv_calls : (n <= 4 * k)%nat;
  mv_tree : tree_inv t L;
  mv_len : length L = S k;
  mv_link : chained (main_link p) L;
  mv_time : bi_timestamp (get_info (last L genesis)) <= now;
  mv_amounts : amounts t f;
  mv_root : CYCLE <= f ROOT_PUBLIC_ADDRESS + PAY * payments (N.of_nat (S k));
  mv_bound : forall a, f a <= CYCLE + earned L;
  mv_earned : earned L <= N.of_nat k * (PAY + 16000000);
  mv_exact : w <> ROOT_PUBLIC_ADDRESS -> f w = earned L /\ f ROOT_PUBLIC_ADDRESS + PAY * payments (N.of_nat (S k)) = CYCLE /\
    forall a, a <> w -> a <> ROOT_PUBLIC_ADDRESS -> f a = 0;
  mv_saved : k <> 0%nat -> saved (t_main t)
}.

Lemma last_main p t L : tree_inv t L -> chained (main_link p) L -> N.of_nat (length L) < 2 ^ 256 -> mc_get_last_block (t_main t) = Ok (Some (last L genesis)).
Proof.
  intros HL Hk Hlen. destruct (tree_last t L HL Hlen) as [[_ Hl]|[(i & Hi) _]]; [exact Hl|exfalso].
  pose proof (main_kind p t L HL Hk (DerivBlock i)) as H. apply H. rewrite <- Hi. apply last_in. eapply tree_inv_ne, HL.
Qed.
Lemma upd_same f k v : upd f k v k = v.
Proof. unfold upd. rewrite bytes_eqb_refl. reflexivity. Qed.
Lemma upd_other f k v a : a <> k -> upd f k v a = f a.
Proof. intros H. unfold upd. destruct (bytes_eqb a k) eqn:E; [apply bytes_eqb_eq in E; contradiction|reflexivity]. Qed.

Lemma emit_amounts b t f : ledgers_ok t -> amounts t f ->
  amounts (with_main (emit_base b t) (mc_appended b (t_main (emit_base b t))))
    (match b with SummBlock _ _ => upd f ROOT_PUBLIC_ADDRESS CYCLE | _ => f end).
Proof.
  intros Hl Hf. destruct b as [fee r i l|i|i r]; try exact Hf.
  assert (E : t_summary (with_main (emit_base (SummBlock i r) t) (mc_appended (SummBlock i r) (t_main (emit_base (SummBlock i r) t)))) =
    sled_commit [(ROOT_PUBLIC_ADDRESS, led_encode COINS_PER_CYCLE)] (sled_flush (t_summary t))) by reflexivity.
  pose proof (amounts_eq _ _ Hf) as Ef. apply amounts_of; rewrite E.
  - apply led_ok_commit1; [apply led_ok_flush, Hl|reflexivity].
  - intros a. rewrite bal_commit1 by reflexivity. unfold upd. rewrite cycle_eq. destruct (bytes_eqb a ROOT_PUBLIC_ADDRESS); [reflexivity|]. rewrite bal_flush. apply Ef.
Qed.
(** Balances after the payment and the fee. *)
Lemma balances_next (f f1 f2 f3 : bytes -> N) (w : bytes) (E E' c c' fee : N) (summ : bool) :
  f1 = (if summ then upd f ROOT_PUBLIC_ADDRESS CYCLE else f) -> f2 = moved f1 ROOT_PUBLIC_ADDRESS w PAY -> f3 = upd f2 w (f2 w + fee) ->
  c' = (if summ then 1 else c + 1) -> c' <= 1000000 -> E' = E + (PAY + fee) ->
  CYCLE <= f ROOT_PUBLIC_ADDRESS + PAY * c -> (forall a, f a <= CYCLE + E) ->
  (w <> ROOT_PUBLIC_ADDRESS -> f w = E /\ f ROOT_PUBLIC_ADDRESS + PAY * c = CYCLE /\ forall a, a <> w -> a <> ROOT_PUBLIC_ADDRESS -> f a = 0) ->
  PAY <= f1 ROOT_PUBLIC_ADDRESS /\ f1 w <= CYCLE + E /\ f2 w <= CYCLE + E + PAY /\
  CYCLE <= f3 ROOT_PUBLIC_ADDRESS + PAY * c' /\ (forall a, f3 a <= CYCLE + E') /\
  (w <> ROOT_PUBLIC_ADDRESS -> f3 w = E' /\ f3 ROOT_PUBLIC_ADDRESS + PAY * c' = CYCLE /\ forall a, a <> w -> a <> ROOT_PUBLIC_ADDRESS -> f3 a = 0).
Proof.
  intros E1 E2 E3 Ec Hc EE H1 H2 H3. set (R := ROOT_PUBLIC_ADDRESS) in *.
  assert (G1 : CYCLE <= f1 R + PAY * (c' - 1)).
  { rewrite E1, Ec. destruct summ; [rewrite upd_same; lia|]. replace (c + 1 - 1) with c by lia. exact H1. }
  assert (G2 : forall a, f1 a <= CYCLE + E).
  { intros a. rewrite E1. destruct summ; [|apply H2]. unfold upd. destruct (bytes_eqb a R); [lia|apply H2]. }
  assert (G3 : w <> R -> f1 w = E /\ f1 R + PAY * (c' - 1) = CYCLE /\ forall a, a <> w -> a <> R -> f1 a = 0).
  { intros Hw. specialize (H3 Hw) as (A1 & A2 & A3). rewrite E1, Ec. destruct summ.
    - rewrite upd_same, upd_other by exact Hw. split; [exact A1|]. split; [lia|]. intros a X Y. rewrite upd_other by exact Y. apply A3; assumption.
    - replace (c + 1 - 1) with c by lia. auto. }
  assert (Hc1 : 1 <= c') by (rewrite Ec; destruct summ; lia).
  assert (G4 : PAY <= f1 R) by (unfold CYCLE, PAY in *; nia).
  assert (G5 : PAY * c' = PAY * (c' - 1) + PAY) by nia.
  clear E1 Ec H1 H2 H3. unfold moved in E2. destruct (bytes_eqb R w) eqn:X.
  - apply bytes_eqb_eq in X. subst w f2. split; [exact G4|]. split; [apply G2|]. split; [pose proof (G2 R); lia|].
    subst f3 E'. rewrite upd_same. split; [lia|]. split; [|intros Hw; contradiction].
    intros a. unfold upd. destruct (bytes_eqb a R); [pose proof (G2 R)|pose proof (G2 a)]; lia.
  - assert (Hw : w <> R) by (intros ->; rewrite bytes_eqb_refl in X; discriminate). destruct (G3 Hw) as (A1 & A2 & A3).
    assert (B1 : f2 w = E + PAY) by (subst f2; rewrite upd_same, A1; reflexivity).
    assert (B2 : f2 R = f1 R - PAY) by (subst f2; rewrite upd_other by congruence; apply upd_same).
    assert (B3 : forall a, a <> w -> a <> R -> f2 a = f1 a) by (intros a Y1 Y2; subst f2; rewrite !upd_other by assumption; reflexivity).
    clear E2. split; [exact G4|]. split; [apply G2|]. split; [lia|]. subst f3 E'. rewrite upd_same, (upd_other f2 w _ R) by congruence. rewrite B1, B2.
    split; [lia|]. split.
    + intros a. unfold upd. destruct (bytes_eqb a w); [lia|]. destruct (bytes_eqb a R) eqn:Y; [apply bytes_eqb_eq in Y; subst a; rewrite B2; pose proof (G2 R); lia|].
      destruct (bytes_eqb a w) eqn:Z; [apply bytes_eqb_eq in Z; subst a; rewrite B1; lia|].
      rewrite B3 by (intros ->; rewrite bytes_eqb_refl in *; discriminate). pose proof (G2 a). lia.
    + intros _. split; [lia|]. split; [lia|]. intros a Y1 Y2. rewrite upd_other, B3 by assumption. apply A3; assumption.
Qed.

Definition good (x : bytes) (t : bct) (prev : block) (nonce : N) : Prop :=
  work (block_hash prev) (bi_difficulty (get_info prev)) (mroot (if mc_height (t_main t) mod 1000000 =? 0 then [] else [x])) (height_key nonce).
Lemma mine_try_spec p w x nonce ts k now t n L f : minv p w k now t n L f -> is_array 33 w -> is_array 32 x -> N.of_nat k < 2 ^ 64 -> now <= ts -> u64_ok ts -> nonce < 2 ^ 256 ->
  (mine_try p w x nonce ts t = (t, Ok false) /\ ~ good x t (last L genesis) nonce) \/
  exists t' n' b f', mine_try p w x nonce ts t = (t', Ok true) /\ minv p w (S k) ts t' n' (L ++ [b]) f' /\
    good x t (last L genesis) nonce /\ bi_pow (get_info b) = height_key nonce /\ bi_timestamp (get_info b) = ts.
Proof.
  intros [V1 V2 V3 V4 V5 V6 V7 V8 V9 V10 V11 V12] Hw Hx Hk Hts Hu Hnonce.
  assert (Hfew : few n) by (unfold few; lia).
  pose proof (last_main p t L V3 V5 ltac:(lia)) as Hlast. destruct (tree_last_height t L V3) as [Hh Hwf]. pose proof (mi_height _ _ (ti_main _ _ V3)) as Hlen.
  destruct (fee_after_bound _ Hwf) as [Hfb Hfee].
  assert (Hnext : u256_add (bi_height (get_info (last L genesis))) 1 = Ok (mc_height (t_main t))).
  { unfold u256_add. destruct (N.ltb_spec (bi_height (get_info (last L genesis)) + 1) (2 ^ 256)); [rewrite Hh; reflexivity|lia]. }
  unfold mine_try. rewrite Hlast. cbn [unwrap bind unwrap_opt]. rewrite Hnext. cbn [bind].
  change BLOCKS_PER_EPOCH with 1000000. set (txs := if mc_height (t_main t) mod 1000000 =? 0 then [] else [x]).
  set (lst := last L genesis) in *. set (pow := height_key nonce) in *. cbv beta iota zeta.
  assert (Htx : Forall (is_array 32) txs) by (unfold txs; destruct (_ =? 0); repeat constructor; apply Hx).
  assert (Hpow : is_array 32 pow) by (split; [apply height_key_length|apply to_be_ok]).
  pose proof (p_C78_emission_decision p n t pow w txs ts (mroot txs) V1 Hfew Hpow Hw Htx Hu ltac:(apply mroot_iff; reflexivity)) as (prev & Hprev & D).
  rewrite Hlast in Hprev. injection Hprev as <-. cbv zeta in D. destruct D as (_ & _ & _ & _ & D).
  rewrite check_pow_eq. cbn [bind]. pose proof (block_info_wf _ Hwf) as (_ & _ & _ & _ & [_ Hdo] & _). fold lst in Hdo.
  destruct (N.leb_spec (count_leading_zeros (bi_difficulty (get_info lst))) (count_leading_zeros (sha256 (block_hash lst ++ mroot txs ++ pow)))) as [Hwk|Hwk]; cbn [negb]; [right|left; split; [reflexivity|]].
  2:{ unfold good, work. fold txs pow. rewrite !clz_spec in Hwk by (try exact Hdo; apply sha256_array). lia. }
  assert (Hgood : good x t lst nonce).
  { unfold good, work. fold txs pow. rewrite !clz_spec in Hwk by (try exact Hdo; apply sha256_array). exact Hwk. }
  destruct (D) as (b & Hb).
  { exact Hgood. }
  { intros _. lia. }
  { unfold txs, mc_get_height. destruct (N.eqb_spec (mc_height (t_main t) mod 1000000) 0); split; intros; congruence. }
  clear D. destruct (t_emmit_new_main_block p pow w txs ts t) as [t1 r] eqn:E1. cbn [snd] in Hb. subst r. cbn [and_then].
  pose proof (emit_main_tree p t L pow w txs ts t1 (Ok b) V3 ltac:(lia) Hpow Hw Htx Hu E1) as (M1 & M2 & M3 & M4 & Mp & _ & M5 & M6 & M7).
  pose proof (reachable_ledgers _ _ _ _ V1 Hfew) as Hled. pose proof (emit_amounts b t f Hled V7) as A1. rewrite <- M7 in A1.
  set (f1 := match b with SummBlock _ _ => upd f ROOT_PUBLIC_ADDRESS CYCLE | _ => f end) in *.
  assert (R1 : reachable no_raw_main p (S n) t1).
  { pose proof (reach_call no_raw_main p n t (OEmitMain pow w txs ts) V1) as R. cbn [step ret_block fst] in R. rewrite E1 in R. apply R; [repeat split; try assumption; apply Hpow||apply Hw|exact I]. }
  assert (F1 : few (S n)) by (unfold few in *; lia).
  set (summ := match b with SummBlock _ _ => true | _ => false end).
  assert (Hkind : txs = (if summ then [] else [x]) /\ payments (N.of_nat (S (S k))) = (if summ then 1 else payments (N.of_nat (S k)) + 1) /\
    fee_part lst b = (if summ then 0 else fee_after lst)).
  { rewrite Hlen, V4 in M5. pose proof (payments_next (N.of_nat (S k)) ltac:(lia)) as Hp.
    replace (N.of_nat (S k) + 1) with (N.of_nat (S (S k))) in Hp by lia. rewrite Hp.
    unfold main_link in M1. cbv zeta in M1. rewrite M5 in M1. unfold txs. rewrite Hlen, V4. unfold summ.
    destruct b as [fe rt i l|i|i rt]; [|contradiction|].
    - destruct M1 as (_ & _ & _ & Hm & _). destruct (N.eqb_spec (N.of_nat (S k) mod 1000000) 0); [contradiction|]. auto.
    - destruct M1 as (Hm & _). rewrite Hm. auto. }
  destruct Hkind as (K1 & K2 & K3).
  set (f2 := moved f1 ROOT_PUBLIC_ADDRESS w PAY). set (f3 := upd f2 w (f2 w + fee_part lst b)).
  assert (Hf1 : f1 = if summ then upd f ROOT_PUBLIC_ADDRESS CYCLE else f) by (unfold f1, summ; destruct b; reflexivity).
  assert (Hne : L <> []) by (intros ->; discriminate V4).
  pose proof (earned_snoc L b genesis Hne) as He. fold lst in He.
  pose proof (balances_next f f1 f2 f3 w (earned L) _ _ _ (fee_part lst b) summ Hf1 eq_refl eq_refl K2 (payments_bound _) He V8 V9 V11) as (G1 & G2 & G3 & G4 & G5 & G6).
  assert (Hfp : fee_part lst b <= 16000000) by (rewrite K3; destruct summ; lia).
  assert (Hsmall : CYCLE + earned L + PAY + 16000000 < 2 ^ 256) by (unfold CYCLE, PAY in *; nia).
  rewrite pay_eq.
  pose proof (send_amount_eff ROOT_PUBLIC_ADDRESS w PAY t1 f1 (lo_summary _ (reachable_ledgers _ _ _ _ R1 F1)) A1) as S2.
  assert (R2 : reachable no_raw_main p (S (S n)) (fst (t_send_amount ROOT_PUBLIC_ADDRESS w PAY t1))).
  { apply (reach_call no_raw_main p (S n) t1 (OSendAmount ROOT_PUBLIC_ADDRESS w PAY) R1); [|exact I].
    split; [|split; [apply Hw|reflexivity]]. repeat constructor; reflexivity. }
  destruct (t_send_amount ROOT_PUBLIC_ADDRESS w PAY t1) as [t2 r2]. cbn [fst] in R2. destruct S2 as [T2 S2].
  assert (A2 : r2 = Ok tt /\ amounts t2 f2).
  { unfold f2, moved. destruct (bytes_eqb ROOT_PUBLIC_ADDRESS w) eqn:X; [destruct S2 as [-> ->]; auto|].
    destruct (N.leb_spec PAY (f1 ROOT_PUBLIC_ADDRESS)); [|lia]. destruct (N.ltb_spec (f1 w + PAY) (2 ^ 256)); [|lia]. cbn [andb] in S2.
    unfold moved in S2. rewrite X in S2. exact S2. }
  destruct A2 as [-> A2]. cbn [and_then]. rewrite Hfee. cbn [and_then].
  assert (Hfees : exists t3 m, pay_fees w (fee_after lst) txs t2 = (t3, Ok tt) /\ (m <= 1)%nat /\ reachable no_raw_main p (m + S (S n)) t3 /\ amounts t3 f3 /\ t_main t3 = t_main t2).
  { assert (F2 : few (S (S n))) by (unfold few in *; lia). rewrite K1. unfold f3. rewrite K3. destruct summ.
    - exists t2, 0%nat. split; [reflexivity|]. split; [lia|]. split; [exact R2|]. split; [|reflexivity].
      intros a. rewrite (A2 a). f_equal. unfold upd. destruct (bytes_eqb a w) eqn:X; [apply bytes_eqb_eq in X; subst a; lia|reflexivity].
    - cbn [pay_fees]. pose proof (add_amount_eff w (fee_after lst) t2 f2 (lo_summary _ (reachable_ledgers _ _ _ _ R2 F2)) A2) as S3.
      assert (R3 : reachable no_raw_main p (S (S (S n))) (fst (t_add_amount w (fee_after lst) t2))).
      { apply (reach_call no_raw_main p _ t2 (OAddAmount w (fee_after lst)) R2); [|exact I]. split; [apply Hw|]. unfold u256_ok. lia. }
      destruct (t_add_amount w (fee_after lst) t2) as [t3 r3]. cbn [fst] in R3. destruct S3 as [T3 S3].
      destruct (N.ltb_spec (f2 w + fee_after lst) (2 ^ 256)); [|lia]. destruct S3 as [-> S3]. exists t3, 1%nat. cbn [and_then].
      split; [reflexivity|]. split; [lia|]. split; [exact R3|]. split; [exact S3|]. rewrite T3. reflexivity. }
  destruct Hfees as (t3 & m & -> & Hm & R3 & A3 & T3). cbn [and_then].
  exists (t_flush t3), (S (m + S (S n))), b, f3. split; [reflexivity|]. split; [|split; [exact Hgood|split; [exact Mp|exact M4]]]. split.
  - apply (reach_call no_raw_main p _ t3 OFlush R3); exact I.
  - lia.
  - apply (tree_inv_ext t1); try (cbn [t_flush t_main]; rewrite T3, T2; reflexivity). exact M3.
  - rewrite app_length, V4. cbn [length]. lia.
  - eapply chained_snoc; [exact V5|exact Hne|exact M1].
  - rewrite last_last. lia.
  - intros a. rewrite <- (A3 a). reflexivity.
  - exact G4.
  - exact G5.
  - rewrite He. lia.
  - exact G6.
  - intros _. unfold saved. cbn [t_flush t_main]. rewrite mc_cfg_flush. reflexivity.
Qed.

(** ** Start, search, restart *)
Lemma genesis_time : bi_timestamp (get_info genesis) = INCEPTION_TIMESTAMP.
Proof. vm_compute. reflexivity. Qed.
Lemma minv_start p w t : t_new disk_empty = Ok t -> minv p w 0 INCEPTION_TIMESTAMP t 0 [genesis] (upd (fun _ => 0) ROOT_PUBLIC_ADDRESS CYCLE).
Proof.
  intros E.
  assert (R : reachable no_raw_main p 0 t) by (apply reach_open, E).
  assert (Et : t = fresh). { assert (X : t_new disk_empty = Ok fresh) by (vm_compute; reflexivity). rewrite X in E. injection E as <-. reflexivity. }
  split.
  - exact R.
  - lia.
  - apply open_main, E.
  - reflexivity.
  - constructor.
  - cbn [last]. rewrite genesis_time. lia.
  - apply amounts_of; [apply (reachable_ledgers _ _ _ _ R); reflexivity|].
    intros a. subst t. assert (Es : t_summary fresh = sled_commit [(ROOT_PUBLIC_ADDRESS, led_encode COINS_PER_CYCLE)] sled_empty) by (vm_compute; reflexivity).
    rewrite Es. rewrite bal_commit1 by reflexivity. unfold upd. rewrite cycle_eq. destruct (bytes_eqb a ROOT_PUBLIC_ADDRESS); reflexivity.
  - rewrite upd_same. lia.
  - intros a. unfold upd. destruct (bytes_eqb a ROOT_PUBLIC_ADDRESS); lia.
  - cbn. lia.
  - intros Hw. rewrite upd_same, upd_other by exact Hw. split; [reflexivity|]. split; [reflexivity|]. intros a _ X. apply upd_other, X.
  - intros X. contradiction.
Qed.
Lemma minv_later p w k now ts t n L f : minv p w k now t n L f -> now <= ts -> minv p w k ts t n L f.
Proof. intros [] H. split; try assumption. lia. Qed.
Definition first_of (P : N -> Prop) (lo hi j : N) : Prop := lo <= j < hi /\ P j /\ forall i, lo <= i < j -> ~ P i.
Lemma mine_search_first p w x tries : forall nonce ts k now t n L f, minv p w k now t n L f -> is_array 33 w -> is_array 32 x -> N.of_nat k < 2 ^ 64 -> now <= ts -> u64_ok ts ->
  (mine_search tries p w x nonce ts t = (t, Ok false) /\ forall j, nonce <= j < N.min (nonce + N.of_nat tries) (2 ^ 256 - 1) -> ~ good x t (last L genesis) j) \/
  exists t' n' b f' j, mine_search tries p w x nonce ts t = (t', Ok true) /\ minv p w (S k) ts t' n' (L ++ [b]) f' /\
    first_of (good x t (last L genesis)) nonce (N.min (nonce + N.of_nat tries) (2 ^ 256 - 1)) j /\ bi_pow (get_info b) = height_key j /\ bi_timestamp (get_info b) = ts.
Proof.
  induction tries as [|tries IH]; intros nonce ts k now t n L f H Hw Hx Hk Hts Hu; cbn [mine_search]; [left; split; [reflexivity|intros j; lia]|].
  destruct (N.ltb_spec nonce (2 ^ 256 - 1)) as [Hn|Hn]; [|left; split; [reflexivity|intros j; lia]].
  destruct (mine_try_spec p w x nonce ts k now t n L f H Hw Hx Hk Hts Hu ltac:(lia)) as [[-> Hg]|(t' & n' & b & f' & -> & H' & Hg & Hp & Ht)].
  - destruct (IH (nonce + 1) ts k now t n L f H Hw Hx Hk Hts Hu) as [[E G]|(t' & n' & b & f' & j & E & M & (J1 & J2 & J3) & P)].
    + left. split; [exact E|]. intros j Hj. destruct (N.eq_dec j nonce) as [->|Hne]; [exact Hg|apply G; lia].
    + right. exists t', n', b, f', j. split; [exact E|]. split; [exact M|]. split; [|exact P]. split; [lia|]. split; [exact J2|]. intros i Hi. destruct (N.eq_dec i nonce) as [->|Hne]; [exact Hg|apply J3; lia].
  - right. exists t', n', b, f', nonce. split; [reflexivity|]. split; [exact H'|]. split; [|auto]. split; [lia|]. split; [exact Hg|]. intros i. lia.
Qed.
Lemma mine_search_spec p w x tries : forall nonce ts k now t n L f, minv p w k now t n L f -> is_array 33 w -> is_array 32 x -> N.of_nat k < 2 ^ 64 -> now <= ts -> u64_ok ts ->
  mine_search tries p w x nonce ts t = (t, Ok false) \/
  exists t' n' b f', mine_search tries p w x nonce ts t = (t', Ok true) /\ minv p w (S k) ts t' n' (L ++ [b]) f'.
Proof.
  intros nonce ts k now t n L f H Hw Hx Hk Hts Hu. destruct (mine_search_first p w x tries nonce ts k now t n L f H Hw Hx Hk Hts Hu) as [[E _]|(t' & n' & b & f' & j & E & M & _)]; [left; exact E|right; exists t', n', b, f'; auto].
Qed.
Lemma close_saved t : saved (t_main t) -> t_close t = t_close (t_flush t).
Proof.
  intros S. unfold t_close. f_equal. unfold mc_close. cbn [t_flush t_main]. unfold file_settle. rewrite mc_cfg_flush, S. reflexivity.
Qed.
Lemma minv_restart p w k now t n L f : minv p w (S k) now t n L f -> N.of_nat k < 2 ^ 64 ->
  exists t', t_new (t_close t) = Ok t' /\ minv p w (S k) now t' n L f.
Proof.
  intros [V1 V2 V3 V4 V5 V6 V7 V8 V9 V10 V11 V12] Hk. specialize (V12 ltac:(discriminate)).
  rewrite (close_saved t V12). destruct (reopen_main t L V3 ltac:(lia)) as (t' & E & T & Eh & _ & _ & _ & Es & _).
  exists t'. split; [exact E|]. split; try assumption.
  - eapply reach_reopen; eassumption.
  - pose proof (mi_height _ _ (ti_main _ _ V3)) as Hlen. destruct (N.eqb_spec (mc_height (t_main t)) 1); [lia|].
    intros a. rewrite <- (V7 a). unfold t_get_amount. rewrite Es. reflexivity.
  - intros _. unfold t_new in E. cbn [t_close k_main] in E.
    pose proof (mi_height _ _ (ti_main _ _ V3)) as Hlen.
    erewrite mc_new_settled in E.
    2:{ cbn [mc_close md_cfg]. rewrite file_cur_settle. cbn [t_flush t_main]. apply mc_cfg_flush. }
    2:{ lia. }
    2:{ rewrite (ti_diff _ _ V3). reflexivity. }
    cbn [bind] in E. injection E as <-. unfold saved. cbn [t_main mc_cfg mc_height mc_difficulty mc_close md_cfg]. rewrite file_cur_settle. cbn [t_flush t_main]. apply mc_cfg_flush.
Qed.
Lemma mining_minv p w x k now t : mining p w x k now t -> is_array 33 w -> is_array 32 x -> N.of_nat k < 2 ^ 64 -> exists n L f, minv p w k now t n L f.
Proof.
  intros H Hw Hx. induction H as [t E|k now t tries nonce ts t' H IH Hts Hu E|k now t tries nonce ts t' H IH Hts Hu E|k now t t' H IH E]; intros Hk.
  - pose proof (minv_start p w t E). eauto.
  - destruct (IH Hk) as (n & L & f & M).
    destruct (mine_search_spec p w x tries nonce ts k now t n L f M Hw Hx ltac:(lia) Hts Hu) as [E'|(t1 & n' & b & f' & E' & M')]; rewrite E in E'; [|discriminate E'].
    injection E' as ->. exists n, L, f. eapply minv_later; eassumption.
  - destruct (IH ltac:(lia)) as (n & L & f & M).
    destruct (mine_search_spec p w x tries nonce ts k now t n L f M Hw Hx ltac:(lia) Hts Hu) as [E'|(t1 & n' & b & f' & E' & M')]; rewrite E in E'; [discriminate E'|].
    injection E' as ->. eauto.
  - destruct (IH Hk) as (n & L & f & M). destruct (minv_restart p w k now t n L f M ltac:(lia)) as (t1 & E1 & M1). rewrite E in E1. injection E1 as <-. eauto.
Qed.

(*@T C91: the example miner never panics: whatever it has done so far, however often it was restarted, a round of its search either
    finds nothing and leaves the tree as it was, or adds one block; and after the first block it can be restarted at any time.  The
    clock does not go back. *)
Lemma p_C91_miner_never_panics : forall p w x k now t tries nonce ts,
  mining p w x k now t -> is_array 33 w -> is_array 32 x -> N.of_nat k < 2 ^ 64 -> now <= ts -> u64_ok ts ->
  (mine_search tries p w x nonce ts t = (t, Ok false) \/
   exists t', mine_search tries p w x nonce ts t = (t', Ok true) /\ mc_get_height (t_main t') = mc_get_height (t_main t) + 1) /\
  (k <> 0%nat -> exists t', t_new (t_close t) = Ok t').
Proof.
  intros p w x k now t tries nonce ts H Hw Hx Hk Hts Hu. destruct (mining_minv _ _ _ _ _ _ H Hw Hx Hk) as (n & L & f & M). split.
  - destruct (mine_search_spec p w x tries nonce ts k now t n L f M Hw Hx Hk Hts Hu) as [E|(t1 & n' & b & f' & E & M')]; [left; exact E|right].
    exists t1. split; [exact E|]. unfold mc_get_height.
    rewrite (mi_height _ _ (ti_main _ _ (mv_tree _ _ _ _ _ _ _ _ M'))), (mi_height _ _ (ti_main _ _ (mv_tree _ _ _ _ _ _ _ _ M))), app_length. cbn [length]. lia.
  - intros Hk0. destruct k as [|k]; [contradiction|]. destruct (minv_restart p w k now t n L f M ltac:(lia)) as (t' & E & _). eauto.
Qed.
(*@E
Example C91_ex : let t1 := fst (mine_search 9 Debug addrA txh 0 1597925000 fresh) in
  mining Debug addrA txh 1 1597925000 t1 /\ snd (mine_search 40 Debug addrA txh 0 1597926000 t1) = Ok true /\
  mine_search 1 Debug addrA txh 0 1597926000 fresh = (fresh, Ok false).
Proof.
  split; [|split; vm_compute; reflexivity].
  eapply (mining_found _ _ _ 0 1597924800 fresh 9 0 1597925000); [apply mining_start; vm_compute; reflexivity|discriminate|reflexivity|].
  assert (E : snd (mine_search 9 Debug addrA txh 0 1597925000 fresh) = Ok true) by (vm_compute; reflexivity).
  destruct (mine_search 9 Debug addrA txh 0 1597925000 fresh) as [t r]. cbn [snd] in E. rewrite E. reflexivity.
Qed.
@*)

(*@T C91, accounts: after [k] blocks the chain has [k + 1] linked blocks, the miner (not the root account) holds exactly the payments and
    fees for them, the root account has lost exactly the payments since it was last filled, and nobody else has anything. *)
Lemma p_C91_miner_accounts : forall p w x k now t,
  mining p w x k now t -> is_array 33 w -> is_array 32 x -> N.of_nat k < 2 ^ 64 -> w <> ROOT_PUBLIC_ADDRESS ->
  exists L f, length L = S k /\ mc_get_height (t_main t) = N.of_nat (S k) /\
    (forall i b, nth_error L i = Some b -> mc_find_by_height (N.of_nat i) (t_main t) = Ok (Some b)) /\ chained (main_link p) L /\
    amounts t f /\ f w = earned L /\ f ROOT_PUBLIC_ADDRESS + 25000000000000000 * payments (N.of_nat (S k)) = COINS_PER_CYCLE /\
    forall a, a <> w -> a <> ROOT_PUBLIC_ADDRESS -> f a = 0.
Proof.
  intros p w x k now t H Hw Hx Hk Hroot. destruct (mining_minv _ _ _ _ _ _ H Hw Hx Hk) as (n & L & f & [V1 V2 V3 V4 V5 V6 V7 V8 V9 V10 V11 V12]).
  exists L, f. pose proof (mi_height _ _ (ti_main _ _ V3)) as Hlen. rewrite V4 in Hlen.
  split; [exact V4|]. split; [exact Hlen|]. split.
  { intros i b Hb. assert (Hb' : nthN L (N.of_nat i) = Some b) by (unfold nthN; rewrite Nnat.Nat2N.id; exact Hb).
    eapply main_find_height; [apply V3|lia|exact Hb'|].
    destruct (tree_readable t L _ _ V3 ltac:(lia) Hb') as [Hrd|(info & ->)]; [exact Hrd|].
    exfalso. destruct i as [|i]; [rewrite (ti_gen _ _ V3) in Hb; discriminate|]. exact (chained_in_kind p L V5 i _ Hb). }
  split; [exact V5|]. split; [exact V7|]. apply V11, Hroot.
Qed.
(*@E
Example C91_accounts_ex : let t1 := fst (mine_search 9 Debug addrA txh 0 1597925000 fresh) in
  t_get_amount addrA t1 = Ok (25000000000000000 + 62500) /\ t_get_amount ROOT_PUBLIC_ADDRESS t1 = Ok (COINS_PER_CYCLE - 25000000000000000) /\
  addrA <> ROOT_PUBLIC_ADDRESS /\ (forall a b, earned [a; TxBlock 0 [] (get_info b) []; SummBlock (get_info a) []] = 50000000000000000 + fee_after a) /\
  payments 1 = 0 /\ payments 1000000 = 999999 /\ payments 1000001 = 1 /\ payments 2000000 = 1000000 /\ payments 2000001 = 1.
Proof.
  split; [vm_compute; reflexivity|]. split; [vm_compute; reflexivity|]. split; [discriminate|].
  split; [|repeat split]. intros a b. cbn [earned]. lia.
Qed.
@*)

(*@T C91 is false of the code when the clock goes back: in a debug build the miner panics. *)
Lemma p_C91_clock_refuted : exists w x t ts, mining Debug w x 0 INCEPTION_TIMESTAMP t /\ is_array 33 w /\ is_array 32 x /\ u64_ok ts /\
  snd (mine_search 9 Debug w x 0 ts t) = Panic.
Proof.
  exists addrA, txh, fresh, 5. split; [apply mining_start; vm_compute; reflexivity|].
  split; [split; [reflexivity|repeat constructor; reflexivity]|]. split; [split; [reflexivity|repeat constructor; reflexivity]|].
  split; [reflexivity|]. vm_compute. reflexivity.
Qed.
(*@T C91: the search tries the nonces one by one: it makes a block exactly when one of the nonces it may try gives enough work, and the block carries the first of them. *)
Lemma p_C91_first_nonce : forall p w x k now t tries nonce ts,
  mining p w x k now t -> is_array 33 w -> is_array 32 x -> N.of_nat k < 2 ^ 64 -> now <= ts -> u64_ok ts ->
  exists prev root, mc_get_last_block (t_main t) = Ok (Some prev) /\ merkle_root_of (if mc_get_height (t_main t) mod 1000000 =? 0 then [] else [x]) root /\
  let enough j := work (block_hash prev) (bi_difficulty (get_info prev)) root (to_be 32 j) in
  let stop := N.min (nonce + N.of_nat tries) (2 ^ 256 - 1) in
  match mine_search tries p w x nonce ts t with
  | (_, Ok false) => forall j, nonce <= j < stop -> ~ enough j
  | (t', Ok true) => exists j b, nonce <= j < stop /\ enough j /\ (forall i, nonce <= i < j -> ~ enough i) /\
      mc_get_last_block (t_main t') = Ok (Some b) /\ bi_pow (get_info b) = to_be 32 j /\ bi_timestamp (get_info b) = ts
  | _ => False
  end.
Proof.
  intros p w x k now t tries nonce ts H Hw Hx Hk Hts Hu. destruct (mining_minv _ _ _ _ _ _ H Hw Hx Hk) as (n & L & f & M).
  exists (last L genesis), (mroot (if mc_get_height (t_main t) mod 1000000 =? 0 then [] else [x])). pose proof (mv_len _ _ _ _ _ _ _ _ M) as V4.
  split; [exact (last_main p t L (mv_tree _ _ _ _ _ _ _ _ M) (mv_link _ _ _ _ _ _ _ _ M) ltac:(lia))|]. split; [apply mroot_iff; reflexivity|]. cbv zeta.
  destruct (mine_search_first p w x tries nonce ts k now t n L f M Hw Hx Hk Hts Hu) as [[-> G]|(t' & n' & b & f' & j & -> & M' & (J1 & J2 & J3) & P1 & P2)]; [exact G|].
  exists j, b. repeat (split; [assumption|]). split; [|auto]. pose proof (last_main p t' _ (mv_tree _ _ _ _ _ _ _ _ M') (mv_link _ _ _ _ _ _ _ _ M')) as X. rewrite last_last in X. apply X. rewrite app_length, V4. cbn [length]. lia.
Qed.
(*@E
Example C91_first_ex : map (fun k => match mine_search k Debug addrA txh 0 1597925000 fresh with (t', Ok true) => match mc_get_last_block (t_main t') with Ok (Some b) => Some (nth 31 (bi_pow (get_info b)) 0) | _ => None end | _ => None end) [1; 2; 3; 9]%nat =
  [None; Some 1; Some 1; Some 1].
Proof. vm_compute. reflexivity. Qed.
@*)
(*@T C91, fees: the fee credited for a block need not be the fee the block carries. *)
Lemma p_C91_fee_refuted : exists w x t ts fee root i l amount, mining Debug w x 0 INCEPTION_TIMESTAMP t /\ INCEPTION_TIMESTAMP <= ts /\
  w <> ROOT_PUBLIC_ADDRESS /\ let t' := fst (mine_search 9 Debug w x 0 ts t) in
  snd (mine_search 9 Debug w x 0 ts t) = Ok true /\ mc_get_last_block (t_main t') = Ok (Some (TxBlock fee root i l)) /\
  t_get_amount w t' = Ok amount /\ amount < 25000000000000000 + fee.
Proof.
  assert (X : match mc_get_last_block (t_main (fst (mine_search 9 Debug addrA txh 0 1597924801 fresh))) with Ok (Some (TxBlock fee _ _ _)) => fee =? 125000 | _ => false end = true)
    by (vm_compute; reflexivity).
  destruct (mc_get_last_block (t_main (fst (mine_search 9 Debug addrA txh 0 1597924801 fresh)))) as [[[fee root i l|i|i r]|]|e| |] eqn:E; try discriminate X.
  apply N.eqb_eq in X. subst fee.
  exists addrA, txh, fresh, 1597924801, 125000, root, i, l, 25000000000062500. split; [apply mining_start; vm_compute; reflexivity|].
  split; [discriminate|]. split; [discriminate|]. cbv zeta. split; [vm_compute; reflexivity|]. split; [exact E|]. split; [vm_compute; reflexivity|]. reflexivity.
Qed.
