(** Proofs of the statements in P_Prog.v. *)
From Coq Require Import Lia ZifyBool ZifyNat ZifyN.
From Verif Require Import Base Sha256 Merkle Tools Transaction Block Sled Chain Tree Miner Sender Spec Reach LedgerSpec LiveSpec CrashSpec MinerSpec ProgSpec Demo.
From Verif Require Import BaseFacts ToolsFacts MerkleFacts DiffFacts CodecFacts SledFacts ChainFacts TreeFacts DerivFacts CrashFacts LedgerFacts CodecProps MainProps LedgerProps LiveProps SupplyProps CrashProps StoreProps MinerProps DminerProps.

Local Strategy 1000 [u256_add u256_sub u256_mul sled_get sled_commit recalculate_difficulty check_pow].

(** ** One block of the main miner, over any tree *)
Definition holds_tx (x : bytes) (b : block) : Prop := match b with TxBlock _ _ _ l => l = [x] | SummBlock _ _ => bi_height (get_info b) mod 1000000 = 0 | DerivBlock _ => False end.
Definition same_txs (t t' : bct) : Prop := forall h, mc_get_transaction_raw h (t_main t') = mc_get_transaction_raw h (t_main t).
Lemma mine_try_gen p w x nonce ts t n L f g : reachable emission_only p n t -> few (n + 4) -> tree_inv t L -> chained (main_link p) L ->
  bi_timestamp (get_info (last L genesis)) <= ts -> amounts t f -> gases t g -> is_array 33 w -> w <> ROOT_PUBLIC_ADDRESS -> is_array 32 x -> u64_ok ts ->
  N.of_nat (length L) + 1 < 2 ^ 256 ->
  (N.of_nat (length L) mod 1000000 <> 0 -> PAY <= f ROOT_PUBLIC_ADDRESS) -> f w + PAY + 16000000 < 2 ^ 256 ->
  mine_try p w x nonce ts t = (t, Ok false) \/
  exists t' m b, mine_try p w x nonce ts t = (t', Ok true) /\ (m <= 4)%nat /\ reachable emission_only p (m + n) t' /\ tree_inv t' (L ++ [b]) /\ chained (main_link p) (L ++ [b]) /\
    bi_timestamp (get_info b) = ts /\ saved (t_main t') /\ t_derivs t' = t_derivs t /\ t_closed t' = t_closed t /\ gases t' g /\
    let f1 := if N.of_nat (length L) mod 1000000 =? 0 then upd f ROOT_PUBLIC_ADDRESS CYCLE else f in
    amounts t' (upd (upd f1 ROOT_PUBLIC_ADDRESS (f1 ROOT_PUBLIC_ADDRESS - PAY)) w (f1 w + PAY + fee_part (last L genesis) b)) /\
    fee_part (last L genesis) b <= 16000000 /\ holds_tx x b /\ same_txs t t'.
Proof.
  intros V1 Hfew V3 V5 Hts V7 Vg Hw Hroot Hx Hu Hsize Hpay Hcap.
  assert (V1' : reachable no_raw_main p n t) by (exact (reach_mono _ _ _ _ _ (fun o (H : emission_only o) => proj1 H) V1)).
  assert (Hfew0 : few n) by (unfold few in *; lia).
  pose proof (last_main p t L V3 V5 ltac:(lia)) as Hlast. destruct (tree_last_height t L V3) as [Hh Hwf]. pose proof (mi_height _ _ (ti_main _ _ V3)) as Hlen.
  destruct (fee_after_bound _ Hwf) as [Hfb Hfee].
  assert (Hnext : u256_add (bi_height (get_info (last L genesis))) 1 = Ok (mc_height (t_main t))).
  { unfold u256_add. destruct (N.ltb_spec (bi_height (get_info (last L genesis)) + 1) (2 ^ 256)); [rewrite Hh; reflexivity|lia]. }
  unfold mine_try. rewrite Hlast. cbn [unwrap bind unwrap_opt]. rewrite Hnext. cbn [bind].
  change BLOCKS_PER_EPOCH with 1000000. set (txs := if mc_height (t_main t) mod 1000000 =? 0 then [] else [x]).
  set (lst := last L genesis) in *. set (pow := height_key nonce) in *. cbv beta iota zeta.
  assert (Htx : Forall (is_array 32) txs) by (unfold txs; destruct (_ =? 0); repeat constructor; apply Hx).
  assert (Hpow : is_array 32 pow) by (split; [apply height_key_length|apply to_be_ok]).
  pose proof (p_C78_emission_decision p n t pow w txs ts (mroot txs) V1' Hfew0 Hpow Hw Htx Hu ltac:(apply mroot_iff; reflexivity)) as (prev & Hprev & D).
  rewrite Hlast in Hprev. injection Hprev as <-. cbv zeta in D. destruct D as (_ & _ & _ & _ & D).
  rewrite check_pow_eq. cbn [bind]. pose proof (block_info_wf _ Hwf) as (_ & _ & _ & _ & [_ Hdo] & _). fold lst in Hdo.
  destruct (N.leb_spec (count_leading_zeros (bi_difficulty (get_info lst))) (count_leading_zeros (sha256 (block_hash lst ++ mroot txs ++ pow)))) as [Hwk|Hwk]; cbn [negb]; [right|left; reflexivity].
  destruct (D) as (b & Hb).
  { unfold work. rewrite !clz_spec in Hwk by (try exact Hdo; apply sha256_array). exact Hwk. }
  { intros _. lia. }
  { unfold txs, mc_get_height. destruct (N.eqb_spec (mc_height (t_main t) mod 1000000) 0); split; intros; congruence. }
  clear D. destruct (t_emmit_new_main_block p pow w txs ts t) as [t1 r] eqn:E1. cbn [snd] in Hb. subst r. cbn [and_then].
  pose proof (emit_main_tree p t L pow w txs ts t1 (Ok b) V3 ltac:(lia) Hpow Hw Htx Hu E1) as (M1 & M2 & M3 & M4 & _ & _ & M5 & M6 & M7).
  pose proof (reachable_ledgers _ _ _ _ V1 Hfew0) as Hled. pose proof (emit_amounts b t f Hled V7) as A1. rewrite <- M7 in A1.
  assert (Ag1 : gases t1 g) by (intros a; rewrite <- (Vg a), M7; destruct b; reflexivity).
  pose proof (emit_main_derivs p pow w txs ts t) as [Md1 Md2]. rewrite E1 in Md1, Md2. cbn [fst] in Md1, Md2.
  assert (R1 : reachable emission_only p (S n) t1).
  { pose proof (reach_call emission_only p n t (OEmitMain pow w txs ts) V1) as R. cbn [step ret_block fst] in R. rewrite E1 in R. apply R; [repeat split; try assumption; apply Hpow||apply Hw|split; exact I]. }
  assert (F1 : few (S n)) by (unfold few in *; lia).
  set (summ := N.of_nat (length L) mod 1000000 =? 0).
  set (f1 := if summ then upd f ROOT_PUBLIC_ADDRESS CYCLE else f).
  assert (Hkind : txs = (if summ then [] else [x]) /\ (match b with SummBlock _ _ => upd f ROOT_PUBLIC_ADDRESS CYCLE | _ => f end) = f1 /\
    fee_part lst b = (if summ then 0 else fee_after lst)).
  { rewrite Hlen in M5. unfold main_link in M1. cbv zeta in M1. rewrite M5 in M1. unfold txs. rewrite Hlen. unfold f1, summ.
    destruct b as [fe rt i l|i|i rt]; [|contradiction|].
    - destruct M1 as (_ & _ & _ & Hm & _). destruct (N.eqb_spec (N.of_nat (length L) mod 1000000) 0); [contradiction|]. auto.
    - destruct M1 as (Hm & _). rewrite Hm. auto. }
  destruct Hkind as (K1 & K2 & K3). rewrite K2 in A1.
  assert (K1' : txs = if mc_height (t_main t) mod 1000000 =? 0 then [] else [x]) by reflexivity.
  set (f2 := moved f1 ROOT_PUBLIC_ADDRESS w PAY). set (f3 := upd f2 w (f2 w + fee_part lst b)).
  assert (Hne : L <> []) by (eapply tree_inv_ne, V3).
  assert (Hrw : bytes_eqb ROOT_PUBLIC_ADDRESS w = false) by (apply bytes_eqb_neq; congruence).
  assert (Q1 : f1 w = f w) by (unfold f1; destruct summ; [apply upd_other, Hroot|reflexivity]).
  assert (Q2 : PAY <= f1 ROOT_PUBLIC_ADDRESS).
  { unfold f1, summ. destruct (N.eqb_spec (N.of_nat (length L) mod 1000000) 0) as [X|X]; [rewrite upd_same; unfold PAY, CYCLE; lia|exact (Hpay X)]. }
  assert (Hfp : fee_part lst b <= 16000000) by (rewrite K3; destruct summ; lia).
  rewrite pay_eq.
  pose proof (send_amount_eff ROOT_PUBLIC_ADDRESS w PAY t1 f1 (lo_summary _ (reachable_ledgers _ _ _ _ R1 F1)) A1) as S2.
  assert (R2 : reachable emission_only p (S (S n)) (fst (t_send_amount ROOT_PUBLIC_ADDRESS w PAY t1))).
  { apply (reach_call emission_only p (S n) t1 (OSendAmount ROOT_PUBLIC_ADDRESS w PAY) R1); [|split; exact I].
    split; [|split; [apply Hw|reflexivity]]. repeat constructor; reflexivity. }
  destruct (t_send_amount ROOT_PUBLIC_ADDRESS w PAY t1) as [t2 r2]. cbn [fst] in R2. destruct S2 as [T2 S2]. rewrite Hrw in S2.
  destruct (N.leb_spec PAY (f1 ROOT_PUBLIC_ADDRESS)); [|lia]. destruct (N.ltb_spec (f1 w + PAY) (2 ^ 256)); [|lia]. cbn [andb] in S2. destruct S2 as [-> A2].
  cbn [and_then]. rewrite Hfee. cbn [and_then].
  assert (Hf2w : f2 w = f1 w + PAY) by (unfold f2, moved; rewrite Hrw; apply upd_same).
  assert (Hfees : exists t3 m, pay_fees w (fee_after lst) txs t2 = (t3, Ok tt) /\ (m <= 1)%nat /\ reachable emission_only p (m + S (S n)) t3 /\ amounts t3 f3 /\
     t_main t3 = t_main t2 /\ t_gas t3 = t_gas t2 /\ t_derivs t3 = t_derivs t2 /\ t_closed t3 = t_closed t2).
  { assert (F2 : few (S (S n))) by (unfold few in *; lia). rewrite K1. unfold f3. rewrite K3. destruct summ.
    - exists t2, 0%nat. split; [reflexivity|]. split; [lia|]. split; [exact R2|]. split; [|repeat split].
      intros a. rewrite (A2 a). f_equal. fold f2. unfold upd. destruct (bytes_eqb a w) eqn:X; [apply bytes_eqb_eq in X; subst a; lia|reflexivity].
    - cbn [pay_fees]. pose proof (add_amount_eff w (fee_after lst) t2 f2 (lo_summary _ (reachable_ledgers _ _ _ _ R2 F2)) A2) as S3.
      assert (R3 : reachable emission_only p (S (S (S n))) (fst (t_add_amount w (fee_after lst) t2))).
      { apply (reach_call emission_only p _ t2 (OAddAmount w (fee_after lst)) R2); [|split; exact I]. split; [apply Hw|]. unfold u256_ok. lia. }
      destruct (t_add_amount w (fee_after lst) t2) as [t3 r3]. cbn [fst] in R3. destruct S3 as [T3 S3].
      destruct (N.ltb_spec (f2 w + fee_after lst) (2 ^ 256)); [|lia]. destruct S3 as [-> S3]. exists t3, 1%nat. cbn [and_then].
      split; [reflexivity|]. split; [lia|]. split; [exact R3|]. split; [exact S3|]. rewrite T3. repeat split. }
  destruct Hfees as (t3 & m & -> & Hm & R3 & A3 & T3 & T3g & T3d & T3c). cbn [and_then].
  exists (t_flush t3), (S (m + 2)), b. split; [reflexivity|]. split; [lia|]. split.
  { replace (S (m + 2) + n)%nat with (S (m + S (S n))) by lia. apply (reach_call emission_only p _ t3 OFlush R3); [exact I|split; exact I]. }
  split; [apply (tree_inv_ext t1); try (cbn [t_flush t_main]; rewrite T3, T2; reflexivity); exact M3|].
  split; [eapply chained_snoc; [exact V5|exact Hne|exact M1]|]. split; [exact M4|].
  split; [unfold saved; cbn [t_flush t_main]; rewrite mc_cfg_flush; reflexivity|].
  split; [cbn [t_flush t_derivs]; rewrite T3d, T2; exact Md1|]. split; [cbn [t_flush t_closed]; rewrite T3c, T2; exact Md2|].
  split. { intros a. rewrite <- (Ag1 a). unfold t_get_gas. replace (t_gas t1) with (t_gas t3) by (rewrite T3g, T2; reflexivity). reflexivity. }
  split. 2:{ split; [exact Hfp|]. split.
    - unfold holds_tx. rewrite <- M5 in K1'. unfold main_link in M1. destruct b as [fe rt i l|i|i rt]; [|contradiction|apply M1]. rewrite M6, K1'. destruct M1 as (_ & _ & _ & Hmm & _).
      destruct (N.eqb_spec (bi_height (get_info (TxBlock fe rt i l)) mod 1000000) 0); [contradiction|reflexivity].
    - intros q. unfold mc_get_transaction_raw. cbn [t_flush t_main]. rewrite T3, T2, M7. destruct b; reflexivity. }
  apply (amounts_ext _ f3).
  { intros a. fold summ f1. unfold f3. destruct (bytes_eqb a w) eqn:X; [apply bytes_eqb_eq in X; subst a; rewrite !upd_same, Hf2w; reflexivity|].
    apply bytes_eqb_neq in X. rewrite !(upd_other _ w) by exact X. unfold f2, moved. rewrite Hrw. apply upd_other, X. }
  intros a. rewrite <- (A3 a). reflexivity.
Qed.

(** ** The chain of the wallet: open, or on disk *)
Definition dmem (p : profile) (L : list block) (w : bytes) (B : list basic_info) (c : deriv_chain) : Prop :=
  deriv_inv p true L w c B /\ (B = [] -> file_cur (dc_cfg c) = None) /\ (B <> [] -> dsaved c).
Definition ddisk (p : profile) (L : list block) (w : bytes) (B : list basic_info) (d : deriv_disk) : Prop :=
  refs_ok (dd_refs d) /\ (B = [] -> file_cur (dd_cfg d) = None) /\
  (B <> [] -> exists df g, is_array 32 df /\ is_array 32 g /\ file_cur (dd_cfg d) = Some (height_key (N.of_nat (length B)) ++ df ++ g) /\
     (exists m, In m L /\ block_hash m = g) /\ chain_ok p true L w (dd_blocks d) g B).
Definition dstate (p : profile) (L : list block) (w : bytes) (B : list basic_info) (t : bct) : Prop :=
  (exists c, t_derivs t = [(w, c)] /\ dmem p L w B c) \/ (t_derivs t = [] /\ ddisk p L w B (disk_of w t)).
Lemma dstate_mono p L L' w B t t' : dstate p L w B t -> (forall m, In m L -> In m L') -> t_derivs t' = t_derivs t -> t_closed t' = t_closed t -> dstate p L' w B t'.
Proof.
  intros H Hin E1 E2. unfold dstate, disk_of. rewrite E1, E2. destruct H as [(c & Ec & H1 & H2)|(Ed & H1 & H2 & H3)]; [left|right].
  - exists c. split; [exact Ec|]. split; [eapply deriv_inv_mono; eassumption|exact H2].
  - split; [exact Ed|]. split; [exact H1|]. split; [exact H2|]. intros X. destruct (H3 X) as (df & g & Y1 & Y2 & Y3 & (m & Y4 & Y5) & Y6).
    exists df, g. split; [exact Y1|]. split; [exact Y2|]. split; [exact Y3|]. split; [exists m; auto|]. eapply chain_ok_ext; [exact Y6|reflexivity|exact Hin].
Qed.
Lemma ddisk_close p L w B c : dmem p L w B c -> ddisk p L w B (dc_close c).
Proof.
  intros ([W1 W2 [W3 W3'] W4 W5 W6] & H2 & H3). split; [exact W5|]. split.
  - intros X. cbn [dc_close dd_cfg]. rewrite file_cur_settle. exact (H2 X).
  - intros X. exists (dc_difficulty c), (dc_genesis c). split; [exact W4|]. split; [exact W3|]. split; [cbn [dc_close dd_cfg]; rewrite file_cur_settle, <- W1; exact (H3 X)|].
    split; [exact W3'|]. eapply chain_ok_ext; [exact W2|reflexivity|auto].
Qed.
Lemma ddisk_open p L w B d h : ddisk p L w B d -> N.of_nat (length B) < 2 ^ 256 -> is_array 32 h -> (exists m, In m L /\ block_hash m = h) ->
  exists c, dc_new d h = Ok c /\ dmem p L w B c.
Proof.
  intros (H1 & H2 & H3) Hlen Hh Hm. destruct B as [|x B].
  - eexists. split; [apply dc_new_absent, H2, eq_refl|]. split; [|split; [intros _; exact (H2 eq_refl)|intros X; contradiction]].
    split; cbn [dc_height dc_blocks dc_genesis dc_difficulty dc_refs dc_cfg]; [reflexivity|apply chain_ok_nil|auto|split; [reflexivity|repeat constructor; reflexivity]|exact H1|left; exact (H2 eq_refl)].
  - destruct (H3 ltac:(discriminate)) as (df & g & Y1 & Y2 & Y3 & Y4 & Y6). eexists. split; [apply (dc_new_cfg d h _ df g Hlen Y1 Y2 Y3)|].
    split; [|split; [intros X; discriminate X|intros _; exact Y3]].
    split; cbn [dc_height dc_blocks dc_genesis dc_difficulty dc_refs dc_cfg]; [reflexivity|exact Y6|auto|exact Y1|exact H1|right].
    exists (N.of_nat (length (x :: B))). split; [lia|]. exists df. auto.
Qed.
Lemma dstate_get p L w B t : dstate p L w B t -> tree_inv t L -> chained (main_link p) L -> N.of_nat (length L) < 2 ^ 256 -> N.of_nat (length B) < 2 ^ 256 ->
  exists t' c, t_get_derivative_chain w t = (t', Ok c) /\ t_derivs t' = [(w, c)] /\ dmem p L w B c /\ t' = with_derivs t (t_derivs t').
Proof.
  intros H HL Hk HlenL HlenB. unfold t_get_derivative_chain. destruct H as [(c & Ec & Hc)|(Ed & Hd)].
  - exists t, c. rewrite Ec, assoc_single. split; [reflexivity|]. split; [reflexivity|]. split; [exact Hc|]. rewrite <- Ec. destruct t; reflexivity.
  - destruct (ddisk_open p L w B _ (block_hash (last L genesis)) Hd HlenB (sha_ok _) (ex_intro _ _ (conj (last_in L genesis (tree_inv_ne _ _ HL)) eq_refl))) as (c & Hc & Hm).
    exists (with_derivs t [(w, c)]), c. rewrite Ed. cbn [assoc_get]. rewrite (last_main p t L HL Hk HlenL). cbn [bind unwrap_opt]. fold (disk_of w t). rewrite Hc. cbn [assoc_set].
    split; [reflexivity|]. split; [reflexivity|]. split; [exact Hm|reflexivity].
Qed.

Lemma find_in t L h m : tree_inv t L -> N.of_nat (length L) < 2 ^ 256 -> mc_find_by_hash h (t_main t) = Ok (Some m) -> In m L.
Proof.
  intros HL Hlen E. unfold mc_find_by_hash in E. pose proof (main_find_raw_hash _ L h (ti_main _ _ HL) Hlen) as H.
  destruct (mc_find_raw_by_hash h (t_main t)) as [[d|]|e| |]; cbn [bind] in E; try discriminate E.
  destruct H as (i & b & Hi & -> & _). pose proof (nthN_in _ _ _ Hi) as Hin.
  destruct (tree_readable t L i b HL Hlen Hi) as [Hr|(x & ->)].
  - rewrite (readable_decode _ Hr) in E. injection E as <-. exact Hin.
  - unfold mc_decode in E. rewrite deserialize_deriv in E. discriminate E.
Qed.

Lemma mine_deriv_try_gen p w nonce ts now t n L B g f c : reachable emission_only p n t -> few (n + 4) -> tree_inv t L -> chained (main_link p) L -> N.of_nat (length L) < 2 ^ 256 -> N.of_nat (length B) + 1 < 2 ^ 256 ->
  t_derivs t = [(w, c)] -> dmem p L w B c -> (forall b, In b L -> bi_timestamp (get_info b) <= now) -> (forall x, In x B -> bi_timestamp x <= now) -> now <= ts ->
  gases t g -> amounts t f -> is_array 33 w -> u64_ok ts -> g w + PAY < 2 ^ 256 ->
  mine_deriv_try p w nonce ts t = (t, Ok false) \/
  exists t' i c', mine_deriv_try p w nonce ts t = (t', Ok true) /\ reachable emission_only p (4 + n) t' /\ tree_inv t' L /\ t_derivs t' = [(w, c')] /\ dmem p L w (B ++ [i]) c' /\
    bi_timestamp i = ts /\ saved (t_main t') /\ gases t' (upd g w (g w + PAY)) /\ amounts t' f.
Proof.
  intros V1 Hfew4 V3 Vk HlenL HlenB V4 (V5 & Vn & Vs) VL V8 Hts V9 V11 Hw Hu Hcap.
  assert (Hfew : few n) by (unfold few in *; lia). set (pow := height_key nonce).
  assert (Hpow : is_array 32 pow) by (split; [apply height_key_length|apply to_be_ok]).
  assert (Hopen : assoc_get w (t_derivs t) = Some c) by (rewrite V4; apply assoc_single).
  assert (Hget : t_get_derivative_chain w t = (t, Ok c)) by (unfold t_get_derivative_chain; rewrite Hopen; reflexivity).
  destruct (p_C79_derivative_emission_decision p n t pow w ts V1 Hfew Hpow Hw Hu) as (c0 & h & d & pts & E0 & P & D1 & D2 & D3).
  rewrite Hget in E0. cbn [snd] in E0. injection E0 as <-.
  assert (Hpre : (let! last := unwrap (dc_get_last_block c) in
        match last with
        | Some b => Ok (block_hash b, bi_difficulty (get_info b))
        | None =>
            let! g := unwrap (mc_find_by_hash (dc_genesis c) (t_main t)) in
            let! b := unwrap_opt g in
            Ok (block_hash b, BEGINNING_DIFFICULTY)
        end) = Ok (h, d) /\ bytes_ok d /\ pts <= now).
  { pose proof (deriv_last _ _ _ _ _ _ V5) as Hl. destruct P as [(i & E & -> & -> & ->)|(E & m & Em & -> & _ & -> & ->)].
    - rewrite E. cbn [unwrap bind]. split; [reflexivity|]. rewrite E in Hl. destruct B as [|x B]; [discriminate Hl|]. injection Hl as ->.
      assert (Hin : In (last (x :: B) x) (x :: B)) by (apply last_in; discriminate). split; [|apply V8, Hin].
      pose proof (co_wf _ _ _ _ _ _ _ (di_chain _ _ _ _ _ _ V5)) as W. rewrite Forall_forall in W. apply (W _ Hin).
    - rewrite E, Em. cbn [unwrap bind unwrap_opt]. split; [reflexivity|]. split; [repeat constructor; reflexivity|]. apply VL. eapply find_in; eassumption. }
  destruct Hpre as (Hpre & Hd & Hpts).
  unfold mine_deriv_try. rewrite Hopen. cbv zeta. rewrite Hpre. cbn [bind]. rewrite check_pow_eq, mroot_nil. fold pow.
  destruct (N.leb_spec (count_leading_zeros d) (count_leading_zeros (sha256 (h ++ ff32 ++ pow)))) as [Hwk|Hwk]; [right|left; reflexivity].
  destruct D3 as (b & Hb); [unfold work; rewrite !clz_spec in Hwk by (try exact Hd; apply sha256_array); exact Hwk|intros _; lia|]. clear D1 D2.
  destruct (t_emmit_new_derivative_block p pow w ts t) as [t1 r1] eqn:E1. cbn [snd] in Hb. subst r1. cbn [and_then].
  destruct (linked_derivs p n t V1 Hfew) as (L0 & HL & Hlen & _ & HD). assert (L0 = L) as -> by (eapply tree_inv_unique; [exact HL|exact V3|unfold few in Hfew; lia]). clear HL Hlen.
  destruct (emit_deriv_spec p true L n t pow w ts t t1 (Ok b) V3 HlenL HD ltac:(unfold few in Hfew; lia) Hpow Hw Hu ltac:(rewrite Hget; reflexivity) E1)
    as (i & c1 & B1 & -> & G1 & _ & HB1 & _ & G4 & G5 & G6 & G7 & _ & G8).
  rewrite Hget in G1. injection G1 as <-.
  assert (R1 : reachable emission_only p (S n) t1).
  { pose proof (reach_call emission_only p n t (OEmitDeriv pow w ts) V1) as R. cbn [step ret_block fst] in R. rewrite E1 in R. apply R; [repeat split; try assumption; apply Hpow||apply Hw|split; exact I]. }
  pose proof (emit_deriv_ledgers p pow w ts t) as (S1 & S2 & _). rewrite E1 in S1, S2. cbn [fst] in S1, S2.
  pose proof (gases_same t t1 g S2 V9) as A1.
  assert (F1 : few (S n)) by (unfold few in *; lia).
  pose proof (add_gas_eff w PAY t1 g (lo_gas _ (reachable_ledgers _ _ _ _ R1 F1)) A1) as S3.
  assert (R2 : reachable emission_only p (S (S n)) (fst (t_add_gas w PAY t1))).
  { apply (reach_call emission_only p (S n) t1 (OAddGas w PAY) R1); [|split; exact I]. split; [apply Hw|reflexivity]. }
  rewrite pay_eq. destruct (t_add_gas w PAY t1) as [t2 r2]. cbn [fst] in R2. destruct S3 as [T2 S3].
  destruct (N.ltb_spec (g w + PAY) (2 ^ 256)) as [_|Hbad]; [|lia]. destruct S3 as [-> A2]. cbn [and_then].
  assert (Ed2 : t_derivs t2 = [(w, dc_appended i c)]) by (rewrite T2; cbn [with_gas t_derivs]; rewrite G8; cbn [with_derivs t_derivs]; rewrite V4; apply set_single).
  assert (Em2 : t_main t2 = t_main t) by (rewrite T2; cbn [with_gas t_main]; rewrite G8; reflexivity).
  assert (Es2 : t_summary t2 = t_summary t) by (rewrite T2; cbn [with_gas t_summary]; exact S1).
  pose proof (reach_call emission_only p (S (S n)) t2 (ODerivFlush w) R2 Hw (conj I I)) as R3.
  cbn [step] in R3 |- *. rewrite Ed2, assoc_single in R3 |- *. cbn [fst] in R3. cbn [and_then].
  rewrite set_single in R3 |- *. set (t3 := with_derivs t2 [(w, dc_flush (dc_appended i c))]) in *.
  pose proof (reach_call emission_only p _ t3 OFlush R3 I (conj I I)) as R4. cbn [step fst] in R4.
  assert (HB' : deriv_inv p true L w (dc_flush (dc_appended i c)) (B ++ [i])).
  { pose proof (di_height _ _ _ _ _ _ V5) as Hh.
    apply deriv_flush, deriv_append; [exact V5|exact G5|exact G6|lia|]. intros _.
    pose proof (deriv_last _ _ _ _ _ _ V5) as Q1. pose proof (deriv_last _ _ _ _ _ _ HB1) as Q2.
    rewrite Q1 in Q2. injection Q2 as Q2. destruct G4 as [G4 G4']. split; [exact G4|]. destruct B as [|x B]; destruct B1 as [|x1 B1]; try discriminate Q2; [exact G4'|].
    assert (Q3 : last (x :: B) x = last (x1 :: B1) x1) by congruence. rewrite Q3. exact G4'. }
  exists (t_flush t3), i, (dc_flush (dc_appended i c)). split; [reflexivity|]. split; [exact R4|].
  split; [apply (tree_inv_ext t); try (cbn [t_flush t_main t3 with_derivs]; rewrite Em2; reflexivity); exact V3|]. split; [reflexivity|].
  split. { split; [exact HB'|]. split; [intros X; destruct B; discriminate X|]. intros _. exact (dc_cfg_flush (dc_appended i c)). }
  split; [exact G7|]. split; [unfold saved; cbn [t_flush t_main]; rewrite mc_cfg_flush; reflexivity|].
  split; [exact A2|]. intros a. rewrite <- (V11 a). unfold t_get_amount. rewrite <- Es2. reflexivity.
Qed.

(** ** Invariant of the programs *)
Record pinv (p : profile) (w : bytes) (k d s c r : nat) (now : N) (t : bct) (n : nat) (L : list block) (B : list basic_info) (f g : bytes -> N) : Prop := {
  pv_reach : reachable emission_only p n t;
  pv_calls : (n <= 5 * r)%nat /\ (k <= r)%nat /\ (d <= r)%nat /\ (s <= r)%nat /\ (c <= s)%nat;
  pv_tree : tree_inv t L;
  pv_len : length L = S k;
  pv_link : chained (main_link p) L;
  pv_time : forall b, In b L -> bi_timestamp (get_info b) <= now;
  pv_deriv : dstate p L w B t;
  pv_dlen : length B = d;
  pv_dtime : forall x, In x B -> bi_timestamp x <= now;
  pv_amounts : amounts t f;
  pv_earned : earned L <= N.of_nat k * (PAY + 16000000);
  pv_wallet : f w + 228 * N.of_nat s = earned L;
  pv_root : f ROOT_PUBLIC_ADDRESS + PAY * payments (N.of_nat (S k)) = CYCLE + 228 * N.of_nat c;
  pv_others : forall a, a <> w -> a <> ROOT_PUBLIC_ADDRESS -> f a = 0;
  pv_gases : gases t g;
  pv_gas : g w + GAS_228 * N.of_nat s = PAY * N.of_nat d;
  pv_nogas : forall a, a <> w -> g a = 0;
  pv_saved : (k + d <> 0)%nat -> saved (t_main t)
}.
Lemma pinv_start p w t : w <> ROOT_PUBLIC_ADDRESS -> t_new disk_empty = Ok t -> pinv p w 0 0 0 0 0 INCEPTION_TIMESTAMP t 0 [genesis] [] (upd (fun _ => 0) ROOT_PUBLIC_ADDRESS CYCLE) (fun _ => 0).
Proof.
  intros Hw E. pose proof (minv_start p w t E) as M.
  assert (Et : t = fresh). { assert (X : t_new disk_empty = Ok fresh) by (vm_compute; reflexivity). rewrite X in E. injection E as <-. reflexivity. }
  assert (R : reachable emission_only p 0 t) by (apply reach_open, E). split.
  - exact R.
  - lia.
  - exact (mv_tree _ _ _ _ _ _ _ _ M).
  - reflexivity.
  - constructor.
  - intros b [<-|[]]. rewrite genesis_time. lia.
  - right. subst t. split; [vm_compute; reflexivity|]. assert (Hd : disk_of w fresh = deriv_disk_empty) by (vm_compute; reflexivity). rewrite Hd.
    split; [intros h v X; discriminate X|]. split; [reflexivity|]. intros X. contradiction.
  - reflexivity.
  - intros x [].
  - exact (mv_amounts _ _ _ _ _ _ _ _ M).
  - cbn. lia.
  - rewrite upd_other by exact Hw. reflexivity.
  - rewrite upd_same. reflexivity.
  - intros a _ Ha. apply upd_other, Ha.
  - apply gases_of; [apply (reachable_ledgers _ _ _ _ R); reflexivity|]. intros a. subst t. vm_compute. reflexivity.
  - reflexivity.
  - reflexivity.
  - intros X. contradiction.
Qed.
Lemma pinv_later p w k d s c r now ts t n L B f g : pinv p w k d s c r now t n L B f g -> now <= ts -> pinv p w k d s c (S r) ts t n L B f g.
Proof.
  intros [] H. split; try assumption; [lia| |].
  - intros b Hb. specialize (pv_time0 b Hb). lia.
  - intros b Hb. specialize (pv_dtime0 b Hb). lia.
Qed.
Lemma pinv_try p w x nonce ts k d s c r now t n L B f g : pinv p w k d s c r now t n L B f g -> is_array 33 w -> w <> ROOT_PUBLIC_ADDRESS -> is_array 32 x -> N.of_nat r < 2 ^ 64 -> now <= ts -> u64_ok ts ->
  mine_try p w x nonce ts t = (t, Ok false) \/
  exists t' n' b f', mine_try p w x nonce ts t = (t', Ok true) /\ (n' <= n + 4)%nat /\ holds_tx x b /\ same_txs t t' /\
    forall r', (n' <= 5 * r')%nat -> (S k <= r')%nat -> (r <= r')%nat -> pinv p w (S k) d s (if N.of_nat (S k) mod 1000000 =? 0 then 0%nat else c) r' ts t' n' (L ++ [b]) B f' g.
Proof.
  intros [V1 V2 V3 V4 V5 V6 V7 V8 V9 V10 V11 V12 V13 V14 V15 V16 V17 V18] Hw Hroot Hx Hr Hts Hu.
  assert (Hne : L <> []) by (intros ->; discriminate V4).
  assert (Hp : payments (N.of_nat (S (S k))) = if N.of_nat (S k) mod 1000000 =? 0 then 1 else payments (N.of_nat (S k)) + 1).
  { replace (N.of_nat (S (S k))) with (N.of_nat (S k) + 1) by lia. apply payments_next. lia. }
  pose proof (payments_bound (N.of_nat (S (S k)))) as Hb.
  assert (Hcap : f w + PAY + 16000000 < 2 ^ 256) by (unfold PAY in *; nia).
  destruct (mine_try_gen p w x nonce ts t n L f g V1 ltac:(unfold few; lia) V3 V5 ltac:(specialize (V6 _ (last_in L genesis Hne)); lia) V10 V15 Hw Hroot Hx Hu ltac:(lia)) as [E|(t' & m & b & E & Hm & R & T & K & Hb1 & Sv & D1 & D2 & G & A & Hfp & Htx & Hst)].
  { rewrite V4. destruct (N.eqb_spec (N.of_nat (S k) mod 1000000) 0); [intros; contradiction|]. intros _. unfold PAY, CYCLE in *. nia. }
  { exact Hcap. }
  { left. exact E. }
  right. cbv zeta in A. rewrite V4 in A. pose proof (earned_snoc L b genesis Hne) as He. set (fp := fee_part (last L genesis) b) in *.
  set (f1 := if N.of_nat (S k) mod 1000000 =? 0 then upd f ROOT_PUBLIC_ADDRESS CYCLE else f) in *.
  assert (Q1 : forall a, a <> ROOT_PUBLIC_ADDRESS -> f1 a = f a) by (intros a Ha; unfold f1; destruct (_ =? 0); [apply upd_other, Ha|reflexivity]).
  eexists t', (m + n)%nat, b, _. split; [exact E|]. split; [lia|]. split; [exact Htx|]. split; [exact Hst|]. intros r' Hr1 Hr2 Hr3. split.
  - exact R.
  - destruct (_ =? 0); lia.
  - exact T.
  - rewrite app_length, V4. cbn [length]. lia.
  - exact K.
  - intros b0 Hb0. apply in_app_or in Hb0 as [Hb0|[<-|[]]]; [specialize (V6 b0 Hb0); lia|lia].
  - eapply dstate_mono; [exact V7|intros q Hq; apply in_or_app; left; exact Hq|exact D1|exact D2].
  - exact V8.
  - intros y Hy. specialize (V9 y Hy). lia.
  - exact A.
  - rewrite He. lia.
  - rewrite upd_same, (Q1 w Hroot). lia.
  - rewrite upd_other by congruence. rewrite upd_same, Hp. unfold f1. destruct (N.of_nat (S k) mod 1000000 =? 0); [rewrite upd_same; unfold PAY, CYCLE; lia|]. unfold PAY, CYCLE in *. nia.
  - intros a Ha1 Ha2. rewrite !upd_other, Q1 by assumption. apply V14; assumption.
  - exact G.
  - exact V16.
  - exact V17.
  - intros _. exact Sv.
Qed.
Lemma pinv_search p w x tries : forall nonce ts k d s c r now t n L B f g, pinv p w k d s c r now t n L B f g -> is_array 33 w -> w <> ROOT_PUBLIC_ADDRESS -> is_array 32 x -> N.of_nat r < 2 ^ 64 -> now <= ts -> u64_ok ts ->
  mine_search tries p w x nonce ts t = (t, Ok false) \/
  exists t' n' b f', mine_search tries p w x nonce ts t = (t', Ok true) /\ (n' <= n + 4)%nat /\ holds_tx x b /\ same_txs t t' /\
    forall r', (n' <= 5 * r')%nat -> (S k <= r')%nat -> (r <= r')%nat -> pinv p w (S k) d s (if N.of_nat (S k) mod 1000000 =? 0 then 0%nat else c) r' ts t' n' (L ++ [b]) B f' g.
Proof.
  induction tries as [|tries IH]; intros nonce ts k d s c r now t n L B f g H Hw Hroot Hx Hr Hts Hu; cbn [mine_search]; [left; reflexivity|].
  destruct (nonce <? 2 ^ 256 - 1); [|left; reflexivity].
  destruct (pinv_try p w x nonce ts k d s c r now t n L B f g H Hw Hroot Hx Hr Hts Hu) as [->|(t' & n' & b & f' & -> & H')].
  - eapply IH; eassumption.
  - right. exists t', n', b, f'. auto.
Qed.

(** ** The derivative miner *)
Lemma pinv_open p w k d s c r now t n L B f g : pinv p w k d s c r now t n L B f g -> is_array 33 w -> N.of_nat r < 2 ^ 64 ->
  exists t' dc, t_get_derivative_chain w t = (t', Ok dc) /\ t_derivs t' = [(w, dc)] /\ dmem p L w B dc /\ reachable emission_only p (S n) t' /\ tree_inv t' L /\ amounts t' f /\ gases t' g /\
    t_main t' = t_main t.
Proof.
  intros [V1 V2 V3 V4 V5 V6 V7 V8 V9 V10 V11 V12 V13 V14 V15 V16 V17 V18] Hw Hr.
  destruct (dstate_get p L w B t V7 V3 V5 ltac:(lia) ltac:(lia)) as (t' & dc & G & D & M & E). exists t', dc.
  split; [exact G|]. split; [exact D|]. split; [exact M|].
  split. { pose proof (reach_call emission_only p n t (OGetDeriv w) V1 Hw (conj I I)) as R. cbn [step] in R. rewrite G in R. exact R. }
  split; [apply (tree_inv_main t); [exact V3|rewrite E; reflexivity]|].
  split; [apply (amounts_same t); [rewrite E; reflexivity|exact V10]|]. split; [apply (gases_same t); [rewrite E; reflexivity|exact V15]|rewrite E; reflexivity].
Qed.
Lemma deriv_search_gen p w ts now L B g f n tries : forall nonce t c, reachable emission_only p n t -> few (n + 4) -> tree_inv t L -> chained (main_link p) L -> N.of_nat (length L) < 2 ^ 256 -> N.of_nat (length B) + 1 < 2 ^ 256 ->
  t_derivs t = [(w, c)] -> dmem p L w B c -> (forall b, In b L -> bi_timestamp (get_info b) <= now) -> (forall x, In x B -> bi_timestamp x <= now) -> now <= ts ->
  gases t g -> amounts t f -> is_array 33 w -> u64_ok ts -> g w + PAY < 2 ^ 256 ->
  mine_deriv_search tries p w nonce ts t = (t, Ok false) \/
  exists t' i c', mine_deriv_search tries p w nonce ts t = (t', Ok true) /\ reachable emission_only p (4 + n) t' /\ tree_inv t' L /\ t_derivs t' = [(w, c')] /\ dmem p L w (B ++ [i]) c' /\
    bi_timestamp i = ts /\ saved (t_main t') /\ gases t' (upd g w (g w + PAY)) /\ amounts t' f.
Proof.
  induction tries as [|tries IH]; intros nonce t c H1 H2 H3 H4 H5 H6 H7 H8 H9 H10 H11 H12 H13 H14 H15 H16; cbn [mine_deriv_search]; [left; reflexivity|].
  destruct (nonce <? 2 ^ 256 - 1); [|left; reflexivity].
  destruct (mine_deriv_try_gen p w nonce ts now t n L B g f c H1 H2 H3 H4 H5 H6 H7 H8 H9 H10 H11 H12 H13 H14 H15 H16) as [->|(t' & i & c' & -> & H')].
  - eapply IH; eassumption.
  - right. exists t', i, c'. auto.
Qed.
Lemma pinv_deriv p w tries nonce ts k d s c r now t n L B f g : pinv p w k d s c r now t n L B f g -> is_array 33 w -> w <> ROOT_PUBLIC_ADDRESS -> N.of_nat r < 2 ^ 64 -> now <= ts -> u64_ok ts ->
  (exists t', mine_deriv_program tries p w nonce ts t = (t', Ok false) /\ pinv p w k d s c (S r) ts t' (S n) L B f g) \/
  exists t' n' i g', mine_deriv_program tries p w nonce ts t = (t', Ok true) /\ pinv p w k (S d) s c (S r) ts t' n' L (B ++ [i]) f g'.
Proof.
  intros H Hw Hroot Hr Hts Hu. destruct (pinv_open p w k d s c r now t n L B f g H Hw Hr) as (t1 & dc & G & D & M & R & T & A & Ag & Em).
  destruct H as [V1 V2 V3 V4 V5 V6 V7 V8 V9 V10 V11 V12 V13 V14 V15 V16 V17 V18].
  unfold mine_deriv_program. rewrite G. cbn [and_then].
  assert (Hcap : g w + PAY < 2 ^ 256) by (unfold PAY, GAS_228 in *; nia).
  destruct (deriv_search_gen p w ts now L B g f (S n) tries nonce t1 dc R ltac:(unfold few; lia) T V5 ltac:(lia) ltac:(lia) D M V6 V9 Hts Ag A Hw Hu Hcap) as [E|(t' & i & c' & E & R' & T' & D' & M' & Hi & Sv & Ag' & A')].
  - left. exists t1. split; [exact E|]. split; try assumption.
    + lia.
    + intros b Hb. specialize (V6 b Hb). lia.
    + left. exists dc. auto.
    + intros x Hx. specialize (V9 x Hx). lia.
    + intros X. rewrite Em. apply V18, X.
  - right. exists t', (4 + S n)%nat, i, (upd g w (g w + PAY)). split; [exact E|]. split; try assumption.
    + lia.
    + intros b Hb. specialize (V6 b Hb). lia.
    + left. exists c'. auto.
    + rewrite app_length, V8. cbn [length]. lia.
    + intros x Hx. apply in_app_or in Hx as [Hx|[<-|[]]]; [specialize (V9 x Hx); lia|lia].
    + rewrite upd_same. unfold PAY in *. lia.
    + intros a Ha. rewrite upd_other by exact Ha. apply V17, Ha.
    + intros _. exact Sv.
Qed.

(** ** The sender *)
Lemma show_ok w a t f g : amounts t f -> gases t g -> show_balances w a t = (t, Ok tt).
Proof. intros Hf Hg. unfold show_balances. rewrite (Hf w). cbn [and_then]. rewrite (Hg w). cbn [and_then]. rewrite (Hf a). reflexivity. Qed.
Lemma pinv_send E key p w ts k d s c r now t n L B f g : pinv p w k d s c r now t n L B f g -> is_array 33 w -> w <> ROOT_PUBLIC_ADDRESS -> N.of_nat r < 2 ^ 64 -> now <= ts -> u64_ok ts ->
  seckey_ok E key = true -> (forall h, is_array 64 (ecdsa_sign E h key)) ->
  if (g w <? GAS_228) || (f w <? fee_after (last L genesis) + 228) then send_228 E key w ts t = (t, Panic)
  else exists t' tx, tx_new E w ROOT_PUBLIC_ADDRESS ts 228 key None = Ok tx /\ send_228 E key w ts t = (t', Ok (tx_hash tx)) /\ is_array 32 (tx_hash tx) /\
    mc_get_transaction_raw (tx_hash tx) (t_main t') = Some (tx_dump tx) /\
    forall ts', ts <= ts' -> pinv p w k d (S s) (S c) (S r) ts' t' (S n) L B (moved f w ROOT_PUBLIC_ADDRESS 228) (upd g w (g w - GAS_228)).
Proof.
  intros [V1 V2 V3 V4 V5 V6 V7 V8 V9 V10 V11 V12 V13 V14 V15 V16 V17 V18] Hw Hroot Hr Hts Hu Hkey Hsig.
  assert (Hfew : few n) by (unfold few; lia). unfold send_228. rewrite (show_ok w _ t f g V10 V15). cbn [and_then].
  set (sg := ecdsa_sign E (sha256 (signed_bytes w ROOT_PUBLIC_ADDRESS ts 228 None)) key).
  set (tx := tx_new_signed w ROOT_PUBLIC_ADDRESS ts 228 None sg).
  assert (Etx : tx_new E w ROOT_PUBLIC_ADDRESS ts 228 key None = Ok tx) by (unfold tx_new, generate_signature; rewrite Hkey; reflexivity).
  rewrite Etx. cbn [and_then].
  assert (Hsz : N.of_nat (tx_get_dump_size tx) = 141) by (vm_compute; reflexivity).
  assert (Hwf : tx_wf tx). { split; [exact Hw|]. split; [split; [reflexivity|repeat constructor; reflexivity]|]. split; [exact Hu|]. split; [apply Hsig|]. split; [reflexivity|exact I]. }
  pose proof (send_tx_cases tx t L f g V3 ltac:(lia) (reachable_ledgers _ _ _ _ V1 Hfew) V10 V15 ltac:(rewrite Hsz; reflexivity)) as C. cbv zeta in C. rewrite Hsz in C.
  change (gas_for 141) with GAS_228 in C. change (tx_sender tx) with w in C. change (tx_receiver tx) with ROOT_PUBLIC_ADDRESS in C. change (tx_amount tx) with 228 in C.
  rewrite (last_main p t L V3 V5 ltac:(lia)) in C. destruct (tree_last_height t L V3) as [_ Hbw]. destruct (fee_after_bound _ Hbw) as [Hfb _].
  pose proof (reach_call emission_only p n t (OSendTx tx) V1 Hwf (conj I I)) as R. cbn [step ret_unit fst] in R.
  pose proof (send_tx_main tx t) as Em. pose proof (send_tx_derivs tx t) as [Ed Ec].
  destruct (t_send_transaction tx t) as [t' o]. cbn [fst] in *.
  destruct (g w <? GAS_228) eqn:Eg; cbn [orb]; [destruct C as [-> (e & ->)]; reflexivity|].
  destruct (N.ltb_spec (fee_after (last L genesis) + 228) (2 ^ 256)) as [_|]; [|lia].
  destruct (f w <? fee_after (last L genesis) + 228) eqn:Ef; [destruct C as [-> (e & ->)]; reflexivity|].
  apply N.ltb_ge in Eg, Ef.
  assert (Hrt : bytes_eqb w ROOT_PUBLIC_ADDRESS = false) by (apply bytes_eqb_neq, Hroot). rewrite Hrt in C. cbn [orb] in C.
  destruct (N.ltb_spec (f ROOT_PUBLIC_ADDRESS + 228) (2 ^ 256)) as [_|]; [|unfold CYCLE in V13; lia].
  destruct C as (-> & A & G & St). cbn [and_then]. rewrite (show_ok w _ t' _ _ A G). cbn [and_then].
  exists t', tx. split; [reflexivity|]. split; [reflexivity|]. split; [apply sha_ok|]. split; [apply St|].
  assert (Hk0 : k <> 0%nat). { intros ->. destruct L as [|b0 [|b1 L]]; try discriminate V4. cbn [earned] in V12. lia. }
  intros ts' Hts'. assert (Hm : moved f w ROOT_PUBLIC_ADDRESS 228 w = f w - 228 /\ moved f w ROOT_PUBLIC_ADDRESS 228 ROOT_PUBLIC_ADDRESS = f ROOT_PUBLIC_ADDRESS + 228).
  { unfold moved. rewrite Hrt. split; [rewrite upd_other by exact Hroot; apply upd_same|apply upd_same]. }
  destruct Hm as [Hm1 Hm2]. split.
  - exact R.
  - lia.
  - eapply tree_inv_ext; [exact V3|..]; destruct Em as [-> | ->]; reflexivity.
  - exact V4.
  - exact V5.
  - intros b Hb. specialize (V6 b Hb). lia.
  - eapply dstate_mono; [exact V7|auto|exact Ed|exact Ec].
  - exact V8.
  - intros b Hb. specialize (V9 b Hb). lia.
  - exact A.
  - exact V11.
  - rewrite Hm1. lia.
  - rewrite Hm2. lia.
  - intros a Ha1 Ha2. unfold moved. rewrite Hrt, !upd_other by assumption. apply V14; assumption.
  - exact G.
  - rewrite upd_same. lia.
  - intros a Ha. rewrite upd_other by exact Ha. apply V17, Ha.
  - intros X. specialize (V18 X). unfold saved in *. destruct Em as [-> | ->]; exact V18.
Qed.

(** ** Restart *)
Lemma pinv_restart p w k d s c r now t n L B f g : pinv p w k d s c r now t n L B f g -> is_array 33 w -> w <> ROOT_PUBLIC_ADDRESS -> N.of_nat r < 2 ^ 64 -> (k + d <> 0)%nat ->
  exists t', t_new (t_close t) = Ok t' /\ pinv p w k d s c r now t' n L B f g.
Proof.
  intros [V1 V2 V3 V4 V5 V6 V7 V8 V9 V10 V11 V12 V13 V14 V15 V16 V17 V18] Hw Hroot Hr Hkd. specialize (V18 Hkd).
  assert (Hfew : few n) by (unfold few; lia).
  rewrite (close_saved t V18). destruct (reopen_main t L V3 ltac:(lia)) as (t' & E & T & Eh & _ & _ & _ & Es & _ & Eg & _ & Ed & Ec).
  pose proof (mi_height _ _ (ti_main _ _ V3)) as Hlen.
  exists t'. split; [exact E|]. split; try assumption.
  - eapply reach_reopen; eassumption.
  - right. split; [exact Ed|]. destruct V7 as [(dc & Hd & Hm)|(Hd & Hk)].
    + assert (X : disk_of w t' = dc_close dc). { unfold disk_of. rewrite Ec. unfold close_derivs. rewrite Hd. cbn [fold_left fst snd]. rewrite assoc_get_set, bytes_eqb_refl. reflexivity. }
      rewrite X. apply ddisk_close, Hm.
    + assert (X : disk_of w t' = disk_of w t). { unfold disk_of. rewrite Ec. unfold close_derivs. rewrite Hd. reflexivity. } rewrite X. exact Hk.
  - rewrite Hlen, V4 in Es. destruct (N.eqb_spec (N.of_nat (S k)) 1) as [X|X].
    + assert (k = 0%nat) as -> by lia. pose proof (amounts_eq _ _ V10) as Ef. apply amounts_of; rewrite Es.
      * apply led_ok_commit1; [apply led_ok_flush, (reachable_ledgers _ _ _ _ V1 Hfew)|reflexivity].
      * intros a. rewrite bal_commit1 by reflexivity. unfold upd. destruct (bytes_eqb a ROOT_PUBLIC_ADDRESS) eqn:Y.
        { apply bytes_eqb_eq in Y. subst a. destruct L as [|b0 [|b1 L]]; try discriminate V4. cbn [earned] in V12. change (payments (N.of_nat 1)) with 0 in V13. rewrite cycle_eq. lia. }
        { rewrite bal_flush. apply Ef. }
    + intros a. rewrite <- (V10 a). unfold t_get_amount. rewrite Es. reflexivity.
  - intros a. rewrite <- (V15 a). unfold t_get_gas. rewrite Eg. reflexivity.
  - intros _. unfold t_new in E. cbn [t_close k_main] in E. erewrite mc_new_settled in E.
    2:{ cbn [mc_close md_cfg]. rewrite file_cur_settle. cbn [t_flush t_main]. apply mc_cfg_flush. }
    2:{ lia. }
    2:{ rewrite (ti_diff _ _ V3). reflexivity. }
    cbn [bind] in E. injection E as <-. unfold saved. cbn [t_main mc_cfg mc_height mc_difficulty mc_close md_cfg]. rewrite file_cur_settle. cbn [t_flush t_main]. apply mc_cfg_flush.
Qed.
Lemma programs_pinv p E key w k d s c r now t : programs p E key w k d s c r now t -> is_array 33 w -> w <> ROOT_PUBLIC_ADDRESS -> seckey_ok E key = true -> (forall h, is_array 64 (ecdsa_sign E h key)) ->
  N.of_nat r < 2 ^ 64 -> exists n L B f g, pinv p w k d s c r now t n L B f g.
Proof.
  intros H Hw Hroot Hkey Hsig. induction H as [t Et|k d s c r now t tries x nonce ts t' found H IH Hts Hu Hx Et|k d s c r now t tries nonce ts t' found H IH Hts Hu Et|
    k d s c r now t tries ts ts' t' found H IH Hts Hts' Hu Et|k d s c r now t tries ts ts' t' H IH Hts Hts' Hu Et|k d s c r now t t' H IH Hkd Et]; intros Hr.
  - pose proof (pinv_start p w t Hroot Et). eauto 8.
  - destruct (IH ltac:(lia)) as (n & L & B & f & g & M). pose proof (pv_calls _ _ _ _ _ _ _ _ _ _ _ _ _ _ M) as Hc.
    destruct (pinv_search p w x tries nonce ts k d s c r now t n L B f g M Hw Hroot Hx ltac:(lia) Hts Hu) as [X|(t1 & n' & b & f' & X & Hn & _ & _ & M')]; rewrite Et in X; apply pair_inv in X as [-> X].
    + injection X as ->. cbn [andb]. exists n, L, B, f, g. eapply pinv_later; eassumption.
    + injection X as ->. cbn [andb]. exists n', (L ++ [b]), B, f', g. apply M'; lia.
  - destruct (IH ltac:(lia)) as (n & L & B & f & g & M).
    destruct (pinv_deriv p w tries nonce ts k d s c r now t n L B f g M Hw Hroot ltac:(lia) Hts Hu) as [(t1 & X & M')|(t1 & n' & i & g' & X & M')]; rewrite Et in X; apply pair_inv in X as [-> X]; injection X as ->; eauto 8.
  - destruct (IH ltac:(lia)) as (n & L & B & f & g & M). pose proof (pv_calls _ _ _ _ _ _ _ _ _ _ _ _ _ _ M) as Hc.
    pose proof (pinv_send E key p w ts k d s c r now t n L B f g M Hw Hroot ltac:(lia) Hts ltac:(unfold u64_ok in *; lia) Hkey Hsig) as Sd.
    unfold send_program in Et. destruct (_ || _); [rewrite Sd in Et; discriminate Et|]. destruct Sd as (t1 & tx & _ & X & Hh & _ & M1). rewrite X in Et. cbn [and_then] in Et. specialize (M1 ts' Hts').
    destruct (pinv_search p w (tx_hash tx) tries 0 ts' k d (S s) (S c) (S r) ts' t1 (S n) L B _ _ M1 Hw Hroot Hh Hr ltac:(lia) Hu) as [Y|(t2 & n' & b & f' & Y & Hn & _ & _ & M')]; rewrite Et in Y; apply pair_inv in Y as [-> Y].
    + injection Y as ->. cbn [andb]. eauto 8.
    + injection Y as ->. cbn [andb]. eexists n', (L ++ [b]), B, f', _. apply M'; lia.
  - destruct (IH ltac:(lia)) as (n & L & B & f & g & M).
    pose proof (pinv_send E key p w ts k d s c r now t n L B f g M Hw Hroot ltac:(lia) Hts ltac:(unfold u64_ok in *; lia) Hkey Hsig) as Sd.
    unfold send_program in Et. destruct (_ || _).
    + rewrite Sd in Et. cbn [and_then] in Et. apply pair_inv in Et as [<- _]. exists n, L, B, f, g. eapply pinv_later; [exact M|lia].
    + exfalso. destruct Sd as (t1 & tx & _ & X & Hh & _ & M1). rewrite X in Et. cbn [and_then] in Et. specialize (M1 ts' Hts').
      destruct (pinv_search p w (tx_hash tx) tries 0 ts' k d (S s) (S c) (S r) ts' t1 (S n) L B _ _ M1 Hw Hroot Hh Hr ltac:(lia) Hu) as [Y|(t2 & n' & b & f' & Y & _)]; rewrite Et in Y; discriminate Y.
  - destruct (IH Hr) as (n & L & B & f & g & M). destruct (pinv_restart p w k d s c r now t n L B f g M Hw Hroot Hr Hkd) as (t1 & X & M'). rewrite Et in X. injection X as ->. eauto 8.
Qed.

(*@T C106, accounts: after any runs of the three example programs on one directory the main chain has its [k + 1] linked blocks and the chain of the wallet its [d]; the wallet holds what it was
    credited for the blocks less 228 for every transaction, the root account what it was last filled with less the payments and plus the 228s since then, and nobody else anything;
    the wallet has the gas of its [d] blocks less the gas of its [s] transactions, and nobody else any.  In particular the fee the miner is credited is paid by nobody. *)
Lemma p_C106_programs_accounts : forall p E key w k d s c r now t,
  programs p E key w k d s c r now t -> is_array 33 w -> w <> ROOT_PUBLIC_ADDRESS -> seckey_ok E key = true -> (forall h, is_array 64 (ecdsa_sign E h key)) -> N.of_nat r < 2 ^ 64 ->
  exists L B f g, length L = S k /\ mc_get_height (t_main t) = N.of_nat (S k) /\
    (forall i b, nth_error L i = Some b -> mc_find_by_height (N.of_nat i) (t_main t) = Ok (Some b)) /\ chained (main_link p) L /\
    (exists dc, snd (t_get_derivative_chain w t) = Ok dc /\ length B = d /\ dc_get_height dc = N.of_nat d /\
      (forall i x, nth_error B i = Some x -> dc_find_by_height (N.of_nat i) dc = Ok (Some (DerivBlock x)) /\ bi_founder x = w) /\ chained (deriv_link p) B) /\
    amounts t f /\ f w + 228 * N.of_nat s = earned L /\
    f ROOT_PUBLIC_ADDRESS + 25000000000000000 * payments (N.of_nat (S k)) = COINS_PER_CYCLE + 228 * N.of_nat c /\ (forall a, a <> w -> a <> ROOT_PUBLIC_ADDRESS -> f a = 0) /\
    gases t g /\ g w + GAS_228 * N.of_nat s = 25000000000000000 * N.of_nat d /\ forall a, a <> w -> g a = 0.
Proof.
  intros p E key w k d s c r now t H Hw Hroot Hkey Hsig Hr. destruct (programs_pinv _ _ _ _ _ _ _ _ _ _ _ H Hw Hroot Hkey Hsig Hr) as (n & L & B & f & g & M).
  destruct (pinv_open p w k d s c r now t n L B f g M Hw Hr) as (t1 & dc & G & _ & (D & _) & _).
  destruct M as [V1 V2 V3 V4 V5 V6 V7 V8 V9 V10 V11 V12 V13 V14 V15 V16 V17 V18].
  exists L, B, f, g. pose proof (mi_height _ _ (ti_main _ _ V3)) as Hlen. rewrite V4 in Hlen.
  split; [exact V4|]. split; [exact Hlen|]. split.
  { intros i b Hb. assert (Hb' : nthN L (N.of_nat i) = Some b) by (unfold nthN; rewrite Nnat.Nat2N.id; exact Hb).
    eapply main_find_height; [apply V3|lia|exact Hb'|].
    destruct (tree_readable t L _ _ V3 ltac:(lia) Hb') as [Hrd|(info & ->)]; [exact Hrd|].
    exfalso. destruct i as [|i]; [rewrite (ti_gen _ _ V3) in Hb; discriminate|]. exact (chained_in_kind p L V5 i _ Hb). }
  split; [exact V5|]. split.
  { exists dc. rewrite G. split; [reflexivity|]. split; [exact V8|]. split; [unfold dc_get_height; rewrite (di_height _ _ _ _ _ _ D), V8; reflexivity|].
    pose proof (di_chain _ _ _ _ _ _ D) as [C1 C2 C3 C4]. destruct (C4 eq_refl) as (F1 & F2 & _). rewrite Forall_forall in C3, F1. split; [|exact F2].
    intros i x Hx. assert (Hx' : nthN B (N.of_nat i) = Some x) by (unfold nthN; rewrite Nnat.Nat2N.id; exact Hx). split; [|apply F1; eapply nthN_in, Hx'].
    unfold dc_find_by_height. rewrite (deriv_find_raw _ _ _ _ _ _ _ _ D Hx'). apply dc_decode_dump, C3. eapply nthN_in, Hx'. }
  split; [exact V10|]. split; [exact V12|]. split; [exact V13|]. split; [exact V14|]. split; [exact V15|]. split; [exact V16|exact V17].
Qed.
(*@E
Example C106_accounts_ex : let t1 := fst (mine_deriv_program 9 Debug addrA 0 1597925000 fresh) in let t2 := fst (mine_search 9 Debug addrA txh 0 1597926000 t1) in
  let t3 := fst (send_program 40 Debug toy [] addrA 1597927000 1597928000 t2) in
  (exists c, programs Debug toy [] addrA 2 1 1 c 3 1597928000 t3) /\ t_get_gas addrA t3 = Ok (25000000000000000 - 88125000000000) /\
  t_get_amount addrA t3 = Ok (50000000000000000 + 2 * 62500 - 228) /\ t_get_amount ROOT_PUBLIC_ADDRESS t3 = Ok (COINS_PER_CYCLE - 50000000000000000 + 228).
Proof.
  assert (E0 : t_new disk_empty = Ok fresh) by (vm_compute; reflexivity). pose proof (prog_start Debug toy [] addrA fresh E0) as H0.
  assert (E1 : snd (mine_deriv_program 9 Debug addrA 0 1597925000 fresh) = Ok true) by (vm_compute; reflexivity).
  assert (E2 : snd (mine_search 9 Debug addrA txh 0 1597926000 (fst (mine_deriv_program 9 Debug addrA 0 1597925000 fresh))) = Ok true) by (vm_compute; reflexivity).
  assert (E3 : snd (send_program 40 Debug toy [] addrA 1597927000 1597928000 (fst (mine_search 9 Debug addrA txh 0 1597926000 (fst (mine_deriv_program 9 Debug addrA 0 1597925000 fresh))))) = Ok true) by (vm_compute; reflexivity).
  intros t1 t2 t3. split; [|split; [|split]; vm_compute; reflexivity]. fold t1 in E2, E3. fold t2 in E3.
  assert (H1 : programs Debug toy [] addrA 0 1 0 0 1 1597925000 t1).
  { eapply (prog_deriv Debug toy [] addrA 0 0 0 0 0 _ fresh 9 0 1597925000 t1 true H0); [vm_compute; discriminate|reflexivity|]. rewrite <- E1. apply surjective_pairing. }
  assert (H2 : programs Debug toy [] addrA 1 1 0 0 2 1597926000 t2).
  { eapply (prog_main Debug toy [] addrA 0 1 0 0 1 _ t1 9 txh 0 1597926000 t2 true H1); [discriminate|reflexivity|split; [reflexivity|repeat constructor; reflexivity]|]. rewrite <- E2. apply surjective_pairing. }
  eexists. eapply (prog_send Debug toy [] addrA 1 1 0 0 2 _ t2 40 1597927000 1597928000 t3 true H2); [discriminate|discriminate|reflexivity|]. rewrite <- E3. apply surjective_pairing.
Qed.
@*)

(*@T C106: whatever the three programs have done, the two miners do not panic, and once a block was made the directory can be opened again. *)
Lemma p_C106_miners_never_panic : forall p E key w k d s c r now t tries x nonce ts,
  programs p E key w k d s c r now t -> is_array 33 w -> w <> ROOT_PUBLIC_ADDRESS -> seckey_ok E key = true -> (forall h, is_array 64 (ecdsa_sign E h key)) -> N.of_nat r < 2 ^ 64 ->
  is_array 32 x -> now <= ts -> u64_ok ts ->
  (exists b, snd (mine_search tries p w x nonce ts t) = Ok b) /\ (exists b, snd (mine_deriv_program tries p w nonce ts t) = Ok b) /\
  ((k + d <> 0)%nat -> exists t', t_new (t_close t) = Ok t').
Proof.
  intros p E key w k d s c r now t tries x nonce ts H Hw Hroot Hkey Hsig Hr Hx Hts Hu. destruct (programs_pinv _ _ _ _ _ _ _ _ _ _ _ H Hw Hroot Hkey Hsig Hr) as (n & L & B & f & g & M). split; [|split].
  - destruct (pinv_search p w x tries nonce ts k d s c r now t n L B f g M Hw Hroot Hx Hr Hts Hu) as [X|(t1 & n' & b & f' & X & _)]; rewrite X; cbn [snd]; eauto.
  - destruct (pinv_deriv p w tries nonce ts k d s c r now t n L B f g M Hw Hroot Hr Hts Hu) as [(t1 & X & M')|(t1 & n' & i & g' & X & M')]; rewrite X; cbn [snd]; eauto.
  - intros Hkd. destruct (pinv_restart p w k d s c r now t n L B f g M Hw Hroot Hr Hkd) as (t1 & X & M'). eauto.
Qed.
(*@E
Example C106_miners_ex : snd (mine_search 1 Debug addrA txh 0 1597926000 fresh) = Ok false /\ snd (mine_deriv_program 9 Debug addrA 0 1597925000 fresh) = Ok true.
Proof. split; vm_compute; reflexivity. Qed.
@*)

(*@T C106, the sender: it panics exactly when the wallet lacks the gas, or lacks 228 and the fee, and then leaves the tree as it was.  Otherwise the transaction is stored and can be read,
    and when the search succeeds the new last block holds exactly its hash (none when it closes an epoch). *)
Lemma p_C106_sender : forall p E key w k d s c r now t tries ts ts' f g last,
  programs p E key w k d s c r now t -> is_array 33 w -> w <> ROOT_PUBLIC_ADDRESS -> seckey_ok E key = true -> (forall h, is_array 64 (ecdsa_sign E h key)) -> N.of_nat (S r) < 2 ^ 64 ->
  now <= ts -> ts <= ts' -> u64_ok ts' -> amounts t f -> gases t g -> mc_get_last_block (t_main t) = Ok (Some last) ->
  if (g w <? GAS_228) || (f w <? fee_after last + 228) then send_program tries p E key w ts ts' t = (t, Panic)
  else exists t' found tx, send_program tries p E key w ts ts' t = (t', Ok found) /\ tx_new E w ROOT_PUBLIC_ADDRESS ts 228 key None = Ok tx /\
    mc_get_transaction (tx_hash tx) (t_main t') = Ok (Some tx) /\
    mc_get_height (t_main t') = mc_get_height (t_main t) + (if found then 1 else 0) /\
    if found then exists b, mc_get_last_block (t_main t') = Ok (Some b) /\
      match b with TxBlock _ _ _ l => l = [tx_hash tx] | SummBlock i _ => bi_height i mod 1000000 = 0 | DerivBlock _ => False end
    else mc_get_last_block (t_main t') = Ok (Some last).
Proof.
  intros p E key w k d s c r now t tries ts ts' f g lst H Hw Hroot Hkey Hsig Hr Hts Hts' Hu Hf Hg Hl.
  destruct (programs_pinv _ _ _ _ _ _ _ _ _ _ _ H Hw Hroot Hkey Hsig ltac:(lia)) as (n & L & B & f0 & g0 & M).
  pose proof (pinv_send E key p w ts k d s c r now t n L B f0 g0 M Hw Hroot ltac:(lia) Hts ltac:(unfold u64_ok in *; lia) Hkey Hsig) as Sd.
  pose proof (pv_amounts _ _ _ _ _ _ _ _ _ _ _ _ _ _ M) as Af. pose proof (pv_gases _ _ _ _ _ _ _ _ _ _ _ _ _ _ M) as Ag.
  pose proof (pv_tree _ _ _ _ _ _ _ _ _ _ _ _ _ _ M) as T0. pose proof (pv_len _ _ _ _ _ _ _ _ _ _ _ _ _ _ M) as Len. pose proof (pv_calls _ _ _ _ _ _ _ _ _ _ _ _ _ _ M) as Hc.
  pose proof (pv_link _ _ _ _ _ _ _ _ _ _ _ _ _ _ M) as K0.
  specialize (Hf w). rewrite (Af w) in Hf. injection Hf as Hf. specialize (Hg w). rewrite (Ag w) in Hg. injection Hg as Hg.
  rewrite (last_main p t L T0 K0 ltac:(lia)) in Hl. injection Hl as Hl. rewrite <- Hf, <- Hg, <- Hl. clear Hf Hg. unfold send_program.
  destruct (_ || _); [rewrite Sd; reflexivity|]. destruct Sd as (t1 & tx & Etx & X & Hh & Raw & M1). rewrite X. cbn [and_then]. specialize (M1 ts' Hts').
  pose proof (mi_height _ _ (ti_main _ _ T0)) as H0. pose proof (pv_tree _ _ _ _ _ _ _ _ _ _ _ _ _ _ M1) as T1. pose proof (mi_height _ _ (ti_main _ _ T1)) as H1.
  assert (Rd : forall m, mc_get_transaction_raw (tx_hash tx) m = Some (tx_dump tx) -> mc_get_transaction (tx_hash tx) m = Ok (Some tx)).
  { intros m Hm. unfold tx_new, generate_signature in Etx. rewrite Hkey in Etx. cbn [bind] in Etx. assert (Et : tx = tx_new_signed w ROOT_PUBLIC_ADDRESS ts 228 None (ecdsa_sign E (sha256 (signed_bytes w ROOT_PUBLIC_ADDRESS ts 228 None)) key)) by congruence. clear Etx. subst tx.
    apply p_C49_get_transaction_partial; [|reflexivity|discriminate|exact Hm].
    split; [exact Hw|]. split; [split; [reflexivity|repeat constructor; reflexivity]|]. split; [unfold u64_ok in *; cbn [tx_new_signed tx_timestamp]; lia|]. split; [apply Hsig|]. split; [reflexivity|exact I]. }
  unfold mc_get_height.
  destruct (pinv_search p w (tx_hash tx) tries 0 ts' k d (S s) (S c) (S r) ts' t1 (S n) L B _ _ M1 Hw Hroot Hh Hr ltac:(lia) Hu) as [Y|(t2 & n' & b & f' & Y & Hn & Hb & Hst & M')].
  - exists t1, false, tx. split; [exact Y|]. split; [exact Etx|]. split; [apply Rd, Raw|]. split; [lia|]. exact (last_main p t1 L T1 K0 ltac:(lia)).
  - specialize (M' (S r) ltac:(lia) ltac:(lia) ltac:(lia)). pose proof (pv_tree _ _ _ _ _ _ _ _ _ _ _ _ _ _ M') as T2. pose proof (mi_height _ _ (ti_main _ _ T2)) as H2. rewrite app_length in H2. cbn [length] in H2.
    exists t2, true, tx. split; [exact Y|]. split; [exact Etx|]. split; [apply Rd; rewrite (Hst _); exact Raw|]. split; [lia|].
    exists b. split; [|destruct b; exact Hb]. rewrite (last_main p t2 (L ++ [b]) T2 (pv_link _ _ _ _ _ _ _ _ _ _ _ _ _ _ M') ltac:(rewrite app_length; cbn [length]; lia)). rewrite last_last. reflexivity.
Qed.
(*@E
Example C106_sender_ex : let t1 := fst (mine_deriv_program 9 Debug addrA 0 1597925000 fresh) in let t2 := fst (mine_search 9 Debug addrA txh 0 1597926000 t1) in
  snd (send_program 40 Debug toy [] addrA 1597927000 1597928000 fresh) = Panic /\ snd (send_program 40 Debug toy [] addrA 1597927000 1597928000 t1) = Panic /\
  snd (send_program 40 Debug toy [] addrA 1597927000 1597928000 t2) = Ok true /\ snd (send_program 0 Debug toy [] addrA 1597927000 1597928000 t2) = Ok false.
Proof. repeat split; vm_compute; reflexivity. Qed.
@*)
