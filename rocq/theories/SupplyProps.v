(** Proofs of the statements in P_Supply.v. *)
From Coq Require Import Lia ZifyBool ZifyNat ZifyN.
From Verif Require Import Base Sha256 Merkle Tools Transaction Block Sled Chain Tree Spec Reach LedgerSpec SupplySpec Demo.
From Verif Require Import BaseFacts ToolsFacts MerkleFacts DiffFacts CodecFacts SledFacts ChainFacts TreeFacts LedgerFacts MainProps LedgerProps StoreProps.

(** ** Sums over all accounts *)
Definition covers (f : bytes -> N) (A : list bytes) : Prop := NoDup A /\ forall w, f w <> 0 -> In w A.

Lemma sum_over_app f A B : sum_over f (A ++ B) = sum_over f A + sum_over f B.
Proof. unfold sum_over. induction A as [|x A IH]; cbn [app map fold_right]; [lia|]. rewrite IH. lia. Qed.
Lemma sum_over_cons f x A : sum_over f (x :: A) = f x + sum_over f A.
Proof. reflexivity. Qed.
Lemma sum_over_incl f A : NoDup A -> forall B, NoDup B -> (forall w, In w A -> f w <> 0 -> In w B) -> sum_over f A <= sum_over f B.
Proof.
  induction A as [|x A IH]; intros HA B HB H; [apply N.le_0_l|]. apply NoDup_cons_iff in HA as [Hx HA]. rewrite sum_over_cons.
  destruct (N.eq_dec (f x) 0) as [E|E].
  - specialize (IH HA B HB ltac:(intros w Hw; apply H; right; exact Hw)). lia.
  - pose proof (H x (or_introl eq_refl) E) as Hin. apply in_split in Hin as (B1 & B2 & ->).
    assert (HB' : NoDup (B1 ++ B2)) by (eapply NoDup_remove_1, HB).
    specialize (IH HA (B1 ++ B2) HB').
    specialize (IH ltac:(intros w Hw Hf; specialize (H w (or_intror Hw) Hf); apply in_app_or in H; apply in_or_app; destruct H as [H|[->|H]]; [left; exact H|contradiction|right; exact H])).
    rewrite sum_over_app, ?sum_over_cons in *. lia.
Qed.
Lemma sum_over_covers f A B : covers f A -> covers f B -> sum_over f A = sum_over f B.
Proof.
  intros [HA CA] [HB CB]. apply N.le_antisymm; apply sum_over_incl; auto.
Qed.
Lemma covers_more f A l : covers f A -> exists B, covers f B /\ incl l B.
Proof.
  intros [HA CA]. exists (nodup (list_eq_dec N.eq_dec) (l ++ A)). split; [split|].
  - apply NoDup_nodup.
  - intros w Hw. apply nodup_In. apply in_or_app. right. auto.
  - intros w Hw. apply nodup_In. apply in_or_app. left. exact Hw.
Qed.

(*@T C82, the supply of a tree is well defined. *)
Lemma p_C82_supply_unique : forall t a b, supply t a -> supply t b -> a = b.
Proof.
  intros t a b (f & A & Hf & NA & CA & <-) (g & B & Hg & NB & CB & <-).
  assert (E : forall w, f w = g w) by (intros w; specialize (Hf w); specialize (Hg w); congruence).
  rewrite (sum_over_ext f g A (fun w _ => E w)). apply sum_over_covers; [|split; assumption].
  split; [exact NA|]. intros w. rewrite <- E. apply CA.
Qed.

Lemma supply_same t t' a : (forall f, amounts t f -> amounts t' f) -> supply t a -> supply t' a.
Proof. intros H (f & A & Hf & R). exists f, A. split; [apply H, Hf|exact R]. Qed.
Lemma supply_moved t t' f x y v a : amounts t f -> amounts t' (moved f x y v) -> v <= f x -> supply t a -> supply t' a.
Proof.
  intros Hf Hf' Hv (g & A & Hg & NA & CA & E). assert (Eg : forall w, g w = f w) by (intros w; specialize (Hf w); specialize (Hg w); congruence).
  destruct (covers_more g A [x; y] (conj NA CA)) as (B & HB & HI).
  exists (moved f x y v), B. split; [exact Hf'|]. split; [apply HB|]. split.
  - intros w Hw. unfold moved, upd in Hw. destruct (bytes_eqb x y); [apply HB; rewrite Eg; exact Hw|].
    destruct (bytes_eqb w y) eqn:E1; [apply bytes_eqb_eq in E1 as ->; apply HI; right; left; reflexivity|].
    destruct (bytes_eqb w x) eqn:E2; [apply bytes_eqb_eq in E2 as ->; apply HI; left; reflexivity|].
    apply HB. rewrite Eg. exact Hw.
  - rewrite sum_over_moved; [|apply HB|apply HI; left; reflexivity|apply HI; right; left; reflexivity|exact Hv].
    rewrite <- (sum_over_ext g f B (fun w _ => Eg w)), <- E. apply sum_over_covers; [exact HB|split; assumption].
Qed.
Lemma supply_upd t t' f k v a : amounts t f -> amounts t' (upd f k v) -> supply t a -> supply t' (a - f k + v) /\ f k <= a.
Proof.
  intros Hf Hf' (g & A & Hg & NA & CA & E). assert (Eg : forall w, g w = f w) by (intros w; specialize (Hf w); specialize (Hg w); congruence).
  destruct (covers_more g A [k] (conj NA CA)) as (B & HB & HI). pose proof (HI k (or_introl eq_refl)) as Hk.
  assert (Es : sum_over f B = a).
  { rewrite <- (sum_over_ext g f B (fun w _ => Eg w)), <- E. apply sum_over_covers; [exact HB|split; assumption]. }
  pose proof (sum_over_upd f k v B (proj1 HB) Hk) as Hu.
  assert (Hle : f k <= a).
  { rewrite <- Es. clear -Hk. induction B as [|w B IH]; [contradiction|]. unfold sum_over in *. cbn [map fold_right].
    destruct Hk as [->|Hk]; [lia|]. specialize (IH Hk). lia. }
  split; [|exact Hle]. exists (upd f k v), B. split; [exact Hf'|]. split; [apply HB|]. split; [|lia].
  intros w Hw. unfold upd in Hw. destruct (bytes_eqb w k) eqn:E1; [apply bytes_eqb_eq in E1 as ->; exact Hk|].
  apply HB. rewrite Eg. exact Hw.
Qed.

Lemma supply_exists t : led_ok (t_summary t) -> exists a, supply t a.
Proof.
  intros H. exists (sum_over (bal (t_summary t)) (nodup (list_eq_dec N.eq_dec) (map fst (cur (t_summary t))))).
  exists (bal (t_summary t)), (nodup (list_eq_dec N.eq_dec) (map fst (cur (t_summary t)))).
  split; [apply amounts_bal, H|]. split; [apply NoDup_nodup|]. split; [|reflexivity].
  intros w Hw. apply nodup_In. unfold bal in Hw. unfold sled_get in Hw. destruct (sm_get w (cur (t_summary t))) as [v|] eqn:E.
  - clear -E. induction (cur (t_summary t)) as [|[k x] l IH]; [discriminate|]. cbn [sm_get] in E. cbn [map fst].
    destruct (bytes_eqb w k) eqn:E1; [apply bytes_eqb_eq in E1 as ->; left; reflexivity|right; apply IH, E].
  - contradiction Hw. unfold led_get, sled_get. rewrite E. reflexivity.
Qed.

(*@T C82, one call: nothing but the end of an epoch changes the supply, and an epoch's end
    replaces the root account's amount by the cycle amount. *)
Lemma p_C82_supply_step : forall ok p n t o a f, reachable ok p n t -> few n -> op_wf o -> moves_only o ->
  supply t a -> amounts t f ->
  let t' := fst (step p t o) in
  match snd (step p t o), o with
  | Ok (RBlock (SummBlock _ _)), OEmitMain _ _ _ _ =>
      f ROOT_PUBLIC_ADDRESS <= a /\ supply t' (a - f ROOT_PUBLIC_ADDRESS + COINS_PER_CYCLE) /\
      mc_get_height (t_main t) mod 1000000 = 0 /\ mc_get_height (t_main t') = mc_get_height (t_main t) + 1
  | _, _ => supply t' a
  end.
Proof.
  intros ok p n t o a f Hr Hn Hwf Hm Ha Hf. cbv zeta. pose proof (reachable_ledgers _ _ _ _ Hr Hn) as Hled.
  destruct (reachable_inv _ _ _ _ Hr Hn) as (L & HL & Hlen).
  assert (Hsame : t_summary (fst (step p t o)) = t_summary t -> supply (fst (step p t o)) a).
  { intros E. apply (supply_same t); [|exact Ha]. intros g Hg w. unfold t_get_amount. rewrite E. apply Hg. }
  destruct o; cbn [moves_only] in Hm; try contradiction.
  - assert (G : supply (fst (step p t (OSendAmount from to a0))) a).
    { cbn [step ret_unit fst]. pose proof (send_amount_eff from to a0 t f (lo_summary _ Hled) Hf) as S.
      destruct (t_send_amount from to a0 t) as [t' r]. destruct S as [_ S]. cbn [fst].
      destruct (bytes_eqb from to); [destruct S as [_ ->]; exact Ha|].
      destruct (N.leb_spec a0 (f from)) as [X|X]; cbn [andb] in S; [|destruct S as [_ ->]; exact Ha].
      destruct (f to + a0 <? 2 ^ 256); [|destruct S as [_ ->]; exact Ha].
      destruct S as [_ S]. exact (supply_moved _ _ _ _ _ _ _ Hf S X Ha). }
    destruct (snd (step p t (OSendAmount from to a0))) as [[]|e| |]; try exact G. destruct b; exact G.
  - assert (E : t_summary (fst (step p t (OAddGas owner a0))) = t_summary t) by (cbn; unfold t_add_gas, t_on_gas; destruct (led_add _ _ _); reflexivity).
    specialize (Hsame E). destruct (snd (step p t (OAddGas owner a0))) as [[]|e| |]; try exact Hsame. destruct b; exact Hsame.
  - assert (E : t_summary (fst (step p t (OSubGas owner a0))) = t_summary t) by (cbn; unfold t_sub_gas, t_on_gas; destruct (led_sub _ _ _); reflexivity).
    specialize (Hsame E). destruct (snd (step p t (OSubGas owner a0))) as [[]|e| |]; try exact Hsame. destruct b; exact Hsame.
  - assert (E : t_summary (fst (step p t (OSendGas from to a0))) = t_summary t) by (cbn; unfold t_send_gas, t_on_gas; destruct (led_send _ _ _ _); reflexivity).
    specialize (Hsame E). destruct (snd (step p t (OSendGas from to a0))) as [[]|e| |]; try exact Hsame. destruct b; exact Hsame.
  - assert (G : supply (fst (step p t (OSendTx tx))) a).
    { cbn [step ret_unit fst]. unfold few in Hn. pose proof (gases_bal t (lo_gas _ Hled)) as Hg. pose proof (tx_dump_size tx Hwf) as Hds.
      pose proof (send_tx_cases tx t L f _ HL ltac:(lia) Hled Hf Hg) as S.
      specialize (S ltac:(rewrite Hds; destruct (tx_amount tx =? 0); lia)). cbv zeta in S.
      destruct (t_send_transaction tx t) as [t' r]. cbn [fst].
      destruct (_ <? _); [destruct S as [-> _]; exact Ha|].
      destruct (mc_get_last_block (t_main t)) as [[b|]|e| |]; try (destruct S as [-> _]; exact Ha).
      destruct (fee_after b + tx_amount tx <? 2 ^ 256); [|destruct S as [-> _]; exact Ha].
      destruct (N.ltb_spec (f (tx_sender tx)) (fee_after b + tx_amount tx)) as [X|X]; [destruct S as [-> _]; exact Ha|].
      destruct (_ || _).
      - destruct S as (_ & S & _). eapply supply_moved; [exact Hf|exact S|lia|exact Ha].
      - destruct S as (_ & S & _). destruct Ha as (f0 & A & Hf0 & R). exists f, A. split; [exact S|].
        assert (E : forall w, f0 w = f w) by (intros w; specialize (Hf w); specialize (Hf0 w); congruence).
        destruct R as (R1 & R2 & R3). split; [exact R1|]. split; [intros w; rewrite <- E; apply R2|].
        rewrite <- R3. symmetry. apply sum_over_ext. intros w _. apply E. }
    destruct (snd (step p t (OSendTx tx))) as [[]|e| |]; try exact G. destruct b; exact G.
  - destruct Hwf as (W1 & W2 & W3 & W4). cbn [step ret_block fst snd] in *.
    destruct (t_emmit_new_main_block p pow founder txs ts t) as [t' r] eqn:E. cbn [fst snd] in *.
    pose proof (p_C51_no_rotation ok p n t pow founder txs ts t' r Hr Hn W1 W2 W3 W4 E) as N0.
    destruct r as [b|e| |]; cbn [bind]; try (apply Hsame, N0; discriminate).
    destruct b as [fee rt i l|i|i rt]; try (apply Hsame, N0; discriminate).
    destruct (p_C51_epoch_rotation ok p n t f (bal (t_gas t)) pow founder txs ts t' i rt Hr Hn W1 W2 W3 W4 Hf (gases_bal t (lo_gas _ Hled)) E) as (_ & _ & _ & S & _).
    destruct (supply_upd t t' f ROOT_PUBLIC_ADDRESS COINS_PER_CYCLE a Hf S Ha) as [S1 S2].
    split; [exact S2|]. split; [exact S1|]. unfold few in Hn.
    pose proof (emit_main_tree p t L _ _ _ _ _ _ HL ltac:(lia) W1 W2 W3 W4 E) as (M & _ & HL' & _ & _ & _ & Hh & _).
    unfold mc_get_height. rewrite <- Hh. split; [apply M|].
    cbn [get_info] in *. rewrite Hh, (mi_height _ _ (ti_main _ _ HL')), (mi_height _ _ (ti_main _ _ HL)), app_length. cbn [length]. lia.
  - pose proof (emit_deriv_ledgers p pow founder ts t) as (E & _).
    assert (G : supply (fst (step p t (OEmitDeriv pow founder ts))) a) by (apply Hsame; exact E).
    destruct (snd (step p t (OEmitDeriv pow founder ts))) as [[]|e| |]; try exact G. destruct b; exact G.
  - pose proof (get_deriv_ledgers owner t) as (E & _).
    assert (G : supply (fst (step p t (OGetDeriv owner))) a).
    { apply Hsame. cbn [step]. destruct (t_get_derivative_chain owner t). exact E. }
    destruct (snd (step p t (OGetDeriv owner))) as [[]|e| |]; try exact G. destruct b; exact G.
  - pose proof (add_new_block_ledgers b txs t) as (E & _).
    assert (G : supply (fst (step p t (OAddNewBlock b txs))) a) by (apply Hsame; exact E).
    destruct (snd (step p t (OAddNewBlock b txs))) as [[|b0|]|e| |]; try exact G. destruct b0; exact G.
  - apply Hsame. reflexivity.
  - assert (G : supply (fst (step p t (ODerivAddBlock owner i))) a).
    { apply Hsame. cbn [step]. destruct (assoc_get owner (t_derivs t)); [|reflexivity]. destruct (dc_add_block i d). reflexivity. }
    destruct (snd (step p t (ODerivAddBlock owner i))) as [[]|e| |]; try exact G. destruct b; exact G.
  - cbn [step snd fst]. apply (supply_same t); [|exact Ha]. intros g Hg w. apply (Hg w).
  - apply Hsame. reflexivity.
  - assert (G : supply (fst (step p t (ODerivFlush owner))) a).
    { apply Hsame. cbn [step]. destruct (assoc_get owner (t_derivs t)); reflexivity. }
    destruct (snd (step p t (ODerivFlush owner))) as [[]|e| |]; try exact G. destruct b; exact G.
Qed.

Lemma coin_reachable p n t : coin_history p n t -> reachable any_op p n t.
Proof.
  induction 1 as [t E|n t o H IH W M|n t t' H IH Hh E].
  - apply reach_open, E.
  - apply reach_call; [exact IH|exact W|exact I].
  - eapply reach_reopen; eassumption.
Qed.
Lemma height_grows p n t o : reachable any_op p n t -> few n -> op_wf o ->
  1 <= mc_get_height (t_main t) <= mc_get_height (t_main (fst (step p t o))).
Proof.
  intros Hr Hn W. destruct (reachable_inv _ _ _ _ Hr Hn) as (L & HL & Hlen). unfold few in Hn.
  destruct (step_main p t o L HL W ltac:(lia)) as (L' & HL' & Hg). unfold mc_get_height.
  rewrite (mi_height _ _ (ti_main _ _ HL)), (mi_height _ _ (ti_main _ _ HL')). pose proof (tree_inv_ne _ _ HL) as Hne.
  assert (1 <= N.of_nat (length L)) by (destruct L; [contradiction|cbn [length]; lia]).
  destruct Hg as [->|(b & -> & _)]; [lia|]. rewrite app_length. lia.
Qed.

(*@T C82, histories: from the start the supply is the cycle amount; every epoch can add at most
    one cycle amount and nothing else adds or removes coins. Restarts are covered unless the chain still consists
    of the first block only. *)
Lemma p_C82_supply_partial : forall p n t, coin_history p n t -> few n ->
  exists total, supply t total /\
    COINS_PER_CYCLE <= total <= COINS_PER_CYCLE * (1 + (mc_get_height (t_main t) - 1) / 1000000) /\
    (mc_get_height (t_main t) <= 1000000 -> total = COINS_PER_CYCLE).
Proof.
  intros p n t H Hn. enough (X : exists total, supply t total /\ 1 <= mc_get_height (t_main t) /\
    COINS_PER_CYCLE <= total <= COINS_PER_CYCLE * (1 + (mc_get_height (t_main t) - 1) / 1000000)).
  { destruct X as (total & X1 & X2 & X3). exists total. split; [exact X1|]. split; [exact X3|]. intros Hh.
    rewrite N.div_small in X3 by lia. lia. }
  revert Hn. induction H as [t E|n t o H IH W M|n t t' H IH Hh E]; intros Hn.
  - exists COINS_PER_CYCLE. unfold t_new in E. vm_compute in E. injection E as <-. split; [|split; [vm_compute; discriminate|split; vm_compute; discriminate]].
    exists (upd (fun _ => 0) ROOT_PUBLIC_ADDRESS COINS_PER_CYCLE), [ROOT_PUBLIC_ADDRESS].
    split; [|split; [constructor; [intros []|constructor]|split; [|vm_compute; reflexivity]]].
    + intros w. unfold t_get_amount, led_get, sled_get. cbn [t_summary cur sm_get]. unfold upd.
      change ROOT_PUBLIC_ADDRESS with ltac:(let x := eval vm_compute in ROOT_PUBLIC_ADDRESS in exact x).
      destruct (bytes_eqb w _); vm_compute; reflexivity.
    + intros w. unfold upd. destruct (bytes_eqb w ROOT_PUBLIC_ADDRESS) eqn:Ew; [|contradiction].
      intros _. left. symmetry. apply bytes_eqb_eq, Ew.
  - assert (Hn' : few n) by (unfold few in *; lia). destruct (IH Hn') as (total & S1 & S2 & S3).
    pose proof (coin_reachable p n t H) as Hr. pose proof (height_grows p n t o Hr Hn' W) as Hh.
    destruct (reachable_ledgers _ _ _ _ Hr Hn') as [Hl _ _ _].
    pose proof (p_C82_supply_step any_op p n t o total _ Hr Hn' W M S1 (amounts_bal t Hl)) as S. cbv zeta in S.
    assert (Hkeep : supply (fst (step p t o)) total -> exists total0, supply (fst (step p t o)) total0 /\ 1 <= mc_get_height (t_main (fst (step p t o))) /\
      COINS_PER_CYCLE <= total0 <= COINS_PER_CYCLE * (1 + (mc_get_height (t_main (fst (step p t o))) - 1) / 1000000)).
    { intros X. exists total. split; [exact X|]. split; [lia|]. split; [lia|].
      assert ((mc_get_height (t_main t) - 1) / 1000000 <= (mc_get_height (t_main (fst (step p t o))) - 1) / 1000000) by (apply N.div_le_mono; lia). nia. }
    destruct (snd (step p t o)) as [[|b|]|e| |]; try (apply Hkeep; exact S).
    destruct b as [fee rt i l|i|i rt]; try (apply Hkeep; exact S).
    destruct o; try (apply Hkeep; exact S). destruct S as (Q1 & Q2 & Q3 & Q4). eexists. split; [exact Q2|]. split; [lia|]. rewrite Q4.
    replace (mc_get_height (t_main t) + 1 - 1) with (mc_get_height (t_main t)) by lia.
    set (h := mc_get_height (t_main t)) in *. set (F := bal _ _) in *. split; [lia|].
    assert (Hd : h / 1000000 = (h - 1) / 1000000 + 1).
    { apply N.div_exact in Q3; [|discriminate]. rewrite Q3 at 2. set (q := h / 1000000) in *.
      assert (q <> 0) by (intros ->; lia).
      replace (1000000 * q - 1) with (999999 + (q - 1) * 1000000) by lia. rewrite N.div_add by discriminate. rewrite N.div_small by lia. lia. }
    rewrite Hd. nia.
  - destruct (IH Hn) as (total & S1 & S2 & S3). exists total. pose proof (coin_reachable p n t H) as Hr.
    destruct (reachable_inv _ _ _ _ Hr Hn) as (L & HL & Hlen). unfold few in Hn.
    destruct (reopen_main t L HL ltac:(lia)) as (t1 & E1 & _ & Eh & _ & _ & _ & Es & _). rewrite E in E1. injection E1 as <-.
    unfold mc_get_height in *. rewrite Eh. split; [|auto].
    apply N.eqb_neq in Hh. rewrite Hh in Es. apply (supply_same t); [|exact S1]. intros g Hg w. unfold t_get_amount. rewrite Es. apply (Hg w).
Qed.
(*@T C82 is false of the code for restarts before the first emitted block: coins the root account
    has spent come back, and [k] such restarts multiply the supply by [k + 1]. *)
Lemma p_C82_restart_mints_refuted : forall p k, (N.of_nat k + 1) * COINS_PER_CYCLE < 2 ^ 256 ->
  exists t, reachable moves_only p k t /\ mc_get_height (t_main t) = 1 /\ supply t ((N.of_nat k + 1) * COINS_PER_CYCLE).
Proof.
  intros p k Hk. enough (X : exists (t : bct) (f : bytes -> N), reachable moves_only p k t /\ mc_get_height (t_main t) = 1 /\
    supply t ((N.of_nat k + 1) * COINS_PER_CYCLE) /\ amounts t f /\ f ROOT_PUBLIC_ADDRESS = COINS_PER_CYCLE /\ f addrA = N.of_nat k * COINS_PER_CYCLE).
  { destruct X as (t & f & X1 & X2 & X3 & _). exists t. auto. }
  revert Hk. induction k as [|k IH]; intros Hk.
  - exists fresh, (bal (t_summary fresh)). assert (Hr : reachable moves_only p 0 fresh) by (apply reach_open; vm_compute; reflexivity).
    split; [exact Hr|]. split; [vm_compute; reflexivity|].
    destruct (p_C82_supply_partial p 0 fresh) as (a & Ha & _ & Hb); [apply coin_open; vm_compute; reflexivity|reflexivity|].
    split; [|split; [|split; vm_compute; reflexivity]].
    + change ((N.of_nat 0 + 1) * COINS_PER_CYCLE) with COINS_PER_CYCLE. rewrite <- Hb; [exact Ha|]. vm_compute. discriminate.
    + apply amounts_bal. apply (reachable_ledgers _ _ _ _ Hr). reflexivity.
  - assert (Hc : COINS_PER_CYCLE = 50010000000000000000000000) by reflexivity.
    destruct IH as (t & f & Hr & Hh & Hs & Hf & E1 & E2); [lia|].
    assert (Hfew : few k) by (unfold few; lia). pose proof (reachable_ledgers _ _ _ _ Hr Hfew) as Hled.
    set (o := OSendAmount ROOT_PUBLIC_ADDRESS addrA COINS_PER_CYCLE).
    assert (Wo : op_wf o) by (split; [|split]; [repeat constructor|repeat constructor|reflexivity]).
    assert (Hr1 : reachable moves_only p (S k) (fst (step p t o))) by (apply reach_call; [exact Hr|exact Wo|exact I]).
    pose proof (send_amount_eff ROOT_PUBLIC_ADDRESS addrA COINS_PER_CYCLE t f (lo_summary _ Hled) Hf) as S.
    assert (Es : fst (step p t o) = fst (t_send_amount ROOT_PUBLIC_ADDRESS addrA COINS_PER_CYCLE t)) by reflexivity. rewrite Es in Hr1.
    destruct (t_send_amount ROOT_PUBLIC_ADDRESS addrA COINS_PER_CYCLE t) as [t1 r]. cbn [fst] in *. destruct S as [Sm S].
    assert (Ene : bytes_eqb ROOT_PUBLIC_ADDRESS addrA = false) by (vm_compute; reflexivity). rewrite Ene in S.
    assert (Ec : (COINS_PER_CYCLE <=? f ROOT_PUBLIC_ADDRESS) && (f addrA + COINS_PER_CYCLE <? 2 ^ 256) = true) by (rewrite E1, E2; lia).
    rewrite Ec in S. destruct S as [_ S].
    pose proof (supply_moved _ _ _ _ _ _ _ Hf S ltac:(lia) Hs) as Hs1.
    assert (Hh1 : mc_get_height (t_main t1) = 1) by (rewrite Sm; destruct t; exact Hh).
    assert (Hfew1 : few (Datatypes.S k)) by (unfold few; lia).
    destruct (reachable_ledgers _ _ _ _ Hr1 Hfew1) as [_ Hg _ _].
    destruct (p_C57_reopen_balances_partial _ p _ _ _ _ Hr1 Hfew1 S (gases_bal _ Hg)) as (t' & E & _ & Ha & _).
    rewrite Hh1 in Ha. cbn [N.eqb Pos.eqb] in Ha.
    exists t', (upd (moved f ROOT_PUBLIC_ADDRESS addrA COINS_PER_CYCLE) ROOT_PUBLIC_ADDRESS COINS_PER_CYCLE).
    split; [eapply reach_reopen; eassumption|]. split.
    { destruct (reachable_inv _ _ _ _ Hr1 Hfew1) as (L & HL & Hlen). unfold few in Hfew1.
      destruct (reopen_main _ L HL ltac:(lia)) as (t2 & E3 & _ & Eh & _). rewrite E in E3. injection E3 as <-. unfold mc_get_height in *. rewrite Eh. exact Hh1. }
    destruct (supply_upd _ t' _ _ _ _ S Ha Hs1) as [S3 _].
    assert (Em : moved f ROOT_PUBLIC_ADDRESS addrA COINS_PER_CYCLE ROOT_PUBLIC_ADDRESS = 0).
    { unfold moved, upd. rewrite Ene, bytes_eqb_refl. cbv iota. rewrite E1. apply N.sub_diag. }
    rewrite Em in S3. split; [|split; [exact Ha|split]].
    + replace ((N.of_nat (Datatypes.S k) + 1) * COINS_PER_CYCLE) with ((N.of_nat k + 1) * COINS_PER_CYCLE - 0 + COINS_PER_CYCLE) by lia. exact S3.
    + unfold upd. rewrite bytes_eqb_refl. reflexivity.
    + unfold upd at 1. assert (Ene' : bytes_eqb addrA ROOT_PUBLIC_ADDRESS = false) by (vm_compute; reflexivity). rewrite Ene'.
      unfold moved, upd. rewrite Ene, bytes_eqb_refl. lia.
Qed.
(*@E
Example C82_ex : coin_history Debug 2 (run Debug fresh [OSendAmount ROOT_PUBLIC_ADDRESS addrA 12; emit_good]) /\
  mc_get_height (t_main (run Debug fresh [OSendAmount ROOT_PUBLIC_ADDRESS addrA 12; emit_good])) = 2 /\
  t_get_amount addrA (run Debug fresh [OSendAmount ROOT_PUBLIC_ADDRESS addrA 12; emit_good]) = Ok 12.
Proof.
  split; [|vm_compute; auto].
  apply (coin_call Debug 1 (run Debug fresh [OSendAmount ROOT_PUBLIC_ADDRESS addrA 12]) emit_good);
    [apply (coin_call Debug 0 fresh (OSendAmount ROOT_PUBLIC_ADDRESS addrA 12)); [apply coin_open; vm_compute; reflexivity| |exact I]| |exact I];
    repeat split; repeat constructor; reflexivity.
Qed.
@*)
