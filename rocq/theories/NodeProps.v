(** C111: the code is the abstract node of NodeSpec.v. *)
From Coq Require Import Lia ZifyBool ZifyNat ZifyN.
From Verif Require Import Base Sha256 Merkle Tools Transaction Block Sled Chain Tree Spec Reach LedgerSpec NodeSpec Demo.
From Verif Require Import BaseFacts ToolsFacts MerkleFacts DiffFacts CodecFacts SledFacts ChainFacts TreeFacts LedgerFacts DerivFacts NodeFacts NodeSim.

Local Strategy 1000 [sha256 block_dump tx_dump mroot build_tree block_hash to_be root_of].

Lemma with_chain_twice n w s s' : with_chain (with_chain n w s) w s' =
  MkNode (n_blocks n) (n_txs n) (n_amounts n) (n_gas n) (n_old_amounts n) (n_old_gas n) (assoc_set w s' (n_chains n)) (w :: w :: n_open n).
Proof. unfold with_chain. cbn [n_blocks n_txs n_amounts n_gas n_old_amounts n_old_gas n_chains n_open]. rewrite assoc_set_set. reflexivity. Qed.

(** Appending to an open chain. *)
Lemma sim_deriv_append k t n w c s i : sim k t n -> N.of_nat k + 2 < 2 ^ 256 -> is_array 33 w -> rep c s -> (length (snd s) <= k)%nat ->
  info_wf i -> In (bi_difficulty i) domain -> bi_height i = N.of_nat (length (snd s)) ->
  dc_add_block i c = (dc_appended i c, Ok tt) /\
  sim (S k) (with_derivs t (assoc_set w (dc_appended i c) (t_derivs t))) (with_chain n w (fst s, snd s ++ [i])).
Proof.
  intros [M L D] Hk Hw Hr Hl Hi Hd Hh. pose proof (rp_height _ _ Hr) as Hc.
  split; [apply dc_add_block_right; lia|]. split.
  - eapply msim_same; [exact M|lia|reflexivity].
  - destruct L; split; assumption.
  - apply (dsim_set (S k)); [eapply dsim_same; [exact D|lia|reflexivity..]|exact Hw| |].
    + apply rep_appended; try assumption; lia.
    + cbn [snd]. rewrite app_length. cbn [length]. lia.
Qed.
Lemma sim_open_twice k t n w s s' : sim k t (with_chain (with_chain n w s) w s') -> sim k t (with_chain n w s').
Proof.
  rewrite with_chain_twice. intros [M L [D1 D2 D3]]. split; [exact M|destruct L; split; assumption|]. split; [exact D1|exact D2|].
  intros w' Hw'. specialize (D3 w' Hw'). unfold csim in *. cbn [with_chain n_chains n_open] in *. rewrite !opened_cons in *.
  destruct (bytes_eqb w' w); exact D3.
Qed.
Lemma sim_open_again k t n w s : sim k t (with_chain n w s) -> opened w (n_open n) = true -> assoc_get w (n_chains n) = Some s -> sim k t n.
Proof.
  intros [M L [D1 D2 D3]] Ho Hs. split; [exact M|destruct L; split; assumption|]. split; [exact D1|exact D2|].
  intros w' Hw'. specialize (D3 w' Hw'). unfold csim in *. cbn [with_chain n_chains n_open] in *. rewrite assoc_get_set, opened_cons in D3.
  destruct (bytes_eqb w' w) eqn:E; [|exact D3]. apply bytes_eqb_eq in E as ->. rewrite Ho, Hs. exact D3.
Qed.

Lemma sides_last_raw B x : nth_error (map DerivBlock (x :: B)) (length (map DerivBlock (x :: B)) - 1) = Some (DerivBlock (last (x :: B) x)).
Proof.
  assert (N0 : map DerivBlock (x :: B) <> []) by discriminate. pose proof (nthN_last (map DerivBlock (x :: B)) (DerivBlock x) N0) as E.
  unfold nthN in E. replace (N.to_nat (N.of_nat (length (map DerivBlock (x :: B))) - 1)) with (length (map DerivBlock (x :: B)) - 1)%nat in E by lia.
  rewrite E. f_equal. clear. generalize x at 2 4. revert x. induction B as [|y B IH]; intros x d; [reflexivity|]. exact (IH y d).
Qed.

Lemma header_no_ub p h d a height root pow founder ts : n_header p h d a height root pow founder ts <> UB.
Proof. unfold n_header. destruct (negb _); [discriminate|]. destruct (seconds p a ts); discriminate. Qed.
Lemma sim_emit_side p k t n pow founder ts : sim k t n -> N.of_nat k + 2 < 2 ^ 256 ->
  is_array 32 pow -> is_array 33 founder -> u64_ok ts ->
  let '(t', r) := ret_block (t_emmit_new_derivative_block p pow founder ts t) in let '(n', a) := n_emit_side p pow founder ts n in
  sim (S k) t' n' /\ same_answer r a.
Proof.
  intros H Hk Hpow Hf Hts. destruct (sim_get k t n founder H Hk Hf) as (c & G1 & G2 & G3 & G4 & G5).
  unfold ret_block, t_emmit_new_derivative_block, n_emit_side.
  destruct (t_get_derivative_chain founder t) as [t1 rc]. cbn [fst snd] in G1, G4, G5. subst rc.
  set (s := n_chain founder n) in *. pose proof (sim_idle _ _ _ G5) as Hidle.
  assert (Hn1 : n_blocks (with_chain n founder s) = n_blocks n) by reflexivity.
  destruct (rep_answers c s G2 ltac:(lia)) as (A1 & A2 & A3 & _ & _ & _ & A4). cbv zeta in A4. rewrite A4. cbn [bind].
  (* what the code computes is [made] *)
  match goal with |- context [let '(n', a) := match ?x with Ok _ => _ | Err _ => _ | Panic => _ | UB => _ end in _] => set (made := x) end.
  match goal with |- context [match ?x with Ok info => let '(_, _) := dc_add_block info c in _ | Err _ => _ | Panic => _ | UB => _ end] => set (code := x) end.
  assert (Hub : made <> UB).
  { unfold made. destruct (snd s); [destruct (block_by_hash _ _); [|discriminate]|]; apply header_no_ub. }
  assert (E : code = made /\ forall i, made = Ok i -> info_wf i /\ In (bi_difficulty i) domain /\ bi_height i = N.of_nat (length (snd s))).
  { unfold code, made. clear code made Hub. destruct (snd s) as [|x B] eqn:EB.
    - cbn [map nth_error length Nat.sub]. cbn [bind]. rewrite A2. destruct (sim_hash k t1 _ (fst s) G5 ltac:(lia)) as [_ Eh]. rewrite Eh, Hn1. cbn [bind].
      destruct (block_by_hash (fst s) (n_blocks n)) as [b|] eqn:Eb; cbn [bind]; [|split; [reflexivity|discriminate]].
      apply by_hash_in in Eb as [Eb _]. pose proof (ti_wf _ _ (ms_tree _ _ _ _ (si_main _ _ _ H))) as W. rewrite Forall_forall in W.
      pose proof (block_info_wf _ (W _ Eb)) as (Hpts & _).
      rewrite (header_code p _ _ _ 0 [] pow founder ts beginning_domain Hpts), root_of_nil. split; [reflexivity|].
      intros i Hi. apply header_wf in Hi; try assumption; [exact beginning_domain|apply sha_ok|reflexivity].
    - rewrite sides_last_raw. cbn [bind get_info].
      pose proof (rp_shows _ _ G2) as S. rewrite EB in S. set (z := last (x :: B) x) in *.
      assert (Hz : In z (x :: B)) by (apply last_in; discriminate).
      pose proof (sh_wf _ _ _ S) as W. rewrite Forall_forall in W. destruct (W z Hz) as (Hpts & _).
      pose proof (sh_domain _ _ _ S) as Dm. rewrite Forall_forall in Dm. pose proof (Dm z Hz) as Hd. cbv beta in Hd.
      assert (Hh : bi_height z + 1 = N.of_nat (length (x :: B))).
      { pose proof (sides_last_raw B x) as E. fold z in E.
        assert (E' : nthN (sides (x :: B)) (N.of_nat (length (x :: B)) - 1) = Some (DerivBlock z)).
        { rewrite <- E. unfold nthN, sides. f_equal. rewrite map_length. lia. }
        pose proof (sh_heights _ _ _ S _ _ E') as E2. cbn [get_info] in E2. cbn [length] in *. lia. }
      assert (Ha : u256_add (bi_height z) 1 = Ok (N.of_nat (length (x :: B)))).
      { unfold u256_add. destruct (N.ltb_spec (bi_height z + 1) (2 ^ 256)) as [_|]; [|lia]. congruence. }
      rewrite Ha. cbn [bind]. rewrite (header_code p _ _ _ _ [] pow founder ts Hd Hpts), root_of_nil. split; [reflexivity|].
      intros i Hi. apply header_wf in Hi; try assumption; [apply sha_ok|]. unfold u256_ok. lia. }
  destruct E as [-> Hok]. destruct made as [i|e| |]; cbn [fst snd bind]; try (split; [exact Hidle|reflexivity]).
  - destruct (Hok i eq_refl) as (Hi & Hd & Hh).
    destruct (sim_deriv_append k t1 _ founder c s i G5 Hk Hf G2 G3 Hi Hd Hh) as [-> S]. cbn [fst snd bind]. split; [|reflexivity].
    eapply sim_open_twice, S.
  - contradiction.
Qed.

(** ** Every call *)
Lemma sim_step p k t n o : sim k t n -> N.of_nat k + 2 < 2 ^ 256 -> sane p (Call o) ->
  let '(t', r) := step p t o in let '(n', a) := n_step p n o in sim (S k) t' n' /\ same_answer r a.
Proof.
  intros H Hk [Hwf Hs]. pose proof (sim_idle _ _ _ H) as Hidle. destruct o; cbn [step n_step op_wf] in *.
  - apply sim_amounts; [exact H|apply does_add].
  - apply sim_amounts; [exact H|apply does_set, Hwf].
  - apply sim_amounts; [exact H|apply does_sub].
  - unfold t_send_amount. destruct (bytes_eqb from to); [split; [exact Hidle|exact I]|]. apply sim_amounts; [exact H|apply does_send].
  - apply sim_gas; [exact H|apply does_add].
  - apply sim_gas; [exact H|apply does_sub].
  - apply sim_gas; [exact H|apply does_send].
  - apply sim_send; assumption.
  - destruct Hwf as (W1 & W2 & W3 & W4). apply sim_emit; assumption.
  - destruct Hwf as (W1 & W2 & W3). apply sim_emit_side; assumption.
  - destruct (sim_get k t n owner H Hk Hwf) as (c & G1 & G2 & G3 & _ & G5).
    destruct (t_get_derivative_chain owner t) as [t1 rc]. cbn [fst snd] in *. subst rc. cbn [bind].
    split; [apply sim_idle, G5|]. apply rep_answers; [exact G2|lia].
  - destruct Hwf as [W1 W2]. destruct Hs as [Hkind Hd]. apply reachable_domain in Hd.
    destruct (sim_last_facts k t n H) as (_ & _ & _ & Hhn & Hkn); [lia|]. unfold ret_unit, t_add_new_block. rewrite <- Hhn.
    destruct (N.eqb_spec (bi_height (get_info b)) (mc_height (t_main t))) as [E|E].
    + rewrite mc_add_block_right; [|exact E|lia]. cbn [fst snd bind]. split; [|exact I]. destruct H as [M L D]. split.
      * apply (msim_same (S k) (S k) (with_main (with_main t (mc_appended b (t_main t))) (mc_add_transactions txs (t_main (with_main t (mc_appended b (t_main t)))))));
          [|lia|reflexivity].
        apply msim_txs; [|exact W2]. apply msim_append; try assumption. rewrite E, Hhn. reflexivity.
      * destruct L; split; assumption.
      * eapply dsim_same; [exact D|lia|reflexivity..].
    + rewrite mc_add_block_wrong by exact E. cbn [fst snd bind]. split; [|reflexivity]. destruct Hidle as [M L D]. split.
      * eapply msim_same; [exact M|lia|reflexivity].
      * destruct L; split; assumption.
      * eapply dsim_same; [exact D|lia|reflexivity..].
  - split; [|exact I]. destruct Hidle as [M L D]. split; [apply msim_txs; assumption|destruct L; split; assumption|].
    eapply dsim_same; [exact D|lia|reflexivity..].
  - destruct Hwf as [W1 W2]. apply reachable_domain in Hs. pose proof (ds_chain _ _ _ _ (si_deriv _ _ _ H) owner W1) as C.
    unfold csim in C. unfold is_open. fold (opened owner (n_open n)). destruct (assoc_get owner (t_derivs t)) as [c|] eqn:E.
    + destruct C as (Ho & s & Es & Hr & Hl). rewrite Ho. cbn [negb]. assert (Hn : n_chain owner n = s) by (unfold n_chain; rewrite Es; reflexivity).
      rewrite Hn. pose proof (rp_height _ _ Hr) as Hc. destruct (N.eqb_spec (bi_height i) (N.of_nat (length (snd s)))) as [Eh|Eh].
      * destruct (sim_deriv_append k t n owner c s i H Hk W1 Hr Hl W2 Hs Eh) as [-> S]. cbn [bind]. split; [exact S|exact I].
      * rewrite dc_add_block_wrong by lia. cbn [bind]. split; [|reflexivity].
        apply (sim_open_again (S k) _ n owner s); [|exact Ho|exact Es]. apply sim_idle. destruct H as [M L D]. split.
        -- eapply msim_same; [exact M|lia|reflexivity].
        -- destruct L; split; assumption.
        -- apply dsim_set; assumption.
    + destruct C as [Ho _]. rewrite Ho. cbn [negb]. split; [exact Hidle|exact I].
  - split; [|exact I]. destruct Hidle as [M L D]. split.
    + apply (msim_ext (S k) t); [exact M|reflexivity..].
    + destruct L; split; apply holds_flush; assumption.
    + eapply dsim_same; [exact D|lia|reflexivity..].
  - split; [|exact I]. destruct Hidle as [M L D]. split.
    + apply (msim_ext (S k) t); [exact M|reflexivity..].
    + destruct L; split; assumption.
    + eapply dsim_same; [exact D|lia|reflexivity..].
  - destruct (assoc_get owner (t_derivs t)) as [c|] eqn:E; [|split; [exact Hidle|exact I]]. split; [|exact I].
    pose proof (ds_chain _ _ _ _ (si_deriv _ _ _ H) owner Hwf) as C. unfold csim in C. rewrite E in C. destruct C as (Ho & s & Es & Hr & Hl).
    apply (sim_open_again (S k) _ n owner s); [|exact Ho|exact Es]. apply sim_idle. destruct H as [M L D]. split.
    + eapply msim_same; [exact M|lia|reflexivity].
    + destruct L; split; assumption.
    + apply dsim_set; try assumption. apply rep_flush, Hr.
Qed.

(** ** Restarts *)
(** Flushing one chain after the other. *)
Lemma sim_flushes p k n : forall ws t, sim k t n -> N.of_nat k + 2 < 2 ^ 256 -> Forall (is_array 33) ws ->
  let t' := run p t (map ODerivFlush ws) in
  sim k t' n /\ t_closed t' = t_closed t /\
  (forall w, In w ws -> forall c, assoc_get w (t_derivs t') = Some c -> exists c0, c = dc_flush c0) /\
  (forall w, (exists c0, assoc_get w (t_derivs t) = Some (dc_flush c0)) -> exists c0, assoc_get w (t_derivs t') = Some (dc_flush c0)).
Proof.
  induction ws as [|w ws IH]; intros t H Hk Hws; cbn [map].
  - cbn. split; [exact H|]. split; [reflexivity|]. split; [intros ? []|auto].
  - inversion Hws as [|? ? Hw Hws']; subst. cbv zeta.
    change (run p t (ODerivFlush w :: map ODerivFlush ws)) with (run p (fst (step p t (ODerivFlush w))) (map ODerivFlush ws)).
    set (t1 := fst (step p t (ODerivFlush w))).
    assert (S1 : sim k t1 n /\ t_closed t1 = t_closed t /\ (forall w', assoc_get w' (t_derivs t1) = if bytes_eqb w' w then option_map dc_flush (assoc_get w (t_derivs t)) else assoc_get w' (t_derivs t))).
    { unfold t1. cbn [step]. destruct (assoc_get w (t_derivs t)) as [c|] eqn:E; cbn [fst].
      - pose proof (ds_chain _ _ _ _ (si_deriv _ _ _ H) w Hw) as C. unfold csim in C. rewrite E in C. destruct C as (Ho & s & Es & Hr & Hl).
        split; [|split; [reflexivity|intros w'; cbn [with_derivs t_derivs]; apply assoc_get_set]].
        apply (sim_open_again k _ n w s); [|exact Ho|exact Es]. destruct H as [M L D]. split.
        + eapply msim_same; [exact M|lia|reflexivity].
        + destruct L; split; assumption.
        + apply dsim_set; try assumption. apply rep_flush, Hr.
      - split; [exact H|]. split; [reflexivity|]. intros w'. destruct (bytes_eqb w' w) eqn:E'; [apply bytes_eqb_eq in E' as ->; exact E|reflexivity]. }
    destruct S1 as (S1 & S2 & S3). destruct (IH t1 S1 Hk Hws') as (I1 & I2 & I3 & I4). cbv zeta in *.
    split; [exact I1|]. split; [congruence|]. split.
    + intros w' [<-|Hi] c Hc; [|eapply I3; eassumption].
      destruct (assoc_get w (t_derivs t)) as [c0|] eqn:E.
      * destruct (I4 w) as (c1 & E1); [exists c0; rewrite S3, bytes_eqb_refl; reflexivity|]. exists c1. congruence.
      * exfalso. pose proof (ds_chain _ _ _ _ (si_deriv _ _ _ H) w Hw) as C. pose proof (ds_chain _ _ _ _ (si_deriv _ _ _ I1) w Hw) as C'.
        unfold csim in C, C'. rewrite E in C. rewrite Hc in C'. destruct C as [C _]. destruct C' as [C' _]. congruence.
    + intros w' (c0 & Hc0). apply I4. rewrite S3. destruct (bytes_eqb w' w) eqn:E'; [|eauto].
      apply bytes_eqb_eq in E' as ->. rewrite Hc0. eexists. reflexivity.
Qed.

Lemma run_app p t a b : run p t (a ++ b) = run p (run p t a) b.
Proof. apply fold_left_app. Qed.

Lemma sim_restart p k t n : sim k t n -> N.of_nat k + 2 < 2 ^ 256 ->
  exists t', t_new (shut_down p t) = Ok t' /\ sim k t' (n_restart n).
Proof.
  intros H Hk. unfold shut_down. rewrite run_app. cbn [run fold_left step fst]. rewrite <- (map_map fst ODerivFlush).
  assert (Hws : Forall (is_array 33) (map fst (t_derivs t))).
  { apply Forall_forall. intros w Hw. apply in_map_iff in Hw as ([w' c] & <- & Hi). exact (ds_keys _ _ _ _ (si_deriv _ _ _ H) _ _ Hi). }
  destruct (sim_flushes p k n (map fst (t_derivs t)) t H Hk Hws) as (S1 & S2 & S3 & _). cbv zeta in *.
  set (t1 := run p t _) in *.
  assert (Hfl : forall w c, In (w, c) (t_derivs t1) -> exists c0, c = dc_flush c0).
  { intros w c Hi. pose proof (ds_keys _ _ _ _ (si_deriv _ _ _ S1) _ _ Hi) as Hw.
    apply (assoc_in_get _ _ _ (ds_nodup _ _ _ _ (si_deriv _ _ _ S1))) in Hi. apply (S3 w); [|exact Hi].
    pose proof (ds_chain _ _ _ _ (si_deriv _ _ _ H) w Hw) as C. pose proof (ds_chain _ _ _ _ (si_deriv _ _ _ S1) w Hw) as C'.
    unfold csim in C, C'. rewrite Hi in C'. destruct (assoc_get w (t_derivs t)) as [c1|] eqn:E.
    - apply assoc_get_in in E. apply in_map_iff. exists (w, c1). auto.
    - destruct C as [C _]. destruct C' as [C' _]. congruence. }
  clearbody t1. clear S2 S3 Hws H. destruct S1 as [M L D].
  destruct (reopen_main t1 (n_blocks n) (ms_tree _ _ _ _ M)) as (t' & E & R1 & R2 & R3 & R4 & R5 & R6 & R7 & R8 & R9 & R10 & R11).
  { pose proof (ms_len _ _ _ _ M). lia. }
  exists t'. split; [exact E|]. split.
  - cbn [n_restart n_blocks n_txs]. destruct M as [M1 M2 M3 M4 M5 M6 M7]. split; try assumption.
    + intros h. rewrite R4. apply M5.
    + intros h. rewrite R5. apply M6.
  - destruct L as [L1 L2 L3 L4]. split; cbn [n_restart n_amounts n_gas n_old_amounts n_old_gas]; rewrite ?R6, ?R7, ?R8, ?R9; try (apply holds_flush; assumption).
    rewrite (mi_height _ _ (ti_main _ _ (ms_tree _ _ _ _ M))). fold (n_height n).
    destruct (n_height n =? 1); [apply holds_commit1; [apply holds_flush, L1|reflexivity]|apply holds_flush, L1].
  - cbn [n_restart n_chains n_open]. split; rewrite ?R10; [constructor|intros w c []|]. intros w Hw. unfold csim. rewrite R10, R11. cbn [assoc_get].
    split; [reflexivity|]. pose proof (ds_chain _ _ _ _ D w Hw) as C. unfold csim in C.
    assert (Hb : forall w' c', In (w', c') (t_derivs t1) -> bytes_ok w') by (intros w' c' Hi; apply (ds_keys _ _ _ _ D _ _ Hi)).
    unfold close_derivs. destruct (assoc_get w (t_derivs t1)) as [c|] eqn:Ec.
    + destruct C as (Ho & s & Es & Hr & Hl). rewrite Es. split; [|exact Hl]. apply assoc_get_in in Ec.
      exists (dc_close c). split; [apply (close_derivs_open (fun _ : bytes => dc_close) w c); [apply D|exact Hb|exact Ec]|].
      destruct (Hfl _ _ Ec) as (c0 & ->). pose proof (rep_close _ _ Hr) as Hrc.
      destruct Hrc as [Q1 Q2 [Q3 Q4 Q5 Q6 Q7]]. split; [|exact Q2|split; [exact Q3|exact Q4|exact Q5|exact Q6|exact Q7]].
      cbn [dc_close dd_cfg] in *. rewrite file_cur_settle in *. rewrite dc_cfg_flush in *. exact Q1.
    + destruct C as [_ C].
      assert (G : assoc_get (hex_encode w) (fold_left (fun l oc => assoc_set (hex_encode (fst oc)) (dc_close (snd oc)) l) (t_derivs t1) (t_closed t1)) =
        assoc_get (hex_encode w) (t_closed t1)).
      { destruct (close_derivs_get (fun _ : bytes => dc_close) (hex_encode w) (t_derivs t1) (t_closed t1)) as [G|(w' & c & Hi & Hx & _)]; [exact G|].
        exfalso. apply hex_encode_inj in Hx; [|eapply Hb, Hi|apply Hw]. subst w'.
        apply (assoc_in_get _ _ _ (ds_nodup _ _ _ _ D)) in Hi. congruence. }
      destruct (assoc_get w (n_chains n)) as [s|]; [destruct C as [(d & Hd & Hr) Hl]; split; [exists d; split; [|exact Hr]|exact Hl]|]; rewrite G; assumption.
Qed.

(** ** Questions *)
Lemma sim_answers k t n : sim k t n -> N.of_nat k + 2 < 2 ^ 256 -> answers t n.
Proof.
  intros H Hk. pose proof H as [M L D]. pose proof (ms_len _ _ _ _ M) as Hlen. pose proof (ti_main _ _ (ms_tree _ _ _ _ M)) as MI.
  assert (Hl : N.of_nat (length (n_blocks n)) < 2 ^ 256) by lia.
  unfold answers. split; [apply (mi_height _ _ MI)|]. split; [|split; [|split; [|split; [|split; [|split; [|split]]]]]].
  - intros i. unfold mc_find_by_height. rewrite (main_find_raw _ (n_blocks n) i MI Hl). split; [reflexivity|].
    unfold nthN. destruct (nth_error (n_blocks n) (N.to_nat i)) as [b|] eqn:E; [|reflexivity]. apply nth_error_In in E.
    apply readable_decode. eapply msim_readable; [exact M|lia|exact E].
  - intros h. apply (sim_hash k); [exact H|lia].
  - rewrite n_last_eq. apply main_last_raw'; [exact MI|eapply sim_ne, H|exact Hl].
  - apply (sim_last k); [exact H|lia].
  - intros h. unfold mc_transaction_exists, sled_contains, mc_get_transaction_raw. change (tx_by_hash h n) with (in_txs h (n_txs n)).
    rewrite (ms_txs _ _ _ _ M h). destruct (in_txs h (n_txs n)) as [x|] eqn:E; cbn [option_map].
    + split; [reflexivity|]. split; [reflexivity|]. apply get_tx_dump.
      * apply find_some in E as [E _]. pose proof (ms_txwf _ _ _ _ M) as W. rewrite Forall_forall in W. apply W, E.
      * unfold mc_get_transaction_raw. rewrite (ms_txs _ _ _ _ M h), E. reflexivity.
    + split; [reflexivity|]. split; [reflexivity|]. unfold mc_get_transaction, mc_get_transaction_raw. rewrite (ms_txs _ _ _ _ M h), E. reflexivity.
  - intros w. destruct L as [L1 L2 L3 L4]. unfold t_get_amount, t_get_gas.
    split; [apply holds_get, L1|]. split; [apply holds_get, L2|]. split; [apply holds_get, L3|apply holds_get, L4].
  - eapply sim_summarize, H.
  - intros w Hw. destruct (sim_get k t n w H Hk Hw) as (c & G1 & G2 & G3 & _). exists c. split; [exact G1|]. apply rep_answers; [exact G2|lia].
Qed.

Lemma sim_start t : t_new disk_empty = Ok t -> sim 0 t n_start.
Proof.
  intros E. pose proof (open_main t E) as T. unfold t_new in E. cbn [k_main disk_empty] in E. rewrite mc_new_empty in E. cbn [bind] in E.
  apply ok_inj in E. split; cbn [n_start n_blocks n_txs n_chains n_open].
  - rewrite first_is_genesis. split; [exact T|cbn; lia|constructor; [exact I|constructor]|constructor; [exact beginning_domain|constructor]| |subst t; reflexivity|constructor].
    intros h. subst t. cbn [t_main mc_fresh mc_appended mc_refs]. rewrite sled_get_insert. unfold refs_of, block_by_hash. cbn [rev app find].
    destruct (bytes_eqb h (block_hash genesis)); reflexivity.
  - subst t. split; cbn [n_amounts n_gas n_old_amounts n_old_gas n_start t_summary t_gas t_old_summary t_old_gas]; try exact holds_empty.
    apply (holds_commit1 sled_empty [] ROOT_PUBLIC_ADDRESS COINS_PER_CYCLE holds_empty). reflexivity.
  - subst t. split; cbn [t_derivs]; [constructor|intros w c []|]. intros w Hw. unfold csim. cbn [t_derivs t_closed assoc_get n_start]. split; reflexivity.
Qed.

Lemma sim_run p evs : forall k t n, sim k t n -> few (k + length evs) -> Forall (sane p) evs ->
  exists t' rs, code_run p t evs = Some (t', rs) /\ Forall2 same_answer rs (snd (n_run p n evs)) /\ answers t' (fst (n_run p n evs)).
Proof.
  unfold few. induction evs as [|e evs IH]; intros k t n H Hf Hs.
  - exists t, []. split; [reflexivity|]. split; [constructor|]. eapply sim_answers; [exact H|]. cbn [length] in Hf. lia.
  - inversion Hs as [|? ? He Hes]; subst. cbn [length] in Hf. destruct e as [o|]; cbn [code_run n_run].
    + pose proof (sim_step p k t n o H ltac:(lia) He) as S. destruct (step p t o) as [t1 r]. destruct (n_step p n o) as [n1 a]. destruct S as [S1 S2].
      destruct (IH (S k) t1 n1 S1 ltac:(lia) Hes) as (t' & rs & E & F & A). rewrite E.
      destruct (n_run p n1 evs) as [n2 l]. cbn [fst snd] in *. exists t', (r :: rs). split; [reflexivity|]. split; [constructor; assumption|exact A].
    + destruct (sim_restart p k t n H ltac:(lia)) as (t1 & -> & S). apply (IH k t1 (n_restart n) S ltac:(lia) Hes).
Qed.

(*@T C111: whatever is called and however often the process is restarted with care, the code returns what the abstract node
    returns, and afterwards every question is answered from the state of the abstract node. *)
Lemma p_C111_refinement : forall p evs, few (length evs) -> Forall (sane p) evs ->
  exists t t' rs, t_new disk_empty = Ok t /\ code_run p t evs = Some (t', rs) /\
  let '(n, answered) := n_run p n_start evs in Forall2 same_answer rs answered /\ answers t' n.
Proof.
  intros p evs Hf Hs. destruct open_exists as (t & Et). destruct (sim_run p evs 0 t n_start (sim_start t Et) Hf Hs) as (t' & rs & E & F & A).
  exists t, t', rs. split; [exact Et|]. split; [exact E|]. destruct (n_run p n_start evs) as [n l]. split; assumption.
Qed.
(*@E
(* A run with two restarts: three derivative blocks and one main block are made, a transfer is made and one overdraft and one
   block without work are refused. *)
Example C111_ex :
  let evs := [Call (OAddAmount addrA 1000000000); Call (OAddGas addrA (10 ^ 18)); Call (OSendTx (demo_tx 1000 (repeat 7 64))); Call deriv_1;
    Restart; Call emit_good; Call deriv_2; Restart; Call (OSubAmount addrB 2000); Call emit_bad; Call deriv_2; Call (OGetDeriv addrA)] in
  few (length evs) /\ Forall (sane Debug) evs /\
  let '(n, l) := n_run Debug n_start evs in
  n_height n = 2 /\ length (snd (n_chain addrA n)) = 3%nat /\ held addrA (n_amounts n) = 999999000 /\ held addrB (n_amounts n) = 1000 /\
  held ROOT_PUBLIC_ADDRESS (n_amounts n) = COINS_PER_CYCLE /\ length (n_txs n) = 1%nat /\
  map (fun a => match a with Ok AUnit => 1 | Ok (ABlock _) => 2 | Ok (AChain _) => 3 | Err _ => 4 | Panic => 5 | UB => 6 end) l = [1; 1; 1; 2; 2; 2; 5; 4; 2; 3].
Proof.
  cbv zeta. split; [reflexivity|]. split.
  - repeat (apply Forall_cons; [repeat split; try reflexivity; repeat constructor; reflexivity|]). constructor.
  - vm_compute. repeat split.
Qed.
@*)
