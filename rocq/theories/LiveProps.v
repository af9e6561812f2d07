(** Proofs of the statements in P_Live.v. *)
From Coq Require Import Lia ZifyBool ZifyNat ZifyN.
From Verif Require Import Base Sha256 Merkle Tools Transaction Block Sled Chain Tree Spec Reach LedgerSpec LiveSpec Demo.
From Verif Require Import BaseFacts ToolsFacts MerkleFacts DiffFacts CodecFacts SledFacts ChainFacts TreeFacts LedgerFacts DerivFacts ValidateProps MainProps LedgerProps DerivProps.

Lemma reach_mono (ok ok' : op -> Prop) p n t : (forall o, ok o -> ok' o) -> reachable ok p n t -> reachable ok' p n t.
Proof.
  intros H Hr. induction Hr as [t E|n t o Hr IH Hwf Ho|n t t' Hr IH E].
  - apply reach_open, E.
  - apply reach_call; auto.
  - eapply reach_reopen; eassumption.
Qed.

(** ** Difficulties along a chain *)
Lemma begin_domain : In BEGINNING_DIFFICULTY domain.
Proof.
  assert (H : existsb (bytes_eqb BEGINNING_DIFFICULTY) domain = true) by (vm_compute; reflexivity).
  apply existsb_exists in H as (x & Hx & E). apply bytes_eqb_eq in E. subst x. exact Hx.
Qed.

Lemma recalc_in p a b d d' : In d domain -> recalculate_difficulty p a b d = Ok d' -> In d' domain.
Proof.
  intros H E. destruct (recalc_domain p a b d H) as [(x & E1 & H1)|(_ & _ & E1)]; rewrite E in E1; [|discriminate].
  injection E1 as <-. exact H1.
Qed.

Lemma main_link_diff p x y : main_link p x y ->
  recalculate_difficulty p (bi_timestamp (get_info x)) (bi_timestamp (get_info y)) (bi_difficulty (get_info x)) = Ok (bi_difficulty (get_info y)).
Proof. destruct y; cbn [main_link]; [intros (_ & _ & _ & _ & _ & _ & H & _)|intros []|intros (_ & _ & _ & H & _)]; exact H. Qed.

Lemma chain_domain {A} (R : A -> A -> Prop) (f : A -> bytes) :
  (forall x y, R x y -> In (f x) domain -> In (f y) domain) ->
  forall l, chained R l -> forall x, hd_error l = Some x -> In (f x) domain -> Forall (fun y => In (f y) domain) l.
Proof.
  intros HR l H. induction H as [|x|x y l Hxy H IH]; intros z Hz Hd.
  - constructor.
  - injection Hz as ->. constructor; [exact Hd|constructor].
  - injection Hz as ->. constructor; [exact Hd|]. apply (IH y); [reflexivity|]. eapply HR; eassumption.
Qed.

Lemma main_domain p t L : tree_inv t L -> chained (main_link p) L -> In (bi_difficulty (get_info (last L genesis))) domain.
Proof.
  intros HL Hk. assert (F : Forall (fun b => In (bi_difficulty (get_info b)) domain) L).
  { apply (chain_domain (main_link p) (fun b => bi_difficulty (get_info b))) with (x := genesis).
    - intros x y H Hx. eapply recalc_in; [exact Hx|eapply main_link_diff, H].
    - exact Hk.
    - pose proof (ti_gen _ _ HL) as Hg. destruct L; [discriminate Hg|exact Hg].
    - exact begin_domain. }
  rewrite Forall_forall in F. apply F, last_in. eapply tree_inv_ne, HL.
Qed.

Lemma recalc_outcome p a b d : In d domain ->
  (time_ok p a b /\ exists d', recalculate_difficulty p a b d = Ok d' /\ In d' domain) \/
  (~ time_ok p a b /\ recalculate_difficulty p a b d = Panic).
Proof.
  intros H. destruct (recalc_domain p a b d H) as [(x & E1 & H1)|(Hp & Hlt & E1)].
  - left. split; [|eauto]. intros ->. destruct (N.le_gt_cases a b) as [|Hlt]; [assumption|].
    rewrite recalc_retarget in E1. unfold u64_sub in E1. destruct (N.leb_spec a b); [lia|]. discriminate E1.
  - right. split; [|exact E1]. intros T. specialize (T Hp). lia.
Qed.

(*@T C78 *)
Lemma p_C78_emission_decision : forall p n t pow founder txs ts root,
  reachable no_raw_main p n t -> few n ->
  is_array 32 pow -> is_array 33 founder -> Forall (is_array 32) txs -> u64_ok ts ->
  merkle_root_of txs root ->
  exists prev, mc_get_last_block (t_main t) = Ok (Some prev) /\
  let h := mc_get_height (t_main t) in
  let prev_ts := bi_timestamp (get_info prev) in
  let valid := work (block_hash prev) (bi_difficulty (get_info prev)) root pow in
  let r := snd (t_emmit_new_main_block p pow founder txs ts t) in
  (~ valid -> r = Err ETreeWrongPow) /\
  (valid -> ~ time_ok p prev_ts ts -> r = Panic) /\
  (valid -> time_ok p prev_ts ts -> txs = [] -> h mod 1000000 <> 0 -> r = Err ETreeCreateMainChainBlock) /\
  (valid -> time_ok p prev_ts ts -> txs <> [] -> h mod 1000000 = 0 -> r = Err ETreeSummarizeWrongTxAmount) /\
  (valid -> time_ok p prev_ts ts -> (txs = [] <-> h mod 1000000 = 0) -> exists b, r = Ok b).
Proof.
  intros p n t pow founder txs ts root Hr Hn Hpow Hf Ht Hts Hroot. apply mroot_iff in Hroot. subst root.
  destruct (linked_list p n t Hr Hn) as (L & HL & Hlen & Hk). unfold few in Hn.
  pose proof (main_domain p t L HL Hk) as Hd. set (lst := last L genesis) in *.
  destruct (tree_last t L HL ltac:(lia)) as [[_ Hl]|[(i & Hi) _]].
  2:{ exfalso. pose proof (tree_inv_ne _ _ HL) as Hne. destruct (exists_last Hne) as (L0 & x & E). unfold lst in *.
      rewrite E, last_last in Hi. subst x. pose proof (ti_gen _ _ HL) as Hg. rewrite E in Hg, Hk.
      destruct L0 as [|y L0]; [discriminate Hg|].
      apply (chained_in_kind p _ Hk (length L0) (DerivBlock i)). cbn [app nth_error]. rewrite nth_error_app2 by lia.
      rewrite Nat.sub_diag. reflexivity. }
  exists lst. split; [exact Hl|]. cbv zeta. unfold mc_get_height.
  destruct (tree_last_height t L HL) as [Hh Hw]. fold lst in Hh, Hw.
  pose proof (block_info_wf _ Hw) as (_ & _ & _ & _ & [Hdl Hdo] & _).
  pose proof (mi_height _ _ (ti_main _ _ HL)) as Hlh.
  unfold t_emmit_new_main_block. rewrite Hl. fold lst. cbn [bind unwrap_opt]. rewrite check_pow_eq. cbn [bind]. unfold work.
  destruct (N.leb_spec (count_leading_zeros (bi_difficulty (get_info lst)))
    (count_leading_zeros (sha256 (block_hash lst ++ mroot txs ++ pow)))) as [Hwk|Hwk]; cbn [negb];
    rewrite !clz_spec in Hwk by (try exact Hdo; apply sha256_array).
  2:{ split; [reflexivity|]. repeat split; intros V; exfalso; lia. }
  split; [intros V; exfalso; lia|].
  destruct (recalc_outcome p (bi_timestamp (get_info lst)) ts _ Hd) as [[Hok (d & Ed & Hdd)]|[Hok Ed]]; rewrite Ed; cbn [bind].
  2:{ split; [reflexivity|]. repeat split; intros _ T; contradiction. }
  split; [intros _ T; contradiction|].
  pose proof (domain_ok d Hdd) as [[Hdl' _] _]. destruct (fee_eq d) as [Hfe _]; [lia|]. rewrite Hfe. cbn [bind].
  assert (Ha : u256_add (bi_height (get_info lst)) 1 = Ok (mc_height (t_main t))).
  { unfold u256_add. destruct (N.ltb_spec (bi_height (get_info lst) + 1) (2 ^ 256)) as [_|]; [|lia]. rewrite Hh. reflexivity. }
  rewrite Ha. cbn [bind bi_height]. clear Ha. change BLOCKS_PER_EPOCH with 1000000.
  destruct (N.eqb_spec (mc_height (t_main t) mod 1000000) 0) as [Hm|Hm]; destruct txs as [|x txs].
  - split; [intros _ _ _ H; contradiction|]. split; [intros _ _ H; contradiction|]. intros _ _ _.
    rewrite summarize_ok. set (rt := mroot _).
    change (t_set_amount ROOT_PUBLIC_ADDRESS COINS_PER_CYCLE (t_rotate_dbs t)) with (rotated t, @Ok unit tt).
    cbv beta zeta iota.
    rewrite (mc_add_block_right (SummBlock (MkInfo ts pow (block_hash lst) (mc_height (t_main t)) d founder) rt) (t_main (rotated t)));
      [eexists; reflexivity|reflexivity|].
    change (mc_height (t_main (rotated t))) with (mc_height (t_main t)). lia.
  - split; [discriminate|]. split; [reflexivity|]. intros _ _ [_ H]. specialize (H Hm). discriminate.
  - split; [reflexivity|]. split; [intros _ _ H; contradiction|]. intros _ _ [H _]. specialize (H eq_refl). contradiction.
  - split; [discriminate|]. split; [intros _ _ _ H; contradiction|]. intros _ _ _.
    pose proof (mroot_ok (x :: txs)) as Hrt. rewrite Hrt. rewrite mc_add_block_right; [eexists; reflexivity|reflexivity|lia].
Qed.
(*@E
Example C78_ex : reachable no_raw_main Debug 0 fresh /\
  snd (t_emmit_new_main_block Debug (repeat 3 32) addrA [txh] 1597925000 fresh) <> Err ETreeWrongPow /\
  snd (t_emmit_new_main_block Debug (repeat 1 32) addrA [txh] 1597925000 fresh) = Err ETreeWrongPow /\
  snd (t_emmit_new_main_block Debug (repeat 3 32) addrA [txh] 5 fresh) = Panic /\
  snd (t_emmit_new_main_block Debug (repeat 1 32) addrA [] 1597925000 fresh) = Err ETreeCreateMainChainBlock.
Proof.
  split; [apply reach_open; vm_compute; reflexivity|]. split; [vm_compute; discriminate|]. vm_compute. auto.
Qed.
@*)

(** ** Derivative chains *)

Lemma tree_inv_unique t L L' : tree_inv t L -> tree_inv t L' -> N.of_nat (length L) < 2 ^ 256 -> L = L'.
Proof.
  intros H H' Hlen. pose proof (mi_height _ _ (ti_main _ _ H)) as E. pose proof (mi_height _ _ (ti_main _ _ H')) as E'.
  assert (El : length L = length L') by lia.
  assert (Hn : forall i, nth_error L i = nth_error L' i).
  { intros i. rewrite !nth_nthN.
    pose proof (main_find_raw _ L (N.of_nat i) (ti_main _ _ H) Hlen) as F.
    pose proof (main_find_raw _ L' (N.of_nat i) (ti_main _ _ H') ltac:(lia)) as F'. rewrite F in F'.
    pose proof (ti_wf _ _ H) as W. pose proof (ti_wf _ _ H') as W'. rewrite Forall_forall in W, W'.
    destruct (nthN L (N.of_nat i)) as [b|] eqn:B; destruct (nthN L' (N.of_nat i)) as [b'|] eqn:B'; cbn [option_map] in F'; try discriminate F'; [|reflexivity].
    f_equal. apply block_dump_inj; [apply W; eapply nthN_in, B|apply W'; eapply nthN_in, B'|]. injection F' as F'. exact F'. }
  clear -El Hn. revert L' El Hn. induction L as [|x L IH]; intros [|y L'] El Hn; try discriminate El; [reflexivity|].
  pose proof (Hn 0%nat) as H0. cbn in H0. injection H0 as ->. f_equal. apply IH; [cbn in El; lia|]. intros i. exact (Hn (S i)).
Qed.

Lemma linked_derivs p n t : reachable emission_only p n t -> few n ->
  exists L, tree_inv t L /\ (length L <= n + 1)%nat /\ chained (main_link p) L /\ derivs_inv p true L n t.
Proof.
  intros Hr Hn.
  destruct (linked_list p n t (reach_mono _ _ _ _ _ (fun o (H : emission_only o) => proj1 H) Hr) Hn) as (L & HL & Hlen & Hk).
  destruct (reachable_derivs true _ _ _ _ Hr (fun o (H : emission_only o) => strict_true o (proj2 H)) Hn) as (L' & HL' & _ & HD).
  unfold few in Hn. assert (L = L') as <- by (eapply tree_inv_unique; [eassumption|eassumption|lia]). eauto.
Qed.

Lemma main_kind p t L : tree_inv t L -> chained (main_link p) L -> forall b, In b L -> match b with DerivBlock _ => False | _ => True end.
Proof.
  intros HL Hk b Hb. apply In_nth_error in Hb as (k & Hb). destruct k as [|k].
  - rewrite (ti_gen _ _ HL) in Hb. injection Hb as <-. exact I.
  - eapply chained_in_kind; eassumption.
Qed.

Lemma deriv_domain p L w c B : deriv_inv p true L w c B -> Forall (fun i => In (bi_difficulty i) domain) B.
Proof.
  intros HB. destruct B as [|x B]; [constructor|].
  destruct (co_strict _ _ _ _ _ _ _ (di_chain _ _ _ _ _ _ HB) eq_refl) as (_ & Hc & Hs).
  destruct (Hs x eq_refl) as (m & _ & _ & _ & _ & Hd & _).
  apply (chain_domain (deriv_link p) bi_difficulty) with (x := x).
  - intros a b (_ & _ & Hab & _) Ha. eapply recalc_in; eassumption.
  - exact Hc.
  - reflexivity.
  - eapply recalc_in; [exact begin_domain|exact Hd].
Qed.

(*@T C79 *)
Lemma p_C79_derivative_emission_decision : forall p n t pow founder ts,
  reachable emission_only p n t -> few n ->
  is_array 32 pow -> is_array 33 founder -> u64_ok ts ->
  exists c h d prev_ts, snd (t_get_derivative_chain founder t) = Ok c /\ deriv_predecessor t c h d prev_ts /\
  let valid := work h d ff32 pow in
  let r := snd (t_emmit_new_derivative_block p pow founder ts t) in
  (~ valid -> r = Err ETreeWrongPow) /\
  (valid -> ~ time_ok p prev_ts ts -> r = Panic) /\
  (valid -> time_ok p prev_ts ts -> exists b, r = Ok b).
Proof.
  intros p n t pow founder ts Hr Hn Hpow Hf Hts. destruct (linked_derivs p n t Hr Hn) as (L & HL & Hlen & Hk & HD). unfold few in Hn.
  destruct (get_deriv_inv p true L n t founder HL ltac:(lia) HD ltac:(lia) Hf) as [HD1 Hg].
  pose proof (get_deriv_main founder t) as Hm.
  unfold t_emmit_new_derivative_block.
  destruct (get_deriv_spec p true L n t founder HL ltac:(lia) HD ltac:(lia) Hf) as [(c & _ & E)|[(_ & (i & Hi) & E)|(_ & _ & c & _ & E)]].
  2:{ exfalso. apply (main_kind p t L HL Hk (DerivBlock i)). rewrite <- Hi. apply last_in. eapply tree_inv_ne, HL. }
  1,2: match type of E with _ = (?x, _) => set (t1 := x) in * end; rewrite E in *; cbn [fst snd] in *; clear E.
  all: destruct (derivs_inv_get _ _ _ _ _ _ _ HD1 Hg) as (_ & B & HB & HlB).
  all: assert (Hend : forall h d prev_ts height, is_array 32 d -> In d domain -> height = dc_height c ->
    let r := snd (match (let! ok := check_pow h d [] pow in
        if negb ok then Err ETreeWrongPow
        else let! d := recalculate_difficulty p prev_ts ts d in Ok (MkInfo ts pow h height d founder)) with
      | Ok info => let '(dc', ra) := dc_add_block info c in
          (with_derivs t1 (assoc_set founder dc' (t_derivs t1)),
           match ra with Ok _ => Ok (DerivBlock info) | Err e => Err e | Panic => Panic | UB => UB end)
      | Err e => (t1, Err e) | Panic => (t1, Panic) | UB => (t1, UB)
      end) in
    (~ work h d ff32 pow -> r = Err ETreeWrongPow) /\
    (work h d ff32 pow -> ~ time_ok p prev_ts ts -> r = Panic) /\
    (work h d ff32 pow -> time_ok p prev_ts ts -> exists b, r = Ok b)).
  1,3: intros h d prev_ts height Hda Hd Hh; cbv zeta; rewrite check_pow_eq, mroot_nil; cbn [bind]; unfold work;
    destruct (N.leb_spec (count_leading_zeros d) (count_leading_zeros (sha256 (h ++ ff32 ++ pow)))) as [Hw|Hw]; cbn [negb];
      rewrite !clz_spec in Hw by (try apply Hda; apply sha256_array);
    [|split; [reflexivity|]; split; intros V; exfalso; lia];
    (split; [intros V; exfalso; lia|]);
    destruct (recalc_outcome p prev_ts ts _ Hd) as [[Hok (d' & Ed & _)]|[Hok Ed]]; rewrite Ed; cbn [bind];
    [|split; [reflexivity|intros _ T; contradiction]];
    (split; [intros _ T; contradiction|]); intros _ _;
    pose proof (di_height _ _ _ _ _ _ HB) as Hdh;
    rewrite dc_add_block_right by (cbn [bi_height]; lia); cbn [snd]; eexists; reflexivity.
  all: rewrite (deriv_last _ _ _ _ _ _ HB); cbn [bind]; pose proof (di_height _ _ _ _ _ _ HB) as Hdh; pose proof (deriv_domain _ _ _ _ _ HB) as Hdom.
  all: destruct B as [|x B].
  1,3: destruct (di_genesis _ _ _ _ _ _ HB) as [Hga (m & Hm1 & Hm2)];
    assert (HLt1 : tree_inv t1 L) by (eapply tree_inv_main; eassumption);
    pose proof (main_find_raw_hash _ L (dc_genesis c) (ti_main _ _ HLt1) ltac:(lia)) as Hfh;
    assert (Hfb : exists b, mc_find_by_hash (dc_genesis c) (t_main t1) = Ok (Some b) /\ block_hash b = dc_genesis c);
    [unfold mc_find_by_hash; destruct (mc_find_raw_by_hash (dc_genesis c) (t_main t1)) as [[d|]|e| |]; try contradiction;
      [|contradiction (Hfh m Hm1 Hm2)];
      destruct Hfh as (k & b & Hkb & -> & Hbh); cbn [bind];
      destruct (tree_readable t1 L k b HLt1 ltac:(lia) Hkb) as [Hrb|(info & ->)];
      [exists b; rewrite (readable_decode b Hrb); split; [reflexivity|exact Hbh]
      |exfalso; exact (main_kind p t L HL Hk _ (nthN_in _ _ _ Hkb))]|];
    destruct Hfb as (b & Hb & Hbh); rewrite Hb; cbn [bind];
    exists c, (block_hash b), BEGINNING_DIFFICULTY, (bi_timestamp (get_info b)); split; [reflexivity|]; split;
    [right; split; [apply (deriv_last _ _ _ _ _ _ HB)|]; exists b; try rewrite <- Hm; auto|];
    apply Hend; [split; [reflexivity|repeat constructor; reflexivity]|exact begin_domain|symmetry; exact Hdh].
  all: set (l := x :: B) in *; assert (Hn1 : nthN l (N.of_nat (length l) - 1) = Some (last l x)) by (apply nthN_last; discriminate);
    pose proof (di_chain _ _ _ _ _ _ HB) as [_ C2 C3 _]; pose proof (C2 _ _ Hn1) as Hhl;
    rewrite Forall_forall in C3, Hdom; pose proof (C3 _ (nthN_in _ _ _ Hn1)) as (_ & _ & _ & _ & Hdl & _);
    assert (Hl0 : 0 < N.of_nat (length l)) by (cbn; lia);
    cbn [get_info]; rewrite Hhl;
    assert (Ha : u256_add (N.of_nat (length l) - 1) 1 = Ok (dc_height c))
      by (unfold u256_add; destruct (N.ltb_spec (N.of_nat (length l) - 1 + 1) (2 ^ 256)) as [_|]; [|lia]; f_equal; lia);
    rewrite Ha; cbn [bind];
    exists c, (block_hash (DerivBlock (last l x))), (bi_difficulty (last l x)), (bi_timestamp (last l x));
    (split; [reflexivity|]; split; [left; exists (last l x); split; [apply (deriv_last _ _ _ _ _ _ HB)|auto]|]);
    apply Hend; [exact Hdl|apply Hdom; eapply nthN_in, Hn1|reflexivity].
Qed.
(*@E
Example C79_ex : reachable emission_only Debug 1 (run Debug fresh [deriv_1]) /\
  (exists b, snd (t_emmit_new_derivative_block Debug (repeat 1 32) addrA 1597925000 fresh) = Ok b) /\
  (exists b, snd (t_emmit_new_derivative_block Debug (repeat 4 32) addrA 1597926000 (run Debug fresh [deriv_1])) = Ok b) /\
  snd (t_emmit_new_derivative_block Debug (repeat 2 32) addrA 1597926000 (run Debug fresh [deriv_1])) = Err ETreeWrongPow /\
  snd (t_emmit_new_derivative_block Debug (repeat 4 32) addrA 1597924999 (run Debug fresh [deriv_1])) = Panic.
Proof.
  split.
  - apply (reach_call emission_only Debug 0 fresh deriv_1); [apply reach_open; vm_compute; reflexivity| |split; exact I].
    repeat split; repeat constructor; reflexivity.
  - split; [eexists; vm_compute; reflexivity|]. split; [eexists; vm_compute; reflexivity|]. vm_compute. auto.
Qed.
@*)

(** ** C80: memory safety *)

Lemma first_nonzero_lt d : forall i, (first_nonzero i d < i + length d)%nat \/ first_nonzero i d = 0%nat.
Proof.
  induction d as [|b d IH]; intros i; cbn [first_nonzero length]; [right; reflexivity|].
  destruct (negb (b =? 0)); [left; lia|]. destruct (IH (S i)) as [H|H]; [left; lia|right; exact H].
Qed.
(** The only unsafe access of a retarget. *)
Lemma recalc_safe p a b d : length d = 32%nat -> (p = Debug \/ In d domain) -> recalculate_difficulty p a b d <> UB.
Proof.
  intros Hl [->|H].
  2:{ destruct (recalc_domain p a b d H) as [(x & -> & _)|(_ & _ & ->)]; discriminate. }
  assert (Hs : forall i x, (i < 32)%nat -> set_unchecked d i x <> UB) by (intros i x Hi; rewrite set_unchecked_ok by lia; discriminate).
  assert (Hi : forall i, (i < 32)%nat -> exists x, index_unchecked d i = Ok x).
  { intros i Hi. unfold index_unchecked. destruct (nth_error d i) as [x|] eqn:E; [eauto|]. apply nth_error_None in E. lia. }
  assert (Hn : (first_nonzero 0 d < 32)%nat) by (destruct (first_nonzero_lt d 0) as [H|H]; lia).
  unfold recalculate_difficulty, u64_sub. destruct (a <=? b); cbn [bind]; [|discriminate].
  destruct (Hi _ Hn) as (v & Ev). destruct (b - a ?= TIME_PER_BLOCK); [discriminate|rewrite Ev; cbn [bind]; apply Hs, Hn|rewrite Ev; cbn [bind]].
  destruct (Nat.eqb (first_nonzero 0 d) 0 && (v =? 127))%bool; [discriminate|]. destruct (v =? 255); [|apply Hs, Hn].
  destruct (first_nonzero 0 d) as [|i]; [discriminate|]. destruct (Hi i ltac:(lia)) as (v' & ->). cbn [bind]. apply Hs. lia.
Qed.

Lemma led_tx_safe s r : r <> UB -> snd (led_tx s r) <> UB.
Proof. destruct r; intros H; try discriminate. contradiction. Qed.
Lemma led_add_safe w a s : led_ok s -> snd (led_add w a s) <> UB.
Proof. intros H. apply led_tx_safe. destruct (led_get_bal s w H) as [-> _]. cbn [bind]. unfold u256_add. destruct (_ <? _); discriminate. Qed.
Lemma led_sub_safe w a s : led_ok s -> snd (led_sub w a s) <> UB.
Proof.
  intros H. apply led_tx_safe. destruct (led_get_bal s w H) as [-> _]. cbn [bind]. destruct (_ <? _); [discriminate|].
  unfold u256_sub. destruct (_ <=? _); discriminate.
Qed.
Lemma led_send_safe x y a s : led_ok s -> snd (led_send x y a s) <> UB.
Proof.
  intros H. apply led_tx_safe. destruct (led_get_bal s x H) as [-> _]. destruct (led_get_bal s y H) as [-> _]. cbn [bind].
  destruct (_ <? _); [discriminate|]. unfold u256_sub. destruct (_ <=? _); [|discriminate]. cbn [bind].
  unfold u256_add. destruct (_ <? _); discriminate.
Qed.
Lemma ret_unit_safe x : snd x <> UB -> snd (ret_unit x) <> UB.
Proof. destruct x as [t [u|e| |]]; intros H; try discriminate. contradiction. Qed.
Lemma ret_block_safe x : snd x <> UB -> snd (ret_block x) <> UB.
Proof. destruct x as [t [u|e| |]]; intros H; try discriminate. contradiction. Qed.
Lemma on_summary_safe f t : snd (f (t_summary t)) <> UB -> snd (t_on_summary f t) <> UB.
Proof. unfold t_on_summary. destruct (f (t_summary t)) as [s r]. exact (fun H => H). Qed.
Lemma on_gas_safe f t : snd (f (t_gas t)) <> UB -> snd (t_on_gas f t) <> UB.
Proof. unfold t_on_gas. destruct (f (t_gas t)) as [s r]. exact (fun H => H). Qed.

Lemma emit_main_safe p t L pow founder txs ts : tree_inv t L -> N.of_nat (length L) + 1 < 2 ^ 256 ->
  (p = Debug \/ In (bi_difficulty (get_info (last L genesis))) domain) ->
  snd (t_emmit_new_main_block p pow founder txs ts t) <> UB.
Proof.
  intros HL Hlen Hd. set (lst := last L genesis) in *.
  destruct (tree_last_height t L HL) as [Hh Hw]. fold lst in Hh, Hw.
  pose proof (block_info_wf _ Hw) as (_ & _ & _ & _ & [Hdl Hdo] & _).
  pose proof (mi_height _ _ (ti_main _ _ HL)) as Hlh.
  unfold t_emmit_new_main_block.
  destruct (tree_last t L HL ltac:(lia)) as [[_ Hl]|[_ Hl]]; rewrite Hl; cbn [bind unwrap_opt]; [|discriminate]. fold lst.
  rewrite check_pow_eq. cbn [bind]. destruct (negb _); [discriminate|].
  pose proof (recalc_safe p (bi_timestamp (get_info lst)) ts _ Hdl Hd) as Hs.
  destruct (recalculate_difficulty p (bi_timestamp (get_info lst)) ts (bi_difficulty (get_info lst))) as [d|e| |] eqn:Ed; cbn [bind]; try discriminate; [|contradiction].
  pose proof (recalc_wf _ _ _ _ _ (conj Hdl Hdo) Ed) as [Hdl' _].
  destruct (fee_eq d) as [Hfe _]; [lia|]. rewrite Hfe. cbn [bind].
  assert (Ha : u256_add (bi_height (get_info lst)) 1 = Ok (mc_height (t_main t))).
  { unfold u256_add. destruct (N.ltb_spec (bi_height (get_info lst) + 1) (2 ^ 256)) as [_|]; [|lia]. rewrite Hh. reflexivity. }
  rewrite Ha. cbn [bind bi_height]. clear Ha.
  destruct (mc_height (t_main t) mod BLOCKS_PER_EPOCH =? 0); destruct txs as [|x txs]; try discriminate.
  - rewrite summarize_ok. set (rt := mroot _).
    change (t_set_amount ROOT_PUBLIC_ADDRESS COINS_PER_CYCLE (t_rotate_dbs t)) with (rotated t, @Ok unit tt).
    cbv beta zeta iota. rewrite mc_add_block_right; [discriminate|reflexivity|].
    change (mc_height (t_main (rotated t))) with (mc_height (t_main t)). lia.
  - pose proof (mroot_ok (x :: txs)) as Hrt. rewrite Hrt. rewrite mc_add_block_right; [discriminate|reflexivity|lia].
Qed.

Lemma emit_deriv_safe p s t L n pow founder ts : tree_inv t L -> N.of_nat (length L) + 1 < 2 ^ 256 ->
  derivs_inv p s L n t -> N.of_nat n + 1 < 2 ^ 256 -> is_array 33 founder -> (p = Debug \/ s = true) ->
  snd (t_emmit_new_derivative_block p pow founder ts t) <> UB.
Proof.
  intros HL Hlen HD Hn Hf Hp. destruct (get_deriv_inv p s L n t founder HL ltac:(lia) HD ltac:(lia) Hf) as [HD1 Hg].
  pose proof (get_deriv_main founder t) as Hm. unfold t_emmit_new_derivative_block.
  destruct (t_get_derivative_chain founder t) as [t1 [c|e| |]] eqn:E; cbn [fst snd] in *; try discriminate; [|contradiction].
  destruct (derivs_inv_get _ _ _ _ _ _ _ HD1 Hg) as (_ & B & HB & HlB).
  assert (Hend : forall h d prev_ts height, length d = 32%nat -> (p = Debug \/ In d domain) -> height = dc_height c ->
    snd (match (let! ok := check_pow h d [] pow in
        if negb ok then Err ETreeWrongPow
        else let! d := recalculate_difficulty p prev_ts ts d in Ok (MkInfo ts pow h height d founder)) with
      | Ok info => let '(dc', ra) := dc_add_block info c in
          (with_derivs t1 (assoc_set founder dc' (t_derivs t1)),
           match ra with Ok _ => Ok (DerivBlock info) | Err e => Err e | Panic => Panic | UB => UB end)
      | Err e => (t1, Err e) | Panic => (t1, Panic) | UB => (t1, UB)
      end) <> UB).
  { intros h d prev_ts height Hdl Hd Hh. rewrite check_pow_eq. cbn [bind]. destruct (negb _); [discriminate|].
    pose proof (recalc_safe p prev_ts ts d Hdl Hd) as Hs.
    destruct (recalculate_difficulty p prev_ts ts d) as [d'|e| |]; cbn [bind]; try discriminate; [|contradiction].
    pose proof (di_height _ _ _ _ _ _ HB). rewrite dc_add_block_right by (cbn [bi_height]; lia). discriminate. }
  rewrite (deriv_last _ _ _ _ _ _ HB). cbn [bind]. pose proof (di_height _ _ _ _ _ _ HB) as Hdh.
  destruct B as [|x B].
  - assert (HLt1 : tree_inv t1 L) by (eapply tree_inv_main; eassumption).
    pose proof (main_find_raw_hash _ L (dc_genesis c) (ti_main _ _ HLt1) ltac:(lia)) as Hfh. unfold mc_find_by_hash.
    destruct (mc_find_raw_by_hash (dc_genesis c) (t_main t1)) as [[d|]|e| |]; try contradiction; [|discriminate].
    destruct Hfh as (k & b & Hkb & -> & Hbh). cbn [bind].
    destruct (tree_readable t1 L k b HLt1 ltac:(lia) Hkb) as [Hrb|(info & ->)].
    + rewrite (readable_decode b Hrb). cbn [bind]. apply Hend; [reflexivity|right; exact begin_domain|symmetry; exact Hdh].
    + unfold mc_decode. rewrite deserialize_deriv. discriminate.
  - set (l := x :: B) in *. assert (Hn1 : nthN l (N.of_nat (length l) - 1) = Some (last l x)) by (apply nthN_last; discriminate).
    pose proof (di_chain _ _ _ _ _ _ HB) as [_ C2 C3 _]. pose proof (C2 _ _ Hn1) as Hhl.
    rewrite Forall_forall in C3. pose proof (C3 _ (nthN_in _ _ _ Hn1)) as (_ & _ & _ & _ & Hdl & _).
    assert (Hl0 : 0 < N.of_nat (length l)) by (cbn; lia).
    cbn [get_info]. rewrite Hhl.
    assert (Ha : u256_add (N.of_nat (length l) - 1) 1 = Ok (dc_height c))
      by (unfold u256_add; destruct (N.ltb_spec (N.of_nat (length l) - 1 + 1) (2 ^ 256)) as [_|]; [|lia]; f_equal; lia).
    rewrite Ha. cbn [bind]. apply Hend; [apply Hdl| |reflexivity].
    destruct Hp as [Hp|Hp]; [left; exact Hp|right]. subst s. pose proof (deriv_domain _ _ _ _ _ HB) as Hdom.
    rewrite Forall_forall in Hdom. apply Hdom. eapply nthN_in, Hn1.
Qed.

Lemma send_tx_safe tx t L : tree_inv t L -> N.of_nat (length L) + 1 < 2 ^ 256 -> ledgers_ok t ->
  snd (t_send_transaction tx t) <> UB.
Proof.
  intros HL Hlen [H1 H2 _ _]. unfold t_send_transaction, t_get_gas, t_get_amount.
  destruct (led_get_bal _ (tx_sender tx) H1) as [-> _]. destruct (led_get_bal _ (tx_sender tx) H2) as [-> _]. cbn [bind].
  unfold u256_mul at 1. destruct (_ <? _); cbn [bind]; [|discriminate]. destruct (_ <? _); [discriminate|].
  destruct (tree_last t L HL ltac:(lia)) as [[_ Hl]|[_ Hl]]; rewrite Hl; cbn [bind unwrap_opt]; [|discriminate].
  unfold recalculate_fee, u256_mul. destruct (_ <? _); cbn [bind]; [|discriminate].
  unfold u256_add. destruct (_ <? _); cbn [bind]; [|discriminate]. destruct (_ <? _); [discriminate|].
  unfold t_send_amount. set (t1 := with_main t _). destruct (bytes_eqb _ _); [apply on_gas_safe, led_sub_safe, H2|].
  pose proof (on_summary_safe (led_send (tx_sender tx) (tx_receiver tx) (tx_amount tx)) t1 (led_send_safe _ _ _ _ H1)) as S.
  assert (Hg : t_gas (fst (t_on_summary (led_send (tx_sender tx) (tx_receiver tx) (tx_amount tx)) t1)) = t_gas t).
  { unfold t_on_summary. destruct (led_send _ _ _ _). reflexivity. }
  destruct (t_on_summary (led_send (tx_sender tx) (tx_receiver tx) (tx_amount tx)) t1) as [t2 [u|e| |]]; cbn [fst snd] in *; try discriminate; [|contradiction].
  apply on_gas_safe, led_sub_safe. rewrite Hg. exact H2.
Qed.

Lemma step_safe p s t L n o : tree_inv t L -> N.of_nat (length L) + 1 < 2 ^ 256 -> ledgers_ok t ->
  derivs_inv p s L n t -> N.of_nat n + 1 < 2 ^ 256 -> op_wf o ->
  (p = Debug \/ s = true /\ In (bi_difficulty (get_info (last L genesis))) domain) ->
  snd (step p t o) <> UB.
Proof.
  intros HL Hlen Hled HD Hn Hwf Hp. pose proof Hled as [H1 H2 _ _]. destruct o; cbn [step op_wf] in *.
  - apply ret_unit_safe, on_summary_safe, led_add_safe, H1.
  - apply ret_unit_safe, on_summary_safe. discriminate.
  - apply ret_unit_safe, on_summary_safe, led_sub_safe, H1.
  - apply ret_unit_safe. unfold t_send_amount. destruct (bytes_eqb _ _); [discriminate|]. apply on_summary_safe, led_send_safe, H1.
  - apply ret_unit_safe, on_gas_safe, led_add_safe, H2.
  - apply ret_unit_safe, on_gas_safe, led_sub_safe, H2.
  - apply ret_unit_safe, on_gas_safe, led_send_safe, H2.
  - apply ret_unit_safe. eapply send_tx_safe; eassumption.
  - apply ret_block_safe. eapply emit_main_safe; [eassumption|assumption|tauto].
  - apply ret_block_safe. eapply emit_deriv_safe; try eassumption; [apply Hwf|tauto].
  - destruct (get_deriv_inv p s L n t owner HL ltac:(lia) HD ltac:(lia) Hwf) as [_ Hg].
    destruct (t_get_derivative_chain owner t) as [t1 [c|e| |]]; cbn [fst snd bind] in *; try discriminate; contradiction.
  - apply ret_unit_safe. unfold t_add_new_block, mc_add_block. destruct (negb _); [discriminate|]. unfold u256_add.
    destruct (_ <? _); discriminate.
  - discriminate.
  - destruct (assoc_get owner (t_derivs t)) as [c|]; [|discriminate]. unfold dc_add_block. destruct (negb _); [discriminate|]. unfold u256_add.
    destruct (_ <? _); discriminate.
  - discriminate.
  - discriminate.
  - destruct (assoc_get owner (t_derivs t)); discriminate.
Qed.

(*@T C80, blocks made by emission only: no call, whatever its arguments (raw block additions
    included), reaches undefined behaviour, in any build profile. *)
Lemma p_C80_no_undefined_behaviour_partial : forall p n t o,
  reachable emission_only p n t -> few n -> op_wf o -> snd (step p t o) <> UB.
Proof.
  intros p n t o Hr Hn Hwf. destruct (linked_derivs p n t Hr Hn) as (L & HL & Hlen & Hk & HD).
  pose proof (reachable_ledgers _ _ _ _ Hr Hn) as Hl. unfold few in Hn.
  eapply (step_safe p true); try eassumption; try lia. right. split; [reflexivity|]. eapply main_domain; eassumption.
Qed.
(*@T C80, builds with overflow checks: no call of any history reaches undefined behaviour. *)
Lemma p_C80_checked_builds : forall ok n t o,
  reachable ok Debug n t -> few n -> op_wf o -> snd (step Debug t o) <> UB.
Proof.
  intros ok n t o Hr Hn Hwf. destruct (reachable_derivs false _ _ _ _ Hr (strict_false ok) Hn) as (L & HL & Hlen & HD).
  pose proof (reachable_ledgers _ _ _ _ Hr Hn) as Hl. unfold few in Hn.
  eapply (step_safe Debug false); try eassumption; try lia. left. reflexivity.
Qed.
(** A block whose difficulty starts with a set bit. *)
Definition loose_block : block :=
  TxBlock 0 (repeat 0 32) (MkInfo 1597924900 (repeat 0 32) (repeat 0 32) 1 (repeat 255 32) addrA) [txh].
(*@T C80 is false of the code in release builds: after [add_new_block] with such a block, an
    emission reads and writes far outside the difficulty array. *)
Lemma p_C80_release_refuted :
  exists t o, reachable any_op Release 1 t /\ op_wf o /\ snd (step Release t o) = UB.
Proof.
  exists (fst (step Release fresh (OAddNewBlock loose_block []))), (OEmitMain (repeat 0 32) addrA [txh] 1597926000).
  split; [|split].
  - apply reach_call; [apply reach_open; vm_compute; reflexivity| |exact I]. split; [|constructor].
    repeat split; repeat constructor; reflexivity.
  - repeat split; repeat constructor; reflexivity.
  - vm_compute. reflexivity.
Qed.
(*@T C80 has teeth: nothing in the Merkle module checks its indices.  On node arrays that are too short, reading the root,
    hashing a pair and padding a place are all out of bounds. *)
Lemma p_C80_unchecked : forall arr depth k,
  (arr = [] -> get_root (MkTree arr depth k) = UB) /\
  ((length arr <= k)%nat -> hash_pair arr k = UB /\ put_padding arr k 1 = UB).
Proof.
  intros arr depth k. split; [intros ->; reflexivity|]. intros H. split.
  - unfold hash_pair, index_unchecked. rewrite (proj2 (nth_error_None _ _) H). reflexivity.
  - cbn [put_padding]. unfold set_unchecked. rewrite (proj2 (Nat.ltb_ge _ _) H). reflexivity.
Qed.
(*@E
Example C80_ex : reachable emission_only Release 1 (run Release fresh [deriv_1]) /\
  (exists b, snd (step Release (run Release fresh [deriv_1]) emit_good) = Ok (RBlock b)).
Proof.
  split.
  - apply (reach_call emission_only Release 0 fresh deriv_1); [apply reach_open; vm_compute; reflexivity| |split; exact I].
    repeat split; repeat constructor; reflexivity.
  - eexists. vm_compute. reflexivity.
Qed.
@*)

(** ** C81: panics *)
Lemma deriv_predecessor_unique t c h d ts h' d' ts' : deriv_predecessor t c h d ts -> deriv_predecessor t c h' d' ts' ->
  h = h' /\ d = d' /\ ts = ts'.
Proof.
  intros [(i & E & -> & -> & ->)|(E & m & F & -> & _ & -> & ->)] [(i' & E' & -> & -> & ->)|(E' & m' & F' & -> & _ & -> & ->)];
    rewrite E in E'; try discriminate E'.
  - injection E' as <-. auto.
  - rewrite F in F'. injection F' as <-. auto.
Qed.
Lemma ret_unit_panic x : snd (ret_unit x) = Panic <-> snd x = Panic.
Proof. destruct x as [t [u|e| |]]; cbn; split; intros H; try discriminate H; reflexivity. Qed.
Lemma ret_block_panic x : snd (ret_block x) = Panic <-> snd x = Panic.
Proof. destruct x as [t [u|e| |]]; cbn; split; intros H; try discriminate H; reflexivity. Qed.
Lemma on_summary_panic f t : snd (t_on_summary f t) = Panic <-> snd (f (t_summary t)) = Panic.
Proof. unfold t_on_summary. destruct (f (t_summary t)). reflexivity. Qed.
Lemma on_gas_panic f t : snd (t_on_gas f t) = Panic <-> snd (f (t_gas t)) = Panic.
Proof. unfold t_on_gas. destruct (f (t_gas t)). reflexivity. Qed.
Lemma if_panic (b : bool) {A B} (x : A) (u : B) (y : A) : snd (if b then (x, Ok u) else (y, Panic)) = Panic <-> b = false.
Proof. destruct b; cbn; split; intros H; try discriminate H; reflexivity. Qed.

(*@T C81 *)
Lemma p_C81_panics : forall p n t f g o,
  reachable emission_only p n t -> few n -> amounts t f -> gases t g -> op_wf o ->
  (forall tx, o = OSendTx tx -> N.of_nat (length (tx_dump tx)) < 2 ^ 63) ->
  (snd (step p t o) = Panic <-> panics p t f g o).
Proof.
  intros p n t f g o Hr Hn Hf Hg Hwf Hsz. pose proof (reachable_ledgers _ _ _ _ Hr Hn) as Hled. pose proof Hled as [H1 H2 _ _].
  pose proof (amounts_eq t f Hf) as Ef. pose proof (gases_eq t g Hg) as Eg.
  destruct (linked_derivs p n t Hr Hn) as (L & HL & Hlen & Hk & HD).
  destruct o; cbn [step panics op_wf] in *.
  - rewrite ret_unit_panic. unfold t_add_amount. rewrite on_summary_panic, led_add_spec, if_panic by exact H1. rewrite Ef. lia.
  - split; [discriminate|contradiction].
  - rewrite ret_unit_panic. unfold t_sub_amount. rewrite on_summary_panic, led_sub_spec, if_panic by exact H1. rewrite Ef. lia.
  - rewrite ret_unit_panic. unfold t_send_amount. destruct (bytes_eqb from to) eqn:E.
    + apply bytes_eqb_eq in E. split; [discriminate|]. intros [H _]. contradiction.
    + rewrite on_summary_panic, led_send_spec, if_panic by exact H1. rewrite !Ef, andb_false_iff.
      assert (from <> to) by (intros ->; rewrite bytes_eqb_refl in E; discriminate).
      split; [intros X; split; [assumption|lia]|intros [_ X]; lia].
  - rewrite ret_unit_panic. unfold t_add_gas. rewrite on_gas_panic, led_add_spec, if_panic by exact H2. rewrite Eg. lia.
  - rewrite ret_unit_panic. unfold t_sub_gas. rewrite on_gas_panic, led_sub_spec, if_panic by exact H2. rewrite Eg. lia.
  - rewrite ret_unit_panic. unfold t_send_gas. rewrite on_gas_panic, led_send_spec, if_panic by exact H2. rewrite !Eg, andb_false_iff. lia.
  - rewrite ret_unit_panic. specialize (Hsz tx eq_refl). pose proof (tx_dump_size tx Hwf) as Hds. unfold few in Hn.
    pose proof (send_tx_cases tx t L f g HL ltac:(lia) Hled Hf Hg) as S.
    specialize (S ltac:(rewrite Hds; destruct (tx_amount tx =? 0); lia)). cbv zeta in S.
    assert (Hsize : N.of_nat (tx_get_dump_size tx) = N.of_nat (length (tx_dump tx)) + (if tx_amount tx =? 0 then 1 else 0)).
    { rewrite Hds. destruct (tx_amount tx =? 0); lia. }
    rewrite Hsize in S. set (gas := gas_for _) in *. destruct (t_send_transaction tx t) as [t' o]. cbn [snd].
    destruct (N.ltb_spec (g (tx_sender tx)) gas) as [G|G].
    { destruct S as [_ (e & ->)]. split; [discriminate|]. intros [X _]. lia. }
    destruct (mc_get_last_block (t_main t)) as [[b|]|e| |] eqn:Eb.
    2,3,4,5: destruct S as [_ (e' & ->)]; split; [discriminate|]; intros (_ & b & X & _); discriminate X.
    destruct (N.ltb_spec (fee_after b + tx_amount tx) (2 ^ 256)) as [A|A].
    2:{ destruct S as [_ ->]. split; [|reflexivity]. intros _. split; [lia|]. exists b. split; [reflexivity|]. left. lia. }
    destruct (N.ltb_spec (f (tx_sender tx)) (fee_after b + tx_amount tx)) as [C|C].
    { destruct S as [_ (e & ->)]. split; [discriminate|]. intros (_ & b' & X & Y). injection X as <-. lia. }
    destruct (bytes_eqb (tx_sender tx) (tx_receiver tx)) eqn:Esr; cbn [orb] in S.
    { destruct S as [-> _]. apply bytes_eqb_eq in Esr. split; [discriminate|]. intros (_ & b' & X & Y). injection X as <-.
      destruct Y as [Y|(_ & Y & _)]; [lia|contradiction]. }
    assert (Hne : tx_sender tx <> tx_receiver tx) by (intros E; rewrite E, bytes_eqb_refl in Esr; discriminate).
    destruct (N.ltb_spec (f (tx_receiver tx) + tx_amount tx) (2 ^ 256)) as [D|D].
    + destruct S as [-> _]. split; [discriminate|]. intros (_ & b' & X & Y). injection X as <-. lia.
    + destruct S as [-> _]. split; [|reflexivity]. intros _. split; [lia|]. exists b. split; [reflexivity|]. right. auto.
  - rewrite ret_block_panic. destruct Hwf as (W1 & W2 & W3 & W4).
    destruct (p_C78_emission_decision p n t pow founder txs ts (mroot txs)
      (reach_mono _ _ _ _ _ (fun o (H : emission_only o) => proj1 H) Hr) Hn W1 W2 W3 W4 (mroot_spec txs)) as (b & Eb & D1 & D2 & D3 & D4 & D5).
    rewrite Eb. set (r := snd _) in *. unfold time_ok, work in *.
    destruct (N.le_gt_cases (leading_zero_bits (bi_difficulty (get_info b)))
      (leading_zero_bits (sha256 (block_hash b ++ mroot txs ++ pow)))) as [V|V].
    + destruct (N.le_gt_cases (bi_timestamp (get_info b)) ts) as [T|T].
      * assert (Hok : r <> Panic).
        { destruct txs as [|x txs]; destruct (N.eq_dec (mc_get_height (t_main t) mod 1000000) 0) as [M|M].
          - destruct (D5 V (fun _ => T)) as (y & ->); [tauto|discriminate].
          - rewrite D3; [discriminate|auto..].
          - rewrite D4; [discriminate|auto..]. discriminate.
          - destruct (D5 V (fun _ => T)) as (y & ->); [|discriminate]. split; [discriminate|contradiction]. }
        split; [contradiction|]. intros (_ & b' & root & X & _ & _ & Y). injection X as <-. lia.
      * destruct p.
        -- rewrite D2; [|exact V|intros X; specialize (X eq_refl); lia]. split; [|reflexivity]. intros _. split; [reflexivity|].
           exists b, (mroot txs). split; [reflexivity|]. split; [apply mroot_spec|]. auto.
        -- assert (Hok : r <> Panic).
           { destruct txs as [|x txs]; destruct (N.eq_dec (mc_get_height (t_main t) mod 1000000) 0) as [M|M].
             - destruct (D5 V) as (y & ->); [discriminate|tauto|discriminate].
             - rewrite D3; auto; discriminate.
             - rewrite D4; auto; discriminate.
             - destruct (D5 V) as (y & ->); [discriminate| |discriminate]. split; [discriminate|contradiction]. }
           split; [contradiction|]. intros (X & _). discriminate X.
    + rewrite D1 by lia. split; [discriminate|]. intros (_ & b' & root & X & R & Y & _). injection X as <-.
      apply mroot_iff in R. subst root. lia.
  - rewrite ret_block_panic. destruct Hwf as (W1 & W2 & W3).
    destruct (p_C79_derivative_emission_decision p n t pow founder ts Hr Hn W1 W2 W3) as (c & h & d & pts & Ec & P & D1 & D2 & D3).
    set (r := snd (t_emmit_new_derivative_block _ _ _ _ _)) in *. unfold time_ok, work in *.
    destruct (N.le_gt_cases (leading_zero_bits d) (leading_zero_bits (sha256 (h ++ ff32 ++ pow)))) as [V|V].
    + destruct (N.le_gt_cases pts ts) as [T|T].
      * destruct (D3 V (fun _ => T)) as (y & ->). split; [discriminate|].
        intros (_ & c' & h' & d' & pts' & Ec' & P' & _ & Y). rewrite Ec in Ec'. injection Ec' as <-.
        destruct (deriv_predecessor_unique _ _ _ _ _ _ _ _ P P') as (-> & -> & ->). lia.
      * destruct p.
        -- rewrite D2; [|exact V|intros X; specialize (X eq_refl); lia]. split; [|reflexivity]. intros _. split; [reflexivity|].
           exists c, h, d, pts. auto.
        -- destruct (D3 V) as (y & ->); [discriminate|]. split; [discriminate|]. intros (X & _). discriminate X.
    + rewrite D1 by lia. split; [discriminate|].
      intros (_ & c' & h' & d' & pts' & Ec' & P' & Y & _). rewrite Ec in Ec'. injection Ec' as <-.
      destruct (deriv_predecessor_unique _ _ _ _ _ _ _ _ P P') as (-> & -> & ->). lia.
  - unfold few in Hn. destruct (get_deriv_inv p true L n t owner HL ltac:(lia) HD ltac:(lia) Hwf) as [_ G].
    destruct (t_get_derivative_chain owner t) as [t1 [c|e| |]]; cbn [fst snd bind] in *; try contradiction; split; try discriminate; contradiction.
  - rewrite ret_unit_panic. split; [|contradiction]. unfold t_add_new_block. pose proof (mi_height _ _ (ti_main _ _ HL)) as Hh. unfold few in Hn.
    destruct (N.eq_dec (bi_height (get_info b)) (mc_height (t_main t))) as [E|E].
    + rewrite mc_add_block_right by (try exact E; lia). discriminate.
    + unfold mc_add_block. destruct (N.eqb_spec (bi_height (get_info b)) (mc_height (t_main t))); [contradiction|]. discriminate.
  - split; [discriminate|contradiction].
  - split; [|contradiction]. destruct (assoc_get owner (t_derivs t)) as [c|] eqn:Ea; [|discriminate].
    destruct (derivs_inv_get _ _ _ _ _ _ _ HD Ea) as (_ & B & HB & Hl). pose proof (di_height _ _ _ _ _ _ HB) as Hd. unfold few in Hn.
    destruct (N.eq_dec (bi_height i) (dc_height c)) as [E|E].
    + rewrite dc_add_block_right by (try exact E; lia). discriminate.
    + rewrite dc_add_block_wrong by exact E. discriminate.
  - split; [discriminate|contradiction].
  - split; [discriminate|contradiction].
  - split; [|contradiction]. destruct (assoc_get owner (t_derivs t)); discriminate.
Qed.
(*@E
Example C81_ex : reachable emission_only Debug 2 funded /\
  snd (step Debug funded (OSubAmount addrA 1000000001)) = Panic /\
  snd (step Debug funded (OSubAmount addrA 1000000000)) = Ok RUnit /\
  snd (step Debug funded (OSendTx (demo_tx 1000 (repeat 0 64)))) = Ok RUnit.
Proof.
  split; [|vm_compute; auto].
  apply (reach_call emission_only Debug 1 (run Debug fresh [OAddAmount addrA 1000000000]) (OAddGas addrA (10 ^ 18)));
    [apply (reach_call emission_only Debug 0 fresh (OAddAmount addrA 1000000000));
      [apply reach_open; vm_compute; reflexivity| |split; exact I]| |split; exact I];
    repeat split; repeat constructor; reflexivity.
Qed.
@*)
