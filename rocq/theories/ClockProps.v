(** Proofs of the statements in P_Clock.v. *)
From Coq Require Import Lia ZifyBool ZifyNat ZifyN.
From Verif Require Import Base Sha256 Merkle Tools Transaction Block Sled Chain Tree Spec Reach LedgerSpec NodeSpec ClockSpec Demo.
From Verif Require Import BaseFacts DiffFacts ToolsFacts SledFacts ChainFacts TreeFacts DerivFacts NodeFacts MainProps DerivProps.

Definition retimed (p : profile) (x y : basic_info) : Prop := recalculate_difficulty p (bi_timestamp x) (bi_timestamp y) (bi_difficulty x) = Ok (bi_difficulty y).

Lemma domain_array d : In d domain -> is_array 32 d.
Proof.
  intros H. assert (S : forallb (fun d => Nat.eqb (length d) 32 && forallb (fun b => b <? 256) d) domain = true) by (vm_compute; reflexivity).
  rewrite forallb_forall in S. specialize (S d H). apply andb_prop in S. destruct S as [S1 S2]. split; [apply Nat.eqb_eq, S1|].
  apply Forall_forall. intros b Hb. rewrite forallb_forall in S2. apply N.ltb_lt, S2, Hb.
Qed.
Lemma domain_be d : In d domain -> d = to_be 32 (be_val d).
Proof. intros H. destruct (domain_array d H) as [L B]. rewrite be_val_from_be, <- L. symmetry. apply to_from_be, B. Qed.
Lemma be_domain (p : profile) c d : In d domain -> be_val (to_be 32 (next_target c (be_val d))) = next_target c (be_val d).
Proof.
  intros H. destruct (domain_array d H) as [L B]. rewrite be_val_from_be. apply from_to_be_small.
  assert (V : be_val d < 2 ^ 256).
  { rewrite be_val_from_be. pose proof (from_be_bound d B) as X. rewrite L in X. exact X. }
  change (256 ^ N.of_nat 32) with (2 ^ 256). revert V. generalize (be_val d). intros v V. clear - V. unfold next_target.
  destruct c; [exact V| |].
  - destruct (v mod 2 ^ 248 =? 0).
    + apply N.le_lt_trans with v; [|exact V]. change (2 ^ 249) with (2 * 2 ^ 248).
      pose proof (N.div_mod v (2 * 2 ^ 248) ltac:(discriminate)). lia.
    + pose proof (N.div_mod v 2 ltac:(discriminate)). lia.
  - destruct (v mod 2 ^ 248 =? 0).
    + apply N.le_lt_trans with (127 * 2 ^ 248); [apply N.mul_le_mono_r; lia|reflexivity].
    + apply N.le_lt_trans with (2 ^ 255 - 1); [apply N.le_min_l|reflexivity].
Qed.
Lemma retimed_step p x y : retimed p x y -> In (bi_difficulty x) domain -> u64_ok (bi_timestamp x) ->
  exists s, seconds p (bi_timestamp x) (bi_timestamp y) = Some s /\
    bi_difficulty y = to_be 32 (next_target (s ?= 600) (be_val (bi_difficulty x))) /\
    be_val (bi_difficulty y) = next_target (s ?= 600) (be_val (bi_difficulty x)) /\ In (bi_difficulty y) domain.
Proof.
  unfold retimed. intros E H Hu. rewrite (recalc_target p _ _ _ H Hu) in E. destruct (seconds p _ _) as [s|]; [|discriminate].
  apply ok_inj in E. exists s. split; [reflexivity|]. rewrite <- E. split; [reflexivity|]. split; [apply (be_domain p), H|apply (target_domain p), H].
Qed.
Lemma walk p : forall l x, chained (retimed p) (x :: l) -> In (bi_difficulty x) domain -> Forall (fun i => u64_ok (bi_timestamp i)) (x :: l) ->
  map (fun i => be_val (bi_difficulty i)) l = targets p (be_val (bi_difficulty x)) (bi_timestamp x) (map bi_timestamp l) /\
  Forall (fun i => In (bi_difficulty i) domain) (x :: l).
Proof.
  induction l as [|y l IH]; intros x C Hx Hu.
  - split; [reflexivity|]. constructor; [exact Hx|constructor].
  - inversion C as [| |? ? ? R C']; subst. inversion Hu as [|? ? U Hu']; subst.
    destruct (retimed_step p x y R Hx U) as (s & Es & _ & Ev & Hy). destruct (IH y C' Hy Hu') as [I1 I2].
    cbn [map targets]. rewrite Es, <- Ev, <- I1. split; [reflexivity|]. constructor; assumption.
Qed.
Lemma chained_map {A B} (f : A -> B) (R : A -> A -> Prop) (S : B -> B -> Prop) l : (forall x y, R x y -> S (f x) (f y)) -> chained R l -> chained S (map f l).
Proof. intros H. induction 1; cbn [map]; constructor; auto. Qed.
Lemma main_retimed p x y : main_link p x y -> retimed p (get_info x) (get_info y).
Proof.
  unfold retimed. destruct y as [fee root info txs|info|info root]; cbn [main_link get_info]; intros H.
  - destruct H as (_ & _ & _ & _ & _ & _ & H & _). exact H.
  - destruct H.
  - destruct H as (_ & _ & _ & H & _). exact H.
Qed.
Lemma wf_stamp b : block_wf b -> u64_ok (bi_timestamp (get_info b)).
Proof. destruct b; cbn [block_wf get_info]; unfold info_wf; tauto. Qed.

(** The chain as a list. *)
Lemma the_list p n t : reachable no_raw_main p n t -> few n -> exists L : list block,
  mc_get_height (t_main t) = N.of_nat (length L) /\ nth_error L 0 = Some genesis /\ chained (main_link p) L /\ Forall block_wf L /\
  (forall i b, block_at t i b <-> nth_error L (N.to_nat i) = Some b) /\
  forall i b, block_at t i b -> In (bi_difficulty (get_info b)) domain /\ u64_ok (stamp b).
Proof.
  intros Hr Hn. destruct (linked_list p n t Hr Hn) as (L & HL & Hlen & Hk). unfold few in Hn. exists L.
  pose proof (ti_gen _ _ HL) as Hg. pose proof (ti_wf _ _ HL) as Hw. pose proof (mi_height _ _ (ti_main _ _ HL)) as Hh.
  split; [exact Hh|]. split; [exact Hg|]. split; [exact Hk|]. split; [exact Hw|].
  assert (At : forall i b, block_at t i b <-> nth_error L (N.to_nat i) = Some b).
  { unfold block_at. intros i b. assert (F : forall y, nth_error L (N.to_nat i) = Some y -> mc_find_by_height i (t_main t) = Ok (Some y)).
    { intros y Hy. assert (Hy' : nthN L i = Some y) by exact Hy. eapply main_find_height; [apply HL|lia|exact Hy'|].
      destruct (tree_readable t L _ _ HL ltac:(lia) Hy') as [Hrd|(info & ->)]; [exact Hrd|].
      exfalso. destruct (N.to_nat i) as [|j]; [rewrite Hg in Hy; discriminate|]. exact (chained_in_kind p L Hk j _ Hy). }
    split; [|apply F]. intros Hx. destruct (nth_error L (N.to_nat i)) as [y|] eqn:Ey; [specialize (F y eq_refl); congruence|].
    exfalso. apply nth_error_None in Ey. unfold mc_find_by_height in Hx. rewrite (main_find_raw _ L) in Hx by (try apply HL; lia). rewrite nthN_none in Hx by lia. discriminate. }
  split; [exact At|]. intros i b Hb. apply At in Hb. apply nth_error_In in Hb. split; [|apply wf_stamp; rewrite Forall_forall in Hw; apply Hw, Hb].
  destruct L as [|g L]; [discriminate|]. cbn in Hg. injection Hg as ->.
  destruct (walk p (map get_info L) (get_info genesis)) as [_ W]; [exact (chained_map get_info _ _ (genesis :: L) (main_retimed p) Hk)|exact beginning_domain| |].
  { change (get_info genesis :: map get_info L) with (map get_info (genesis :: L)). apply Forall_map. eapply Forall_impl; [|exact Hw]. intros a; apply wf_stamp. }
  change (get_info genesis :: map get_info L) with (map get_info (genesis :: L)) in W. rewrite Forall_map, Forall_forall in W. apply W, Hb.
Qed.

(*@T C117.  The targets of the main chain are a function of its timestamps alone: whoever found the blocks, with whatever transactions and nonces.  So are the fees. *)
Lemma p_C117_clock : forall p n t, reachable no_raw_main p n t -> few n ->
  exists L : list block, mc_get_height (t_main t) = 1 + N.of_nat (length L) /\ (forall i b, nth_error L i = Some b -> block_at t (N.of_nat i + 1) b) /\
    map target L = targets p (2 ^ 255 - 1) 1597924800 (map stamp L) /\ forall b fee, In b L -> fee_of b = Some fee -> fee = 62500 * bits b.
Proof.
  intros p n t Hr Hn. destruct (the_list p n t Hr Hn) as (L & Hh & Hg & Hk & Hw & At & _). destruct L as [|g L]; [discriminate|]. cbn in Hg. injection Hg as ->.
  exists L. split; [rewrite Hh; cbn [length]; lia|]. split; [intros i b Hb; apply At; replace (N.to_nat (N.of_nat i + 1)) with (S i) by lia; exact Hb|]. split.
  - destruct (walk p (map get_info L) (get_info genesis)) as [W _]; [exact (chained_map get_info _ _ (genesis :: L) (main_retimed p) Hk)|exact beginning_domain| |].
    { change (get_info genesis :: map get_info L) with (map get_info (genesis :: L)). apply Forall_map. eapply Forall_impl; [|exact Hw]. intros a; apply wf_stamp. }
    rewrite !map_map in W. exact W.
  - intros b fee Hb Hf. apply In_nth_error in Hb as (i & Hi). clear - Hk Hi Hf. revert i Hi. generalize dependent genesis. induction L as [|y L IH]; intros x Hk i Hi; [destruct i; discriminate|].
    inversion Hk as [| |? ? ? R Hk']; subst. destruct i as [|i]; [|exact (IH y Hk' i Hi)]. cbn in Hi. injection Hi as ->.
    destruct b as [f root info txs|info|info root]; cbn [fee_of main_link] in *; try discriminate. injection Hf as <-. apply R.
Qed.
(*@E
(* Three blocks: two quick ones, then a slow one. *)
Example C117_ex_clock : targets Debug (2 ^ 255 - 1) 1597924800 [1597924900; 1597925000; 1597926000] = [2 ^ 254 - 1; 2 ^ 253 - 1; 2 ^ 254 - 1] /\
  targets Debug (2 ^ 255 - 1) 1597924800 [1597924900; 1597924899; 1597926000] = [2 ^ 254 - 1] /\
  targets Release (2 ^ 255 - 1) 1597924800 [1597924900; 1597924899; 1597926000] = [2 ^ 254 - 1; 2 ^ 255 - 1; 2 ^ 255 - 1] /\
  let t := fst (step Release fresh emit_good) in reachable no_raw_main Release 1 t /\ few 1 /\ block_at t 1 (emitted Release fresh emit_good) /\
  [target (emitted Release fresh emit_good)] = targets Release (2 ^ 255 - 1) 1597924800 [stamp (emitted Release fresh emit_good)].
Proof.
  split; [vm_compute; reflexivity|]. split; [vm_compute; reflexivity|]. split; [vm_compute; reflexivity|]. cbv zeta.
  split; [|split; [reflexivity|split; vm_compute; reflexivity]].
  apply (reach_call no_raw_main Release 0 fresh emit_good); [constructor; vm_compute; reflexivity|vm_compute; repeat split; repeat constructor; vm_compute; reflexivity|exact I].
Qed.
@*)

Lemma next_at p n t i b b' : reachable no_raw_main p n t -> few n -> block_at t i b -> block_at t (i + 1) b' -> retimed p (get_info b) (get_info b').
Proof.
  intros Hr Hn Hb Hb'. destruct (the_list p n t Hr Hn) as (L & _ & _ & Hk & _ & At & _). apply At in Hb, Hb'. replace (N.to_nat (i + 1)) with (S (N.to_nat i)) in Hb' by lia.
  revert Hb Hb'. generalize (N.to_nat i) as k. clear - Hk. induction Hk as [|x|x y l Hxy _ IH]; intros k Hb Hb'; [destruct k; discriminate|destruct k as [|[|k]]; discriminate|].
  destruct k as [|k]; [|exact (IH k Hb Hb')]. cbn in Hb, Hb'. injection Hb as <-. injection Hb' as <-. apply main_retimed, Hxy.
Qed.
Lemma below p n t i b j : reachable no_raw_main p n t -> few n -> block_at t i b -> j <= i -> exists x, block_at t j x.
Proof.
  intros Hr Hn Hb Hj. destruct (the_list p n t Hr Hn) as (L & _ & _ & _ & _ & At & _). apply At in Hb.
  destruct (nth_error L (N.to_nat j)) as [x|] eqn:E; [exists x; apply At, E|]. exfalso. apply nth_error_None in E. assert (N.to_nat i < length L)%nat by (apply nth_error_Some; congruence). lia.
Qed.
Lemma first_at p n t b : reachable no_raw_main p n t -> few n -> block_at t 0 b -> b = genesis.
Proof. intros Hr Hn Hb. destruct (the_list p n t Hr Hn) as (L & _ & Hg & _ & _ & At & _). apply At in Hb. change (N.to_nat 0) with 0%nat in Hb. congruence. Qed.
Lemma fee_at p n t i b fee : reachable no_raw_main p n t -> few n -> block_at t i b -> fee_of b = Some fee -> fee = 62500 * bits b.
Proof.
  intros Hr Hn Hb Hf. destruct (the_list p n t Hr Hn) as (L & _ & Hg & Hk & _ & At & _). apply At in Hb. revert Hb. generalize (N.to_nat i) as k. intros k Hb.
  destruct k as [|k]; [rewrite Hg in Hb; injection Hb as <-; discriminate|]. clear - Hk Hb Hf. revert k Hb. induction Hk as [|x|x y l Hxy _ IH]; intros k Hb; [discriminate|destruct k; discriminate|].
  destruct k as [|k]; [|exact (IH k Hb)]. cbn in Hb. injection Hb as ->. destruct b as [f root info txs|info|info root]; cbn [fee_of main_link] in *; try discriminate. injection Hf as <-. apply Hxy.
Qed.
Lemma seconds_any p p' a b s s' : u64_ok a -> seconds p a b = Some s -> seconds p' a b = Some s' -> s = s'.
Proof. unfold seconds. destruct (a <=? b); [congruence|]. destruct p, p'; congruence. Qed.

(*@T C117, two nodes: if the blocks up to some height have the same timestamps on both, then the difficulties at that height are the same; so are the fees. The nodes may come from different builds. *)
Lemma p_C117_same_clock : forall p p' n n' t t' i, reachable no_raw_main p n t -> few n -> reachable no_raw_main p' n' t' -> few n' ->
  (forall j x x', j <= i -> block_at t j x -> block_at t' j x' -> stamp x = stamp x') ->
  forall b b', block_at t i b -> block_at t' i b' -> bi_difficulty (get_info b) = bi_difficulty (get_info b') /\
    forall fee fee', fee_of b = Some fee -> fee_of b' = Some fee' -> fee = fee'.
Proof.
  intros p p' n n' t t' i Hr Hn Hr' Hn' HT.
  assert (D : forall b b', block_at t i b -> block_at t' i b' -> bi_difficulty (get_info b) = bi_difficulty (get_info b')).
  { revert HT. pattern i. apply N.peano_ind; clear i; [|intros i IH]; intros HT b b' Hb Hb'.
    - rewrite (first_at p n t b Hr Hn Hb), (first_at p' n' t' b' Hr' Hn' Hb'). reflexivity.
    - rewrite <- N.add_1_r in *. destruct (below p n t (i + 1) b i Hr Hn Hb ltac:(lia)) as (x & Hx). destruct (below p' n' t' (i + 1) b' i Hr' Hn' Hb' ltac:(lia)) as (x' & Hx').
      destruct (the_list p n t Hr Hn) as (_ & _ & _ & _ & _ & _ & K). destruct (the_list p' n' t' Hr' Hn') as (_ & _ & _ & _ & _ & _ & K').
      destruct (K i x Hx) as [Dx Ux]. destruct (K' i x' Hx') as [Dx' Ux'].
      destruct (retimed_step p _ _ (next_at p n t i x b Hr Hn Hx Hb) Dx Ux) as (s & Es & Ed & _). destruct (retimed_step p' _ _ (next_at p' n' t' i x' b' Hr' Hn' Hx' Hb') Dx' Ux') as (s' & Es' & Ed' & _).
      pose proof (HT i x x' ltac:(lia) Hx Hx') as T1. pose proof (HT (i + 1) b b' ltac:(lia) Hb Hb') as T2. unfold stamp in *. rewrite <- T1, <- T2 in Es'.
      rewrite (seconds_any p p' _ _ s s' Ux Es Es') in Ed. rewrite Ed, Ed'. rewrite (IH ltac:(intros; eapply HT; eauto; lia) x x' Hx Hx'). reflexivity. }
  intros b b' Hb Hb'. split; [exact (D b b' Hb Hb')|]. intros fee fee' F F'. rewrite (fee_at p n t i b fee Hr Hn Hb F), (fee_at p' n' t' i b' fee' Hr' Hn' Hb' F'). unfold bits. rewrite (D b b' Hb Hb'). reflexivity.
Qed.
(*@E
(* Two one-block chains with different founders, nonces and transactions, stamped alike. *)
Example C117_ex_same_clock : let o' := OEmitMain (repeat 2 32) addrB [repeat 9 32; repeat 8 32] 1597924900 in let o := OEmitMain (repeat 3 32) addrA [txh] 1597924900 in
  let t := fst (step Debug fresh o) in let t' := fst (step Release fresh o') in
  reachable no_raw_main Debug 1 t /\ reachable no_raw_main Release 1 t' /\ few 1 /\
  let b := emitted Debug fresh o in let b' := emitted Release fresh o' in
  block_at t 1 b /\ block_at t' 1 b' /\ stamp b = stamp b' /\ b <> b' /\ target b = 2 ^ 254 - 1 /\ fee_of b = Some 125000 /\ fee_of b' = Some 125000.
Proof.
  cbv zeta. split; [apply (reach_call no_raw_main Debug 0 fresh); [constructor; vm_compute; reflexivity|vm_compute; repeat split; repeat constructor; vm_compute; reflexivity|exact I]|].
  split; [apply (reach_call no_raw_main Release 0 fresh); [constructor; vm_compute; reflexivity|vm_compute; repeat split; repeat constructor; vm_compute; reflexivity|exact I]|].
  split; [reflexivity|]. split; [vm_compute; reflexivity|]. split; [vm_compute; reflexivity|]. split; [vm_compute; reflexivity|]. split; [vm_compute; discriminate|]. vm_compute. repeat split.
Qed.
@*)

(** ** One step *)
Definition lz (v : N) : N := leading_zero_bits (to_be 32 v).
Definition stuck (v : N) : bool := v mod 2 ^ 248 =? 0.
Definition step_ok (v : N) : bool :=
  (((lz v <? lz (next_target Lt v)) || (lz v =? 256) && (lz (next_target Lt v) =? 256)) &&
   (lz (next_target Gt v) <=? N.max 1 (lz v - 1)) && (1 <=? lz v) && (lz v <=? 256) &&
   forallb (fun c => stuck v || (lz (next_target c v) <=? lz v + 1) && implb (stuck (next_target c v)) (lz v =? 255)) [Eq; Lt; Gt])%N.
(** The same with shared parts, to be computed. *)
Definition step_fast (v : N) : bool :=
  (let z := lz v in let e := next_target Eq v in let l := next_target Lt v in let g := next_target Gt v in
   let ze := lz e in let zl := lz l in let zg := lz g in let s := stuck v in
   ((z <? zl) || (z =? 256) && (zl =? 256)) && (zg <=? N.max 1 (z - 1)) && (1 <=? z) && (z <=? 256) &&
   ((s || (ze <=? z + 1) && implb (stuck e) (z =? 255)) &&
    ((s || (zl <=? z + 1) && implb (stuck l) (z =? 255)) &&
     ((s || (zg <=? z + 1) && implb (stuck g) (z =? 255)) && true))))%N.
Lemma step_fast_ok v : step_fast v = step_ok v.
Proof. unfold step_fast, step_ok. cbv zeta. cbn [forallb]. reflexivity. Qed.
Lemma step_sweep : forallb (fun d => step_fast (be_val d)) domain = true.
Proof. vm_compute. reflexivity. Qed.
Lemma step_ok_in d : In d domain -> step_ok (be_val d) = true.
Proof. intros H. pose proof step_sweep as S. rewrite forallb_forall in S. rewrite <- step_fast_ok. exact (S d H). Qed.
Lemma lz_bits d : In d domain -> leading_zero_bits d = lz (be_val d).
Proof. intros H. unfold lz. rewrite <- (domain_be d H). reflexivity. Qed.

(*@T C117, one step: a block less than 600 seconds after its predecessor asks for more zero bits (unless all 256 are asked for already), one exactly 600 seconds after it for as many, a later one for at least one less,
   but never for none.  The first block asks for one bit, so the block at height i asks for at most i + 1, and its fee is at most 62500 (i + 1). *)
Lemma p_C117_bits : forall p n t, reachable no_raw_main p n t -> few n ->
  (forall i b b' s, block_at t i b -> block_at t (i + 1) b' -> seconds p (stamp b) (stamp b') = Some s ->
     (s < 600 -> bits b < bits b' \/ (bits b = 256 /\ bits b' = 256)) /\ (s = 600 -> bits b' = bits b) /\ (600 < s -> bits b' <= N.max 1 (bits b - 1))) /\
  (forall i b, block_at t i b -> 1 <= bits b <= 256 /\ bits b <= i + 1 /\ forall fee, fee_of b = Some fee -> 62500 <= fee <= 62500 * (i + 1)).
Proof.
  intros p n t Hr Hn. destruct (the_list p n t Hr Hn) as (_ & _ & _ & _ & _ & _ & K). split.
  - intros i b b' s Hb Hb' Es. destruct (K i b Hb) as [D U]. destruct (retimed_step p _ _ (next_at p n t i b b' Hr Hn Hb Hb') D U) as (s' & Es' & _ & Ev & D').
    unfold stamp in *. assert (s' = s) by congruence. subst s'. unfold bits. rewrite (lz_bits _ D), (lz_bits _ D'), Ev. pose proof (step_ok_in _ D) as S. unfold step_ok in S. clear - S.
    set (v := be_val _) in *. apply andb_prop in S as [S _]. split; [|split]; intros H.
    + apply N.compare_lt_iff in H. rewrite H. lia.
    + subst s. reflexivity.
    + apply N.compare_gt_iff in H. rewrite H. lia.
  - assert (A : forall i b, block_at t i b -> (bits b <= i + 1) /\ (stuck (target b) = true -> 255 <= i)).
    { intros i. pattern i. apply N.peano_ind; clear i; [|intros i IH]; intros b Hb.
      - rewrite (first_at p n t b Hr Hn Hb). split; vm_compute; [intros H; discriminate H|intros H; discriminate H].
      - rewrite <- N.add_1_r in *. destruct (below p n t (i + 1) b i Hr Hn Hb ltac:(lia)) as (x & Hx). destruct (IH x Hx) as [I1 I2]. destruct (K i x Hx) as [D U].
        destruct (retimed_step p _ _ (next_at p n t i x b Hr Hn Hx Hb) D U) as (s & _ & _ & Ev & D'). pose proof (step_ok_in _ D) as S. pose proof (step_ok_in _ D') as S'. unfold step_ok in S, S'.
        unfold bits, target in *. rewrite (lz_bits _ D) in *. rewrite (lz_bits _ D'). rewrite Ev in *. set (v := be_val _) in *. clear - I1 I2 S S'.
        apply andb_prop in S as [_ S]. apply andb_prop in S' as [S' _]. rewrite forallb_forall in S. specialize (S (s ?= 600)). 
        assert (Hin : In (s ?= 600) [Eq; Lt; Gt]) by (destruct (s ?= 600); cbn; auto). specialize (S Hin). clear Hin. set (w := next_target _ _) in *. clearbody v w.
        apply Bool.orb_prop in S as [S|S]; [specialize (I2 S); split; [lia|intros; lia]|]. destruct (stuck w); cbn [implb] in S; split; intros; lia. }
    intros i b Hb. destruct (A i b Hb) as [A1 _]. destruct (K i b Hb) as [D _]. pose proof (step_ok_in _ D) as S. unfold step_ok in S. rewrite <- (lz_bits _ D) in S. fold (bits b) in S.
    assert (1 <= bits b <= 256) by (clear - S; lia). split; [assumption|]. split; [exact A1|]. intros fee F. rewrite (fee_at p n t i b fee Hr Hn Hb F). lia.
Qed.
(*@E
(* One quick block. *)
Example C117_ex_bits : let o := OEmitMain (repeat 3 32) addrA [txh] 1597924900 in let t := fst (step Debug fresh o) in let b := emitted Debug fresh o in
  reachable no_raw_main Debug 1 t /\ few 1 /\ block_at t 0 (last_of fresh) /\ block_at t 1 b /\
  seconds Debug (stamp (last_of fresh)) (stamp b) = Some 100 /\ bits (last_of fresh) = 1 /\ bits b = 2.
Proof.
  cbv zeta. split; [apply (reach_call no_raw_main Debug 0 fresh); [constructor; vm_compute; reflexivity|vm_compute; repeat split; repeat constructor; vm_compute; reflexivity|exact I]|].
  split; [reflexivity|]. split; [vm_compute; reflexivity|]. split; [vm_compute; reflexivity|]. split; [vm_compute; reflexivity|]. vm_compute. repeat split.
Qed.
@*)

(*@T C117, slow chains: as long as every block is stamped at least 600 seconds after the one before, the difficulty stays what it was at the beginning, one zero bit. (Stamps are chosen by whoever makes the blocks.) *)
Lemma p_C117_slow : forall p n t i, reachable no_raw_main p n t -> few n ->
  (forall j x x', j < i -> block_at t j x -> block_at t (j + 1) x' -> stamp x + 600 <= stamp x') ->
  forall b, block_at t i b -> target b = 2 ^ 255 - 1 /\ bits b = 1 /\ forall fee, fee_of b = Some fee -> fee = 62500.
Proof.
  intros p n t i Hr Hn HT.
  assert (D : forall b, block_at t i b -> bi_difficulty (get_info b) = BEGINNING_DIFFICULTY).
  { revert HT. pattern i. apply N.peano_ind; clear i; [|intros i IH]; intros HT b Hb.
    - rewrite (first_at p n t b Hr Hn Hb). reflexivity.
    - rewrite <- N.add_1_r in *. destruct (below p n t (i + 1) b i Hr Hn Hb ltac:(lia)) as (x & Hx). destruct (the_list p n t Hr Hn) as (_ & _ & _ & _ & _ & _ & K).
      destruct (K i x Hx) as [Dx Ux]. destruct (retimed_step p _ _ (next_at p n t i x b Hr Hn Hx Hb) Dx Ux) as (s & Es & Ed & _).
      rewrite (IH ltac:(intros; eapply HT; eauto; lia) x Hx) in Ed. pose proof (HT i x b ltac:(lia) Hx Hb) as G. unfold stamp in G. unfold seconds in Es. destruct (N.leb_spec (bi_timestamp (get_info x)) (bi_timestamp (get_info b))); [|lia].
      injection Es as <-. rewrite Ed. destruct (N.compare_spec (bi_timestamp (get_info b) - bi_timestamp (get_info x)) 600); [vm_compute; reflexivity|lia|vm_compute; reflexivity]. }
  intros b Hb. pose proof (D b Hb) as E. split; [unfold target; rewrite E; vm_compute; reflexivity|]. assert (B : bits b = 1) by (unfold bits; rewrite E; vm_compute; reflexivity).
  split; [exact B|]. intros fee F. rewrite (fee_at p n t i b fee Hr Hn Hb F), B. reflexivity.
Qed.
(*@E
(* One block stamped exactly 600 seconds after the first. *)
Example C117_ex_slow : let o := OEmitMain (repeat 3 32) addrA [txh] 1597925400 in let t := fst (step Debug fresh o) in let b := emitted Debug fresh o in
  reachable no_raw_main Debug 1 t /\ few 1 /\ block_at t 0 (last_of fresh) /\ block_at t 1 b /\ stamp (last_of fresh) + 600 <= stamp b /\ fee_of b = Some 62500.
Proof.
  cbv zeta. split; [apply (reach_call no_raw_main Debug 0 fresh); [constructor; vm_compute; reflexivity|vm_compute; repeat split; repeat constructor; vm_compute; reflexivity|exact I]|].
  split; [reflexivity|]. split; [vm_compute; reflexivity|]. split; [vm_compute; reflexivity|]. split; [vm_compute; discriminate|]. vm_compute. repeat split.
Qed.
@*)

(** ** Derivative chains *)
Definition started (m : block) : basic_info := let i := get_info m in MkInfo (bi_timestamp i) (bi_pow i) (bi_previous_hash i) (bi_height i) BEGINNING_DIFFICULTY (bi_founder i).
(*@T C117, derivative chains: the targets of an owner's blocks are a function of their timestamps and of the time of the main block the chain is attached to. *)
Lemma p_C117_deriv : forall p n t w c, reachable no_raw_deriv p n t -> few n -> assoc_get w (t_derivs t) = Some c ->
  exists (k : N) (m : block) (B : list basic_info),
    mc_find_raw_by_height k (t_main t) = Some (block_dump m) /\ block_hash m = dc_genesis c /\
    dc_get_height c = N.of_nat (length B) /\ (forall i x, nth_error B i = Some x -> dc_find_by_height (N.of_nat i) c = Ok (Some (DerivBlock x))) /\
    map (fun x => target (DerivBlock x)) B = targets p (2 ^ 255 - 1) (stamp m) (map (fun x => stamp (DerivBlock x)) B).
Proof.
  intros p n t w c Hr Hn E. destruct (reachable_derivs true _ _ _ _ Hr strict_true Hn) as (L & HL & Hlen & HD). unfold few in Hn.
  destruct (derivs_inv_get _ _ _ _ _ _ _ HD E) as (Hw & B & HB & Hl). assert (HlL : N.of_nat (length L) < 2 ^ 256) by lia.
  pose proof (di_chain _ _ _ _ _ _ HB) as [C1 C2 C3 C4]. destruct (C4 eq_refl) as (F1 & F2 & F3).
  assert (F : forall i x, nth_error B i = Some x -> dc_find_by_height (N.of_nat i) c = Ok (Some (DerivBlock x))).
  { intros i x Hx. rewrite nth_nthN in Hx. rewrite Forall_forall in C3. unfold dc_find_by_height. rewrite (deriv_find_raw _ _ _ _ _ _ _ _ HB Hx). apply dc_decode_dump, C3, (nthN_in _ _ _ Hx). }
  assert (S : exists m, In m L /\ block_hash m = dc_genesis c /\ forall x, nth_error B 0 = Some x -> deriv_start p m x).
  { destruct B as [|x B].
    - destruct (di_genesis _ _ _ _ _ _ HB) as (_ & m & Hm & Hmh). exists m. split; [exact Hm|]. split; [exact Hmh|]. discriminate.
    - destruct (F3 x eq_refl) as (m & Hm & Hmh & Hs). exists m. split; [exact Hm|]. split; [exact Hmh|]. intros y Hy. injection Hy as <-. exact Hs. }
  destruct S as (m & Hm & Hmh & Hs). destruct (main_in_find t L m HL HlL Hm) as (k & _ & Hkf). exists k, m, B. split; [exact Hkf|]. split; [exact Hmh|]. split; [apply (di_height _ _ _ _ _ _ HB)|]. split; [exact F|].
  destruct (walk p B (started m)) as [W _]; [|exact beginning_domain| |].
  - destruct B as [|x B]; [constructor|]. constructor; [|].
    + destruct (Hs x eq_refl) as (_ & _ & R & _). exact R.
    + rewrite <- (map_id (x :: B)). eapply chained_map; [|exact F2]. intros a b (_ & _ & R & _). exact R.
  - constructor; [apply wf_stamp; pose proof (ti_wf _ _ HL) as Hwf; rewrite Forall_forall in Hwf; apply Hwf, Hm|]. eapply Forall_impl; [|exact C3]. intros a Ha. apply Ha.
  - exact W.
Qed.
(*@E
(* Two derivative blocks. *)
Example C117_ex_deriv : let t := run Debug fresh [deriv_1; deriv_2] in
  reachable no_raw_deriv Debug 2 t /\ few 2 /\ exists c x y, assoc_get addrA (t_derivs t) = Some c /\ dc_get_height c = 2 /\
  dc_find_by_height 0 c = Ok (Some (DerivBlock x)) /\ dc_find_by_height 1 c = Ok (Some (DerivBlock y)) /\ 
  [target (DerivBlock x); target (DerivBlock y)] = targets Debug (2 ^ 255 - 1) (stamp (last_of fresh)) [bi_timestamp x; bi_timestamp y].
Proof.
  cbv zeta. split.
  { cbn [run]. apply (reach_call no_raw_deriv Debug 1 _ deriv_2); [|vm_compute; repeat split; repeat constructor; vm_compute; reflexivity|exact I].
    apply (reach_call no_raw_deriv Debug 0 fresh deriv_1); [constructor; vm_compute; reflexivity|vm_compute; repeat split; repeat constructor; vm_compute; reflexivity|exact I]. }
  split; [reflexivity|]. eexists _, _, _. split; [vm_compute; reflexivity|]. split; [vm_compute; reflexivity|]. split; [vm_compute; reflexivity|]. split; [vm_compute; reflexivity|]. vm_compute. reflexivity.
Qed.
@*)
