(** Handles of a derivative chain: proofs. *)
From Coq Require Import Lia ZifyBool ZifyNat ZifyN Permutation.
From Verif Require Import Base Sha256 Tools Transaction Block Sled Chain Tree Spec Reach ConcSpec Conc ConcFlush Cancel ConcDeriv ConcDerivSpec Demo.
From Verif Require Import BaseFacts ToolsFacts MerkleFacts DiffFacts CodecFacts SledFacts ChainFacts TreeFacts DerivFacts ConcFacts ConcDerivFacts.
From Verif Require Import FlushProps MainProps.
Local Strategy 1000 [u256_add u256_sub sled_get check_pow sha256 block_dump height_key recalculate_difficulty].

Lemma bytes_eqb_spec a b : reflect (a = b) (bytes_eqb a b).
Proof. apply iff_reflect. symmetry. apply bytes_eqb_eq. Qed.
Lemma filled_full ch : chain_filled ch -> full ch.
Proof. intros F j Hj. destruct (F j Hj) as (i & A & B & C). exists i. split; [exact B|]. split; [exact A|]. rewrite B. exact C. Qed.

Section Moments.
Variables (p : profile) (founder : bytes) (t : bct) (ch0 : deriv_chain) (calls : list dcall).
Hypothesis Hfounder : is_array 33 founder.
Hypothesis HB : dc_height ch0 + N.of_nat (length calls) < 2 ^ 256.
Hypothesis HF : chain_filled ch0.
Hypothesis HW : Forall dcall_wf calls.
Hypothesis HR : refs_named ch0.

Definition st (sch : list nat) := deriv_exec p founder (t_main t) sch ch0 calls.
Definition now (sch : list nat) : deriv_chain := ds_chain (fst (st sch)).
Definition moment (k : nat) (sch : list nat) (P : dstate -> Prop) : Prop := at_a_moment p founder (t_main t) sch ch0 calls k P.

Definition seq_info (w : bytes) (ts : N) (ch : deriv_chain) : out basic_info :=
  let! d := dc_get_last_raw_block ch in info_after p founder w ts (t_main t) (dc_genesis ch) d.
Lemma emit_seq w ts ch : snd (dcall_run p founder t (DEmit w ts) ch) =
  match seq_info w ts ch with
  | Ok i => let! _ := snd (dc_add_block i ch) in Ok (DMade (DerivBlock i))
  | Err e => Err e | Panic => Panic | UB => UB
  end.
Proof.
  cbn [dcall_run]. unfold t_emmit_new_derivative_block, t_get_derivative_chain, with_deriv, with_derivs. cbn [t_derivs t_main]. rewrite assoc_get_set, bytes_eqb_refl. cbn [t_main].
  unfold seq_info, dc_get_last_block, info_after, info_after_genesis, next_info. cbn [fst snd].
  destruct (dc_get_last_raw_block ch) as [d| | |]; try reflexivity. cbn [bind].
  destruct (dc_decode d) as [[b|]| | |]; try reflexivity; cbn [bind].
  - destruct (u256_add (bi_height (get_info b)) 1) as [h| | |]; try reflexivity. cbn [bind].
    destruct (check_pow _ _ _ _) as [[|]| | |]; try reflexivity; cbn [bind negb]. destruct (recalculate_difficulty _ _ _ _) as [d'| | |]; try reflexivity. cbn [bind].
    destruct (dc_add_block _ ch) as [dc' [[]| | |]]; reflexivity.
  - destruct (mc_find_by_hash _ _) as [[b|]| | |]; try reflexivity; cbn [bind].
    destruct (check_pow _ _ _ _) as [[|]| | |]; try reflexivity; cbn [bind negb]. destruct (recalculate_difficulty _ _ _ _) as [d'| | |]; try reflexivity. cbn [bind].
    destruct (dc_add_block _ ch) as [dc' [[]| | |]]; reflexivity.
Qed.
Lemma seq_empty w ts ch : dc_height ch = 0 -> seq_info w ts ch = info_after_genesis p founder w ts (t_main t) (dc_genesis ch).
Proof. intros H. unfold seq_info, dc_get_last_raw_block. rewrite H. reflexivity. Qed.
Lemma last_raw ch i : dc_height ch = bi_height i + 1 -> held_at ch i -> dc_get_last_raw_block ch = Ok (Some (block_dump (DerivBlock i))).
Proof.
  intros H [W S]. unfold dc_get_last_raw_block. rewrite H. destruct (N.eqb_spec (bi_height i + 1) 0); [lia|]. unfold u256_sub.
  destruct (N.leb_spec 1 (bi_height i + 1)); [|lia]. cbn [bind]. replace (bi_height i + 1 - 1) with (bi_height i) by lia.
  unfold dc_find_raw_by_height. rewrite H. destruct (N.ltb_spec (bi_height i + 1) (bi_height i)); [lia|]. rewrite S. reflexivity.
Qed.
Lemma seq_after w ts ch i : dc_height ch = bi_height i + 1 -> held_at ch i ->
  seq_info w ts ch = info_after p founder w ts (t_main t) (dc_genesis ch) (Some (block_dump (DerivBlock i))).
Proof. intros H S. unfold seq_info. rewrite (last_raw _ _ H S). reflexivity. Qed.
Lemma emit_seq_ok w ts ch i : seq_info w ts ch = Ok i -> bi_height i = dc_height ch -> dc_height ch + 1 < 2 ^ 256 ->
  snd (dcall_run p founder t (DEmit w ts) ch) = Ok (DMade (DerivBlock i)).
Proof. intros E H1 H2. rewrite emit_seq, E, add_block_parts by assumption. reflexivity. Qed.

(** *** One more step *)
Lemma st_snoc sch k : st (sch ++ [k]) = st sch \/
  exists th s' th', nth_error (snd (st sch)) k = Some th /\ deriv_step p founder (t_main t) (fst (st sch)) th = Some (s', th') /\ st (sch ++ [k]) = (s', replace (snd (st sch)) k th').
Proof.
  unfold st, deriv_exec. rewrite exec_snoc. destruct (exec _ sch _) as [s ts]. unfold sched_step. cbn [fst snd].
  destruct (nth_error ts k) as [th|] eqn:Hk; [|left; reflexivity]. destruct (deriv_step p founder (t_main t) s th) as [[s' th']|] eqn:E; [|left; reflexivity].
  right. exists th, s', th'. auto.
Qed.
Lemma st_inv sch : dinv p founder (t_main t) (fst (st sch)) (snd (st sch)) /\ length (snd (st sch)) = length calls /\ exists acc, ainv ch0 (fst (st sch)) (snd (st sch)) acc.
Proof. pose proof (run_inv p founder (t_main t) Hfounder ch0 calls sch HB (filled_full _ HF) HW) as H. unfold st. destruct (deriv_exec _ _ _ _ _ _) as [s ts]. exact H. Qed.
Lemma moment_snoc k sch j P : moment k sch P -> moment k (sch ++ [j]) P.
Proof. intros (a & b & E & H). exists a, (b ++ [j]). split; [rewrite E, app_assoc; reflexivity|exact H]. Qed.
Lemma moment_now k sch j (P : dstate -> Prop) th : nth_error (snd (st sch)) k = Some th -> (forall c r, th <> QDone c r) -> P (fst (st sch)) -> moment k (sch ++ [j]) P.
Proof. intros H1 H2 H3. exists sch, [j]. split; [reflexivity|]. split; [exact H3|]. intros c r. fold (st sch). rewrite H1. intros E. injection E as E. eapply H2, E. Qed.
(** While a call is not done, the height can still grow. *)
Lemma room sch k th : nth_error (snd (st sch)) k = Some th -> dadded th = [] -> dc_height (now sch) + 1 < 2 ^ 256.
Proof.
  intros Hk Hd. destruct (st_inv sch) as (D & L & acc & A). pose proof (av_height _ _ _ _ A) as Q. pose proof (Permutation_length (av_perm _ _ _ _ A)) as Q2. unfold now. rewrite Q, Q2.
  assert (length (flat_map dadded (snd (st sch))) < length calls)%nat; [|lia]. rewrite <- L. apply nth_error_split in Hk as (l1 & l2 & -> & _).
  rewrite flat_map_app, !app_length. cbn [flat_map length]. rewrite app_length, Hd. pose proof (dadded_done l1). pose proof (dadded_done l2). cbn [length]. lia.
Qed.

(** *** References *)
Lemma named_step s th s' th' : th_ok p founder (t_main t) (ds_chain s) th -> effect s th s' th' -> refs_named (ds_chain s) -> refs_named (ds_chain s').
Proof.
  intros O Ef R. destruct Ef as [E1 E2 E3|c i E1 E2 E3|c i E1 E2 E3|c i E1 E2 E3 E4|c i E1 E2 E3 E4].
  - destruct E2 as ((_ & _ & E2) & _). intros h v H. apply R. unfold sled_get in *. rewrite <- E2. exact H.
  - rewrite E3. exact R.
  - rewrite E3. subst th. destruct O as (O1 & O2 & O3 & O4). intros h v H. cbn [put_dref dc_refs] in H. rewrite sled_get_insert in H.
    destruct (bytes_eqb_spec h (sha256 (block_dump (DerivBlock i)))) as [->|Hne]; [|apply R, H]. injection H as <-. exists i. split; [exact O3|]. split; [reflexivity|]. rewrite O2. reflexivity.
  - rewrite E4. exact R.
  - rewrite E4. exact R.
Qed.
Lemma st_named sch : refs_named (now sch).
Proof.
  induction sch as [|k sch IH] using rev_ind; [exact HR|]. unfold now. destruct (st_snoc sch k) as [E|(th & s' & th' & Hk & E & Es)].
  - rewrite E. exact IH.
  - rewrite Es. cbn [fst]. destruct (st_inv sch) as (D & _). eapply named_step; [exact (dv_ok _ _ _ _ _ D _ (nth_error_In _ _ Hk))|eapply step_effect, E|exact IH].
Qed.
Definition named (h : bytes) (j : N) (ch : deriv_chain) : Prop := (j < 2 ^ 256 /\ sled_get h (dc_refs ch) = Some (height_key j)) \/ exists a b, collision a b.
Lemma named_keeps s th s' th' h j : th_ok p founder (t_main t) (ds_chain s) th -> effect s th s' th' -> refs_named (ds_chain s) -> named h j (ds_chain s) -> named h j (ds_chain s').
Proof.
  intros O Ef R [[Hj N1]|C]; [|right; exact C]. destruct Ef as [E1 E2 E3|c i E1 E2 E3|c i E1 E2 E3|c i E1 E2 E3 E4|c i E1 E2 E3 E4].
  - left. split; [exact Hj|]. destruct E2 as ((_ & _ & E2) & _). unfold sled_get in *. rewrite E2. exact N1.
  - left. rewrite E3. auto.
  - rewrite E3. subst th. destruct O as (O1 & O2 & O3 & O4). destruct (bytes_eqb_spec h (sha256 (block_dump (DerivBlock i)))) as [Eh|Hne].
    + destruct (R _ _ N1) as (x & W & X1 & X2). assert (Hx : bi_height x < 2 ^ 256) by apply W. apply height_key_inj in X2; [|assumption..]. subst j.
      destruct (N.eq_dec (bi_height x) (bi_height i)) as [Eb|Nb].
      * left. split; [exact Hj|]. cbn [put_dref dc_refs]. rewrite sled_get_insert, Eh, bytes_eqb_refl, Eb, O2. reflexivity.
      * right. exists (block_dump (DerivBlock x)), (block_dump (DerivBlock i)). split; [|unfold block_hash in X1; congruence].
        intros Q. apply block_dump_inj in Q; [|assumption..]. injection Q as Q. apply Nb. rewrite Q. reflexivity.
    + left. split; [exact Hj|]. cbn [put_dref dc_refs]. rewrite sled_get_insert. destruct (bytes_eqb_spec h (sha256 (block_dump (DerivBlock i)))); [contradiction|exact N1].
  - left. rewrite E4. auto.
  - left. rewrite E4. auto.
Qed.

(** *** What call [k] knows *)
Definition raced (k : nat) (sch : list nat) (w : bytes) (ts : N) : Prop :=
  exists i, bi_height i < dc_height (now sch) /\
    moment k sch (fun s => ds_locked s = false /\ bi_height i = dc_height (ds_chain s) /\ snd (dcall_run p founder t (DEmit w ts) (ds_chain s)) = Ok (DMade (DerivBlock i))).
Definition answered (k : nat) (sch : list nat) (c : dcall) (r : out dres) : Prop :=
  moment k sch (fun s => r = snd (dcall_run p founder t c (ds_chain s)) /\ (takes_lock c = true -> ds_locked s = false)) \/
  (exists w ts, c = DEmit w ts /\ r = Err EChainAddingBlock /\ raced k sch w ts) \/
  (exists h, c = DByHash h /\ exists a b, collision a b).
Definition knows (k : nat) (sch : list nat) (th : dthread) : Prop :=
  let ch := now sch in
  match th with
  | QIdx DLast j | QGet DLast j => exists i, bi_height i = j /\ j < dc_height ch /\ held_at ch i /\
      moment k sch (fun s => ds_locked s = false /\ snd (dcall_run p founder t DLast (ds_chain s)) = Ok (DRaw (Some (block_dump (DerivBlock i)))))
  | QIdx (DByHeight h) j => False
  | QGet (DByHeight h) j => j = h /\ j <= dc_height ch
  | QIdx (DByHash h) j => named h j ch
  | QGet (DByHash h) j => named h j ch /\ j <= dc_height ch
  | QIdx (DEmit _ _) j | QGet (DEmit _ _) j => exists i, bi_height i = j /\ j < dc_height ch /\ held_at ch i /\
      moment k sch (fun s => ds_locked s = false /\ dc_height (ds_chain s) = j + 1 /\ dc_height (ds_chain s) + 1 < 2 ^ 256 /\ held_at (ds_chain s) i /\ dc_genesis (ds_chain s) = dc_genesis ch)
  | QGenesis w ts => moment k sch (fun s => ds_locked s = false /\ dc_height (ds_chain s) = 0 /\ dc_genesis (ds_chain s) = dc_genesis ch)
  | QLock (DEmit w ts) i => bi_height i <= dc_height ch /\
      moment k sch (fun s => ds_locked s = false /\ bi_height i = dc_height (ds_chain s) /\ snd (dcall_run p founder t (DEmit w ts) (ds_chain s)) = Ok (DMade (DerivBlock i)))
  | QWrite c i | QRef c i | QBump c i => takes_lock c = true /\ moment k sch (fun s => ds_locked s = false /\ snd (dcall_run p founder t c (ds_chain s)) = Ok (added_result c i))
  | QDone c r => answered k sch c r
  | _ => True
  end.
Lemma moment_imp k sch (P Q : dstate -> Prop) : (forall s, P s -> Q s) -> moment k sch P -> moment k sch Q.
Proof. intros H (a & b & E & H1 & H2). exists a, b. split; [exact E|]. split; [apply H, H1|exact H2]. Qed.
Lemma knows_keeps k sch j th : dkeeps (now sch) (now (sch ++ [j])) -> (forall h x, named h x (now sch) -> named h x (now (sch ++ [j]))) -> knows k sch th -> knows k (sch ++ [j]) th.
Proof.
  intros K HN H. pose proof K as (K1 & K2 & K3 & K4).
  assert (M : forall P, moment k sch P -> moment k (sch ++ [j]) P) by (intros P; apply moment_snoc).
  destruct th as [c|w ts|w ts|c x|c x|c i|c i|c i|c i| |h| | | | |c r]; cbn [knows] in *; try exact I.
  - rewrite K2. apply M, H.
  - destruct c; try exact H; try exact I; try (apply HN, H);
      (destruct H as (i & H1 & H2 & H3 & H4); exists i; split; [exact H1|]; split; [lia|]; split; [eapply held_keeps; [exact K|lia|exact H3]|]; try rewrite K2; apply M, H4).
  - destruct c; try exact H; try exact I.
    + destruct H as (i & H1 & H2 & H3 & H4); exists i; split; [exact H1|]; split; [lia|]; split; [eapply held_keeps; [exact K|lia|exact H3]|]; apply M, H4.
    + destruct H as [H1 H2]. split; [exact H1|lia].
    + destruct H as [H1 H2]. split; [apply HN, H1|lia].
    + destruct H as (i & H1 & H2 & H3 & H4); exists i; split; [exact H1|]; split; [lia|]; split; [eapply held_keeps; [exact K|lia|exact H3]|]; rewrite K2; apply M, H4.
  - destruct c; try exact I. destruct H as [H1 H2]. split; [lia|apply M, H2].
  - destruct H as [H1 H2]. split; [exact H1|apply M, H2].
  - destruct H as [H1 H2]. split; [exact H1|apply M, H2].
  - destruct H as [H1 H2]. split; [exact H1|apply M, H2].
  - destruct H as [H|[(w & ts & H1 & H2 & i & H3 & H4)|H]].
    + left. apply M, H.
    + right. left. exists w, ts. split; [exact H1|]. split; [exact H2|]. exists i. split; [lia|apply M, H4].
    + right. right. exact H.
Qed.

Ltac endc E := apply ends_inv in E as (-> & ?Ec & ?El' & ?Eb).
Lemma knows_own k sch th s' th' : nth_error (snd (st sch)) k = Some th -> deriv_step p founder (t_main t) (fst (st sch)) th = Some (s', th') ->
  st (sch ++ [k]) = (s', replace (snd (st sch)) k th') -> knows k sch th -> knows k (sch ++ [k]) th'.
Proof.
  intros Hk E Es H. destruct (st_inv sch) as (D & L & acc & A). pose proof (dv_ok _ _ _ _ _ D _ (nth_error_In _ _ Hk)) as O.
  assert (M : forall P, moment k sch P -> moment k (sch ++ [k]) P) by (intros P; apply moment_snoc).
  assert (Hn : forall c r, th <> QDone c r) by (intros c r ->; discriminate E).
  assert (Mn : forall P : dstate -> Prop, P (fst (st sch)) -> moment k (sch ++ [k]) P) by (intros P; exact (moment_now k sch k P th Hk Hn)).
  assert (Ed : forall c r, (r = snd (dcall_run p founder t c (now sch)) /\ (takes_lock c = true -> ds_locked (fst (st sch)) = false)) -> answered k (sch ++ [k]) c r).
  { intros c r Hr. left. apply Mn. exact Hr. }
  assert (En : now (sch ++ [k]) = ds_chain s') by (unfold now; rewrite Es; reflexivity).
  assert (Hroom : dc_height (now sch) + 1 < 2 ^ 256).
  { eapply room; [exact Hk|]. destruct th as [| | | | | | | | | | | | | | |c r]; try reflexivity. exfalso. eapply Hn. reflexivity. }
  pose proof (st_named sch) as RN. pose proof (dv_full _ _ _ _ _ D) as FU. fold (now sch) in *. set (s := fst (st sch)) in *.
  destruct th as [[i| |h|h| |w ts]|w ts|w ts|c j|c j|c i|c i|c i|c i| |h| | | | |c r]; cbn [deriv_step] in E; fold (now sch) in E; change (ds_chain s) with (now sch) in E.
  - apply some_inv in E as [<- <-]. exact I.
  - destruct (ds_locked s) eqn:El; [discriminate E|]. destruct (dc_height (now sch) =? 0) eqn:E0.
    + endc E. apply Ed. split; [|auto]. cbn [dcall_run snd]. unfold dc_get_last_raw_block. rewrite E0. reflexivity.
    + destruct (u256_sub (dc_height (now sch)) 1) as [j| | |] eqn:Ej.
      * apply some_inv in E as [<- <-]. apply sub1_inv in Ej. destruct (FU j ltac:(lia)) as (i & I1 & I2). cbn [knows]. rewrite En. change (ds_chain s) with (now sch).
        exists i. split; [exact I1|]. split; [lia|]. split; [exact I2|]. apply Mn. split; [exact El|]. cbn [dcall_run snd]. change (ds_chain s) with (now sch). rewrite (last_raw _ i); [reflexivity|lia|exact I2].
      * unfold u256_sub in Ej. destruct (_ <=? _); discriminate Ej.
      * endc E. apply Ed. split; [|auto]. cbn [dcall_run snd]. unfold dc_get_last_raw_block. rewrite E0, Ej. reflexivity.
      * unfold u256_sub in Ej. destruct (_ <=? _); discriminate Ej.
  - destruct (ds_locked s) eqn:El; [discriminate E|]. destruct (N.ltb_spec (dc_height (now sch)) h) as [Hl|Hl].
    + endc E. apply Ed. split; [|discriminate]. cbn [dcall_run snd]. unfold dc_find_raw_by_height. destruct (N.ltb_spec (dc_height (now sch)) h); [reflexivity|lia].
    + apply some_inv in E as [<- <-]. cbn [knows]. rewrite En. split; [reflexivity|exact Hl].
  - destruct (sled_get h (dc_refs (now sch))) as [hb|] eqn:Er.
    + destruct (RN _ _ Er) as (i & W & _ & Ev). assert (Hi : bi_height i < 2 ^ 256) by apply W. subst hb. rewrite height_key_length in E. cbn [Nat.ltb Nat.leb] in E.
      rewrite from_height_key in E by exact Hi. apply some_inv in E as [<- <-]. cbn [knows]. rewrite En. left. split; [exact Hi|exact Er].
    + endc E. apply Ed. split; [|discriminate]. cbn [dcall_run snd]. unfold dc_find_raw_by_hash. rewrite Er. reflexivity.
  - apply some_inv in E as [<- <-]. exact I.
  - destruct (ds_busy s); [discriminate E|]. apply some_inv in E as [<- <-]. exact I.
  - destruct (ds_locked s) eqn:El; [discriminate E|]. destruct (N.eqb_spec (dc_height (now sch)) 0) as [E0|E0].
    + apply some_inv in E as [<- <-]. cbn [knows]. rewrite En. apply Mn. auto.
    + destruct (u256_sub (dc_height (now sch)) 1) as [j| | |] eqn:Ej.
      * apply some_inv in E as [<- <-]. apply sub1_inv in Ej. destruct (FU j ltac:(lia)) as (i & I1 & I2). cbn [knows]. rewrite En. change (ds_chain s) with (now sch).
        exists i. split; [exact I1|]. split; [lia|]. split; [exact I2|]. apply Mn. split; [exact El|]. change (ds_chain s) with (now sch). split; [lia|]. split; [exact Hroom|]. split; [exact I2|reflexivity].
      * unfold u256_sub in Ej. destruct (_ <=? _); discriminate Ej.
      * exfalso. unfold u256_sub in Ej. destruct (N.leb_spec 1 (dc_height (now sch))); [discriminate Ej|lia].
      * unfold u256_sub in Ej. destruct (_ <=? _); discriminate Ej.
  - cbn [knows] in H. apply M in H.
    assert (Hs : forall x, dc_height x = 0 /\ dc_genesis x = dc_genesis (now sch) -> seq_info w ts x = info_after_genesis p founder w ts (t_main t) (dc_genesis (now sch))).
    { intros x [Q1 Q2]. rewrite seq_empty by exact Q1. rewrite Q2. reflexivity. }
    destruct (info_after_genesis p founder w ts (t_main t) (dc_genesis (now sch))) as [i|e| |] eqn:Ei; cbn [goes_on] in E.
    + apply some_inv in E as [<- <-]. cbn [knows]. rewrite En. change (ds_chain s) with (now sch).
      destruct (genesis_wf p founder (t_main t) Hfounder w ts _ i O Ei) as [W1 W2]. split; [lia|]. eapply moment_imp; [|exact H]. cbn beta. intros x (Q1 & Q2 & Q3).
      split; [exact Q1|]. split; [lia|]. apply emit_seq_ok; [apply Hs; auto|lia|rewrite Q2; reflexivity].
    + endc E. left. eapply moment_imp; [|exact H]. cbn beta. intros x (Q1 & Q2 & Q3). split; [|auto]. rewrite emit_seq, Hs by auto. reflexivity.
    + endc E. left. eapply moment_imp; [|exact H]. cbn beta. intros x (Q1 & Q2 & Q3). split; [|auto]. rewrite emit_seq, Hs by auto. reflexivity.
    + endc E. left. eapply moment_imp; [|exact H]. cbn beta. intros x (Q1 & Q2 & Q3). split; [|auto]. rewrite emit_seq, Hs by auto. reflexivity.
  - destruct (ds_locked s) eqn:El; [discriminate E|]. cbn [th_ok] in O. destruct O as [O1 O2]. destruct (N.ltb_spec (dc_height (now sch)) j) as [Hl|Hl].
    + destruct c as [i| |h|h| |w ts]; try (exfalso; lia); try contradiction; cbn [knows] in H; try contradiction.
      endc E. destruct H as [[Hj Hr]|C]; [|right; right; eauto]. apply Ed. split; [|discriminate]. cbn [dcall_run snd]. unfold dc_find_raw_by_hash. rewrite Hr, height_key_length. cbn [Nat.ltb Nat.leb].
      rewrite from_height_key by exact Hj. unfold dc_find_raw_by_height. destruct (N.ltb_spec (dc_height (now sch)) j); [reflexivity|lia].
    + apply some_inv in E as [<- <-]. destruct c as [i| |h|h| |w ts]; try contradiction; cbn [knows] in *; rewrite En; change (ds_chain s) with (now sch).
      * destruct H as (i & H1 & H2 & H3 & H4). exists i. split; [exact H1|]. split; [exact H2|]. split; [exact H3|]. apply M, H4.
      * split; [exact H|exact Hl].
      * destruct H as (i & H1 & H2 & H3 & H4). exists i. split; [exact H1|]. split; [exact H2|]. split; [exact H3|]. apply M, H4.
  - cbn [th_ok] in O. destruct O as [O1 O2]. destruct c as [i| |h|h| |w ts]; try contradiction; cbn [knows] in H.
    + endc E. destruct H as (i & H1 & H2 & [H3 H3'] & H4). rewrite <- H1, H3'. left. eapply moment_imp; [|apply M, H4]. cbn beta. intros x [Q1 Q2]. split; [symmetry; exact Q2|auto].
    + endc E. destruct H as [-> H]. apply Ed. split; [|discriminate]. cbn [dcall_run snd]. unfold dc_find_raw_by_height. destruct (N.ltb_spec (dc_height (now sch)) h); [lia|reflexivity].
    + endc E. destruct H as [[[Hj Hr]|C] H]; [|right; right; eauto]. apply Ed. split; [|discriminate]. cbn [dcall_run snd]. unfold dc_find_raw_by_hash. rewrite Hr, height_key_length. cbn [Nat.ltb Nat.leb].
      rewrite from_height_key by exact Hj. unfold dc_find_raw_by_height. destruct (N.ltb_spec (dc_height (now sch)) j); [lia|reflexivity].
    + destruct H as (pi & H1 & H2 & [H3 H3'] & H4). rewrite H1 in H3'. rewrite H3' in E. apply M in H4.
      assert (Hs : forall x, dc_height x = j + 1 /\ held_at x pi /\ dc_genesis x = dc_genesis (now sch) -> seq_info w ts x = info_after p founder w ts (t_main t) (dc_genesis (now sch)) (Some (block_dump (DerivBlock pi)))).
      { intros x (Q1 & Q2 & Q3). rewrite (seq_after _ _ _ pi) by (try exact Q2; lia). rewrite Q3. reflexivity. }
      destruct (info_after p founder w ts (t_main t) (dc_genesis (now sch)) (Some (block_dump (DerivBlock pi)))) as [i|e| |] eqn:Ei; cbn [goes_on] in E.
      * apply some_inv in E as [<- <-]. cbn [knows]. rewrite En. change (ds_chain s) with (now sch).
        destruct (after_wf p founder (t_main t) Hfounder w ts _ pi i O1 H3 Ei) as [W1 W2]. split; [lia|]. eapply moment_imp; [|exact H4]. cbn beta. intros x (Q1 & Q2 & Q3 & Q4 & Q5).
        split; [exact Q1|]. split; [lia|]. apply emit_seq_ok; [apply Hs; auto|lia|exact Q3].
      * endc E. left. eapply moment_imp; [|exact H4]. cbn beta. intros x (Q1 & Q2 & Q3 & Q4 & Q5). split; [|auto]. rewrite emit_seq, Hs by auto. reflexivity.
      * endc E. left. eapply moment_imp; [|exact H4]. cbn beta. intros x (Q1 & Q2 & Q3 & Q4 & Q5). split; [|auto]. rewrite emit_seq, Hs by auto. reflexivity.
      * endc E. left. eapply moment_imp; [|exact H4]. cbn beta. intros x (Q1 & Q2 & Q3 & Q4 & Q5). split; [|auto]. rewrite emit_seq, Hs by auto. reflexivity.
  - destruct (ds_locked s) eqn:El; [discriminate E|]. cbn [th_ok] in O. destruct (N.eqb_spec (bi_height i) (dc_height (now sch))) as [Eh|Eh]; cbn [negb] in E.
    + apply some_inv in E as [<- <-]. cbn [knows]. destruct c as [i'| |h|h| |w ts]; try contradiction; (split; [reflexivity|]); apply Mn; (split; [exact El|]); change (ds_chain s) with (now sch).
      * destruct O as [<- O]. cbn [dcall_run]. rewrite add_block_parts by assumption. reflexivity.
      * cbn [added_result]. cbn [adds] in O. destruct O as [W [[Q1 Q2]|(pi & Q1 & Q2 & Q3 & Q4)]]; apply emit_seq_ok; try assumption.
        { rewrite seq_empty by lia. exact Q2. }
        { rewrite (seq_after _ _ _ pi) by (try exact Q3; lia). exact Q4. }
    + endc E. destruct c as [i'| |h|h| |w ts]; try contradiction; cbn [knows].
      * destruct O as [<- O]. apply Ed. split; [|auto]. cbn [dcall_run]. unfold dc_add_block. destruct (N.eqb_spec (bi_height i) (dc_height (now sch))); [contradiction|]. reflexivity.
      * destruct H as [H1 H2]. right. left. exists w, ts. split; [reflexivity|]. split; [reflexivity|]. exists i. split; [rewrite En, Ec; change (ds_chain s) with (now sch); lia|]. apply M, H2.
  - apply some_inv in E as [<- <-]. destruct H as [H1 H2]. split; [exact H1|apply M, H2].
  - apply some_inv in E as [<- <-]. destruct H as [H1 H2]. split; [exact H1|apply M, H2].
  - destruct H as [H1 H2]. assert (Ea : u256_add (dc_height (now sch)) 1 = Ok (dc_height (now sch) + 1)) by (unfold u256_add; destruct (N.ltb_spec (dc_height (now sch) + 1) (2 ^ 256)); [reflexivity|lia]).
    rewrite Ea in E. endc E. left. eapply moment_imp; [|apply M, H2]. cbn beta. intros x [Q1 Q2]. split; [symmetry; exact Q2|auto].
  - destruct (ds_locked s); [discriminate E|]. apply some_inv in E as [<- <-]. exact I.
  - apply some_inv in E as [<- <-]. exact I.
  - apply some_inv in E as [<- <-]. exact I.
  - apply some_inv in E as [<- <-]. exact I.
  - apply some_inv in E as [<- <-]. exact I.
  - apply some_inv in E as [<- <-]. apply Ed. split; [reflexivity|discriminate].
  - discriminate E.
Qed.
End Moments.

(** ** Which call a thread is *)
Definition dcall_of (th : dthread) : dcall :=
  match th with
  | QStart c | QIdx c _ | QGet c _ | QLock c _ | QWrite c _ | QRef c _ | QBump c _ | QDone c _ => c
  | QBorrowed w ts | QGenesis w ts => DEmit w ts
  | QHeight | QWriteHeight _ | QWriteDiff | QWriteGenesis | QBlocks | QRefs => DFlush
  end.
Lemma goes_call s c x s' th' : goes_on s c x = Some (s', th') -> dcall_of th' = c.
Proof. intros E. apply goes_inv in E as [(i & _ & _ & ->)|(r & -> & _)]; reflexivity. Qed.
Lemma ends_call s c r s' th' : call_ends s c r = Some (s', th') -> dcall_of th' = c.
Proof. intros E. apply ends_inv in E as (-> & _). reflexivity. Qed.
Lemma dstep_call p founder m s th s' th' : deriv_step p founder m s th = Some (s', th') -> dcall_of th' = dcall_of th.
Proof.
  intros E. destruct th as [[i| |h|h| |w ts]|w ts|w ts|c j|c j|c i|c i|c i|c i| |h| | | | |c r]; cbn [deriv_step] in E; try discriminate E; cbn [dcall_of].
  all: repeat first [match type of E with (if ?b then _ else _) = _ => destruct b end | match type of E with (match ?x with _ => _ end) = _ => destruct x end]; try discriminate E.
  all: first [apply goes_call in E; exact E | apply ends_call in E; exact E | apply some_inv in E as [_ <-]; reflexivity].
Qed.
Lemma exec_calls p founder m sch ch calls k th : nth_error (snd (deriv_exec p founder m sch ch calls)) k = Some th -> nth_error calls k = Some (dcall_of th).
Proof.
  assert (H : map dcall_of (snd (deriv_exec p founder m sch ch calls)) = calls).
  { pose proof (exec_ind (deriv_step p founder m) (fun _ ts => map dcall_of ts = calls)) as H.
    specialize (H ltac:(intros s ts j x s' x' HI Hj E; rewrite <- HI; apply nth_error_all; intros n; rewrite !nth_error_map, nth_error_replace;
       destruct (Nat.eqb_spec j n) as [<-|]; [|reflexivity]; rewrite Hj; assert (j < length ts)%nat by (apply nth_error_Some; congruence); destruct (Nat.ltb_spec j (length ts)); [|lia]; cbn; f_equal; exact (dstep_call _ _ _ _ _ _ _ E)) sch (MkDs ch false false) (map QStart calls)).
    unfold deriv_exec. destruct (exec _ _ _) as [s ts]. apply H. rewrite map_map. apply map_id. }
  intros Hk. rewrite <- H, nth_error_map, Hk. reflexivity.
Qed.

(*@T C95.  Every call, whatever the schedule of any number of additions, reads, flushes and emissions on the handles of a derivative chain, returns what
   the whole call returns when it is made alone at some moment of the run before it returns (for additions, emissions and reads of the
   last block: a moment at which nobody is inside [add_block]).  Two exceptions: an emission whose height was taken meanwhile fails with
   the chain's error, and a look-up by hash when two blocks with the same hash are exhibited. *)
Lemma p_C95_linearizable : forall p founder t ch calls schedule k c r,
  is_array 33 founder -> chain_filled ch -> refs_named ch -> Forall dcall_wf calls -> dc_height ch + N.of_nat (length calls) < 2 ^ 256 ->
  let '(s, ts) := deriv_exec p founder (t_main t) schedule ch calls in
  nth_error ts k = Some (QDone c r) ->
  let moment := at_a_moment p founder (t_main t) schedule ch calls k in
  nth_error calls k = Some c /\
  (moment (fun s => r = snd (dcall_run p founder t c (ds_chain s)) /\ (takes_lock c = true -> ds_locked s = false)) \/
   (exists w tm i, c = DEmit w tm /\ r = Err EChainAddingBlock /\ bi_height i < dc_height (ds_chain s) /\
      moment (fun s => ds_locked s = false /\ bi_height i = dc_height (ds_chain s) /\ snd (dcall_run p founder t c (ds_chain s)) = Ok (DMade (DerivBlock i)))) \/
   (exists h, c = DByHash h /\ exists a b, collision a b)).
Proof.
  intros p founder t ch calls schedule k c r Hf HF HR HW HB.
  assert (HK : forall sch th, nth_error (snd (st p founder t ch calls sch)) k = Some th -> knows p founder t ch calls k sch th).
  { intros sch. induction sch as [|j sch IH] using rev_ind; intros th Hk.
    - unfold st, deriv_exec in Hk. cbn [exec fold_left snd] in Hk. rewrite nth_error_map in Hk. destruct (nth_error calls k); [|discriminate Hk]. injection Hk as <-. exact I.
    - destruct (st_snoc p founder t ch calls sch j) as [E|(x & s' & x' & Hj & E & Es)].
      + rewrite E in Hk. apply IH in Hk. apply knows_keeps; [exact HB| | |exact Hk]; unfold now; rewrite E; [apply dkeeps_refl|auto].
      + destruct (st_inv p founder t ch calls Hf HB HF HW sch) as (D & _). pose proof (dv_ok _ _ _ _ _ D _ (nth_error_In _ _ Hj)) as O. pose proof (step_effect _ _ _ _ _ _ _ E) as Ef.
        destruct (Nat.eq_dec j k) as [->|Hne].
        * rewrite Es in Hk. cbn [snd] in Hk. rewrite (replace_same _ _ _ _ Hj) in Hk. injection Hk as <-.
          eapply knows_own; try eassumption. apply IH, Hj.
        * rewrite Es in Hk. cbn [snd] in Hk. rewrite replace_other in Hk by exact Hne. apply IH in Hk. apply knows_keeps; [exact HB| | |exact Hk]; unfold now; rewrite Es; cbn [fst].
          { eapply effect_keeps; [exact (dv_height _ _ _ _ _ D)|exact Ef]. }
          { intros h y Hy. eapply named_keeps; [exact O|exact Ef|apply (st_named p founder t ch calls Hf HB HF HW HR)|exact Hy]. } }
  specialize (HK schedule (QDone c r)). unfold st in HK. pose proof (exec_calls p founder (t_main t) schedule ch calls k (QDone c r)) as HC.
  unfold knows, answered, raced, now, st, moment in HK. destruct (deriv_exec p founder (t_main t) schedule ch calls) as [s ts]. cbn [fst snd] in *.
  intros Hk. split; [exact (HC Hk)|]. destruct (HK Hk) as [H|[(w & tm & -> & Hr & i & H1 & H2)|H]]; [left; exact H|right; left|right; right; exact H].
  exists w, tm, i. auto.
Qed.

(*@E
(* The second block of a chain is emitted next to a reader and a flush; the same emission is raced by an addition through a handle and fails. *)
Example C95_linearizable_ex :
  let t := run Debug fresh [deriv_1] in
  let no := MkDeriv sled_empty sled_empty 0 [] [] file_absent in
  let ch := match assoc_get addrA (t_derivs t) with Some c => c | None => no end in
  let i := MkInfo 1597926001 (repeat 0 32) (repeat 0 32) 1 (repeat 0 32) addrA in
  let e := DEmit (repeat 4 32) 1597926000 in
  reachable any_op Debug 1 t /\ few 1 /\ assoc_get addrA (t_derivs t) = Some ch /\ dc_height ch = 1 /\
  (match nth_error (snd (deriv_exec Debug addrA (t_main t) [0; 2; 0; 1; 0; 2; 0; 0; 1; 1; 0; 0; 2; 0; 0; 1; 2; 2; 2; 2; 2]%nat ch [e; DLast; DFlush])) 0 with
   | Some (QDone _ (Ok (DMade b))) => bi_height (get_info b) = 1 | _ => False end) /\
  nth_error (snd (deriv_exec Debug addrA (t_main t) [0; 0; 0; 0; 1; 1; 1; 1; 1; 0]%nat ch [e; DAdd i])) 0 = Some (QDone e (Err EChainAddingBlock)).
Proof.
  assert (R : reachable any_op Debug 1 (run Debug fresh [deriv_1])).
  { apply (reach_call any_op Debug 0 fresh deriv_1 (fresh_reachable _ _)); [repeat split; repeat constructor|exact I]. }
  split; [exact R|]. split; [reflexivity|]. split; [vm_compute; reflexivity|]. split; [vm_compute; reflexivity|]. split; vm_compute; reflexivity.
Qed.
@*)

(*@T C95.  After any schedule the headers whose addition or emission returned success, in some order, have the consecutive heights from the initial
   one up to the current one, each is found at its height, earlier blocks are unchanged, and whenever nobody is inside [add_block] the chain is
   what adding these headers one after the other gives. *)
Lemma p_C95_contiguous : forall p founder m ch calls schedule,
  is_array 33 founder -> chain_filled ch -> Forall dcall_wf calls -> dc_height ch + N.of_nat (length calls) < 2 ^ 256 ->
  let '(s, ts) := deriv_exec p founder m schedule ch calls in
  exists accepted, Permutation accepted (flat_map dadded ts) /\
    dc_height (ds_chain s) = dc_height ch + N.of_nat (length accepted) /\
    (forall k i, nth_error accepted k = Some i -> bi_height i = dc_height ch + N.of_nat k /\
       dc_find_raw_by_height (dc_height ch + N.of_nat k) (ds_chain s) = Some (block_dump (DerivBlock i))) /\
    (forall j, j < dc_height ch -> dc_find_raw_by_height j (ds_chain s) = dc_find_raw_by_height j ch) /\
    ((forall th, In th ts -> inside_add th = false) -> same_contents (add_infos accepted ch) (ds_chain s)).
Proof.
  intros p founder m ch calls schedule Hf HF HW HB. pose proof (run_inv p founder m Hf ch calls schedule HB (filled_full _ HF) HW) as H.
  destruct (deriv_exec p founder m schedule ch calls) as [s ts]. destruct H as (D & L & acc & A). exists acc.
  split; [exact (av_perm _ _ _ _ A)|]. pose proof (av_height _ _ _ _ A) as Hh. split; [exact Hh|]. split; [|split].
  - intros k i Hk. destruct (av_nth _ _ _ _ A k i Hk) as [E1 [_ E2]]. split; [exact E1|]. unfold dc_find_raw_by_height. rewrite <- E1.
    assert (k < length acc)%nat by (apply nth_error_Some; congruence). destruct (N.ltb_spec (dc_height (ds_chain s)) (bi_height i)); [lia|exact E2].
  - intros j Hj. unfold dc_find_raw_by_height. destruct (N.ltb_spec (dc_height (ds_chain s)) j); [lia|]. destruct (N.ltb_spec (dc_height ch) j); [lia|]. exact (av_old _ _ _ _ A j Hj).
  - intros Hn. apply (av_free _ _ _ _ A). destruct (ds_locked s) eqn:El; [|reflexivity]. exfalso.
    pose proof (dv_lock _ _ _ _ _ D) as Q. rewrite El in Q. assert (total holding ts = 0); [|cbn in Q; lia]. clear -Hn. unfold total.
    induction ts as [|a ts IH]; [reflexivity|]. cbn [map fold_right]. rewrite IH by (intros x Hx; apply Hn; right; exact Hx). unfold holding. rewrite Hn by (left; reflexivity). reflexivity.
Qed.

(** ** One call alone *)
Section Alone.
Variables (p : profile) (founder : bytes) (t : bct).
Lemma solo_step ch lk by_ th ch' lk' by' th' : deriv_step p founder (t_main t) (MkDs ch lk by_) th = Some (MkDs ch' lk' by', th') ->
  sched_step (deriv_step p founder (t_main t)) (MkDs ch lk by_, [th]) 0%nat = (MkDs ch' lk' by', [th']).
Proof. intros E. unfold sched_step. cbn [nth_error replace]. rewrite E. reflexivity. Qed.
Definition gets (st1 st2 : dstate * list dthread) : Prop := exists n, exec (deriv_step p founder (t_main t)) (repeat 0%nat n) st1 = st2.
Lemma gets_refl a : gets a a. Proof. exists 0%nat. reflexivity. Qed.
Lemma gets_step a b c : sched_step (deriv_step p founder (t_main t)) a 0%nat = b -> gets b c -> gets a c.
Proof. intros <- (n & E). exists (S n). exact E. Qed.
Lemma gets_one s th s' th' c : deriv_step p founder (t_main t) s th = Some (s', th') -> gets (s', [th']) c -> gets (s, [th]) c.
Proof. intros E. apply gets_step. unfold sched_step. cbn [nth_error replace]. rewrite E. reflexivity. Qed.
Lemma gets_end s th s' th' : deriv_step p founder (t_main t) s th = Some (s', th') -> gets (s, [th]) (s', [th']).
Proof. intros E. eapply gets_one; [exact E|apply gets_refl]. Qed.

Lemma add_alone c i ch b : match c with DAdd _ | DEmit _ _ => True | _ => False end -> gets (MkDs ch false b, [QLock c i])
  (MkDs (fst (dc_add_block i ch)) false (match c with DEmit _ _ => false | _ => b end),
   [QDone c (let! _ := snd (dc_add_block i ch) in Ok (added_result c i))]).
Proof.
  intros Hc. unfold dc_add_block. destruct (N.eqb_spec (bi_height i) (dc_height ch)) as [E|E]; cbn [negb].
  - assert (E' : bi_height i =? dc_height ch = true) by (apply N.eqb_eq; exact E).
    eapply gets_one; [cbn [deriv_step ds_locked ds_chain]; rewrite E'; reflexivity|]. eapply gets_one; [reflexivity|]. eapply gets_one; [reflexivity|].
    cbn [with_chain ds_locked ds_busy ds_chain put_dref put_dblock dc_height dc_blocks dc_refs dc_genesis dc_difficulty dc_cfg].
    destruct (u256_add (dc_height ch) 1) as [h| | |] eqn:Eh; cbn [fst snd bind].
    + apply gets_end. cbn [deriv_step with_chain ds_chain put_dref put_dblock dc_height]. rewrite Eh. destruct c; reflexivity.
    + unfold u256_add in Eh. destruct (_ <? _); discriminate Eh.
    + apply gets_end. cbn [deriv_step with_chain ds_chain put_dref put_dblock dc_height]. rewrite Eh. destruct c; reflexivity.
    + unfold u256_add in Eh. destruct (_ <? _); discriminate Eh.
  - assert (E' : bi_height i =? dc_height ch = false) by (apply N.eqb_neq; exact E).
    apply gets_end. cbn [deriv_step ds_locked ds_chain]. rewrite E'. cbn [negb]. destruct c; try contradiction; reflexivity.
Qed.
Lemma emit_seq_chain w ts ch : fst (dcall_run p founder t (DEmit w ts) ch) =
  match seq_info p founder t w ts ch with Ok i => fst (dc_add_block i ch) | _ => ch end.
Proof.
  cbn [dcall_run]. unfold t_emmit_new_derivative_block, t_get_derivative_chain, with_deriv, with_derivs. cbn [t_derivs t_main]. rewrite assoc_get_set, bytes_eqb_refl. cbn [t_main].
  unfold seq_info, dc_get_last_block, info_after, info_after_genesis, next_info. cbn [fst snd].
  assert (Hg : assoc_get founder (assoc_set founder ch (t_derivs t)) = Some ch) by (rewrite assoc_get_set, bytes_eqb_refl; reflexivity).
  destruct (dc_get_last_raw_block ch) as [d| | |]; cbn [bind fst t_derivs]; try (rewrite Hg; reflexivity).
  destruct (dc_decode d) as [[b|]| | |]; cbn [bind fst t_derivs]; try (rewrite Hg; reflexivity).
  - destruct (u256_add (bi_height (get_info b)) 1) as [h| | |]; cbn [bind fst t_derivs]; try (rewrite Hg; reflexivity).
    destruct (check_pow _ _ _ _) as [[|]| | |]; cbn [bind negb fst t_derivs]; try (rewrite Hg; reflexivity). destruct (recalculate_difficulty _ _ _ _) as [d'| | |]; cbn [bind fst t_derivs]; try (rewrite Hg; reflexivity).
    destruct (dc_add_block _ ch) as [dc' r]. cbn [fst t_derivs]. rewrite assoc_get_set, bytes_eqb_refl. reflexivity.
  - destruct (mc_find_by_hash _ _) as [[b|]| | |]; cbn [bind fst t_derivs]; try (rewrite Hg; reflexivity).
    destruct (check_pow _ _ _ _) as [[|]| | |]; cbn [bind negb fst t_derivs]; try (rewrite Hg; reflexivity). destruct (recalculate_difficulty _ _ _ _) as [d'| | |]; cbn [bind fst t_derivs]; try (rewrite Hg; reflexivity).
    destruct (dc_add_block _ ch) as [dc' r]. cbn [fst t_derivs]. rewrite assoc_get_set, bytes_eqb_refl. reflexivity.
Qed.
Lemma went_alone w ts ch th : 
  deriv_step p founder (t_main t) (MkDs ch false true) th = goes_on (MkDs ch false true) (DEmit w ts) (seq_info p founder t w ts ch) ->
  gets (MkDs ch false true, [th]) (MkDs (fst (dcall_run p founder t (DEmit w ts) ch)) false false, [QDone (DEmit w ts) (snd (dcall_run p founder t (DEmit w ts) ch))]).
Proof.
  intros E. rewrite emit_seq_chain, emit_seq. destruct (seq_info p founder t w ts ch) as [i|e| |]; cbn [goes_on] in E.
  - eapply gets_one; [exact E|]. exact (add_alone (DEmit w ts) i ch true I).
  - apply gets_end. exact E.
  - apply gets_end. exact E.
  - apply gets_end. exact E.
Qed.
Lemma sub1_ok h : h <> 0 -> u256_sub h 1 = Ok (h - 1).
Proof. intros H. unfold u256_sub. destruct (N.leb_spec 1 h); [reflexivity|lia]. Qed.
Lemma append_bytes d f : file_append d f = MkFile (f_dur f) (f_pend f ++ [Some (file_bytes f ++ d)]).
Proof. reflexivity. Qed.
Lemma flush_cfg_alone ch : length (dc_difficulty ch) = 32%nat ->
  file_write_at 64 (dc_genesis ch) (file_write_at 32 (dc_difficulty ch) (file_write_at 0 (height_key (dc_height ch)) (file_truncate (dc_cfg ch)))) = dc_cfg (dc_dump_config ch).
Proof.
  intros Hd. unfold dc_dump_config. cbn [dc_cfg]. set (f0 := file_truncate (dc_cfg ch)).
  assert (H0 : file_bytes f0 = []) by apply file_bytes_truncate.
  assert (E1 : file_write_at 0 (height_key (dc_height ch)) f0 = file_append (height_key (dc_height ch)) f0).
  { rewrite append_bytes. unfold file_write_at. rewrite H0, overwrite_0, skipn_nil, app_nil_r. reflexivity. }
  rewrite E1. set (f1 := file_append (height_key (dc_height ch)) f0). assert (H1 : file_bytes f1 = height_key (dc_height ch)).
  { unfold f1. rewrite <- E1, file_bytes_write, H0, overwrite_0, skipn_nil, app_nil_r. reflexivity. }
  assert (E2 : file_write_at 32 (dc_difficulty ch) f1 = file_append (dc_difficulty ch) f1).
  { rewrite append_bytes. unfold file_write_at. rewrite H1, overwrite_32. reflexivity. }
  rewrite E2. set (f2 := file_append (dc_difficulty ch) f1). assert (H2 : file_bytes f2 = height_key (dc_height ch) ++ dc_difficulty ch).
  { unfold f2. rewrite <- E2, file_bytes_write, H1, overwrite_32. reflexivity. }
  rewrite append_bytes. unfold file_write_at. rewrite H2. unfold overwrite. rewrite app_length, height_key_length, Hd. change (64 - (32 + 32))%nat with 0%nat. cbn [repeat].
  rewrite app_nil_r, firstn_all2 by (rewrite app_length, height_key_length, Hd; lia). rewrite skipn_all2 by (rewrite app_length, height_key_length, Hd; lia). rewrite app_nil_r. reflexivity.
Qed.
End Alone.

(*@E
(* Two additions and an emission compete for height 1. *)
Example C95_contiguous_ex :
  let t := run Debug fresh [deriv_1] in
  let no := MkDeriv sled_empty sled_empty 0 [] [] file_absent in
  let ch := match assoc_get addrA (t_derivs t) with Some c => c | None => no end in
  let i := MkInfo 1597926001 (repeat 0 32) (repeat 0 32) 1 (repeat 0 32) addrA in
  let r := deriv_exec Debug addrA (t_main t) [0; 2; 0; 1; 2; 0; 2; 2; 0; 2; 2; 1; 1; 0; 1; 1; 0; 0; 1; 1]%nat ch [DEmit (repeat 4 32) 1597926000; DAdd i; DAdd i] in
  flat_map dadded (snd r) = [i] /\ dc_height (ds_chain (fst r)) = 2 /\ existsb inside_add (snd r) = false.
Proof. split; [vm_compute; reflexivity|]. split; vm_compute; reflexivity. Qed.
@*)

(*@T C95.  Running alone, step by step, each call does what the sequential model does. *)
Lemma p_C95_alone : forall p founder t ch c, length (dc_difficulty ch) = 32%nat ->
  exists n, deriv_exec p founder (t_main t) (repeat 0%nat n) ch [c] =
    (MkDs (fst (dcall_run p founder t c ch)) false false, [QDone c (snd (dcall_run p founder t c ch))]).
Proof.
  intros p founder t ch c Hd. change (gets p founder t (MkDs ch false false, [QStart c]) (MkDs (fst (dcall_run p founder t c ch)) false false, [QDone c (snd (dcall_run p founder t c ch))])).
  destruct c as [i| |h|h| |w ts].
  - eapply gets_one; [reflexivity|]. cbn [dcall_run]. pose proof (add_alone p founder t (DAdd i) i ch false I) as H. destruct (dc_add_block i ch) as [ch' r]. exact H.
  - cbn [dcall_run fst snd]. unfold dc_get_last_raw_block. destruct (N.eqb_spec (dc_height ch) 0) as [E0|E0].
    + apply gets_end. cbn [deriv_step ds_locked ds_chain]. rewrite E0. reflexivity.
    + rewrite sub1_ok by exact E0. cbn [bind]. eapply gets_one; [cbn [deriv_step ds_locked ds_chain]; destruct (N.eqb_spec (dc_height ch) 0); [contradiction|]; rewrite sub1_ok by exact E0; reflexivity|].
      unfold dc_find_raw_by_height. destruct (N.ltb_spec (dc_height ch) (dc_height ch - 1)); [lia|].
      eapply gets_one; [cbn [deriv_step ds_locked ds_chain]; destruct (N.ltb_spec (dc_height ch) (dc_height ch - 1)); [lia|reflexivity]|]. apply gets_end. reflexivity.
  - cbn [dcall_run fst snd]. unfold dc_find_raw_by_height. destruct (dc_height ch <? h) eqn:El.
    + apply gets_end. cbn [deriv_step ds_locked ds_chain]. rewrite El. reflexivity.
    + eapply gets_one; [cbn [deriv_step ds_locked ds_chain]; rewrite El; reflexivity|]. apply gets_end. reflexivity.
  - cbn [dcall_run fst snd]. unfold dc_find_raw_by_hash. destruct (sled_get h (dc_refs ch)) as [hb|] eqn:Er.
    + destruct (Nat.ltb 32 (length hb)) eqn:E32.
      * apply gets_end. cbn [deriv_step ds_locked ds_chain]. rewrite Er, E32. reflexivity.
      * eapply gets_one; [cbn [deriv_step ds_locked ds_chain]; rewrite Er, E32; reflexivity|]. unfold dc_find_raw_by_height. destruct (dc_height ch <? from_be hb) eqn:El.
        { apply gets_end. cbn [deriv_step ds_locked ds_chain]. rewrite El. reflexivity. }
        { eapply gets_one; [cbn [deriv_step ds_locked ds_chain]; rewrite El; reflexivity|]. apply gets_end. reflexivity. }
    + apply gets_end. cbn [deriv_step ds_locked ds_chain]. rewrite Er. reflexivity.
  - eapply gets_one; [reflexivity|]. eapply gets_one; [reflexivity|]. eapply gets_one; [reflexivity|]. eapply gets_one; [reflexivity|]. eapply gets_one; [reflexivity|]. eapply gets_one; [reflexivity|].
    cbn [dcall_run fst snd]. unfold dc_flush. rewrite <- (flush_cfg_alone ch Hd). apply gets_end. reflexivity.
  - eapply gets_one; [reflexivity|]. destruct (N.eqb_spec (dc_height ch) 0) as [E0|E0].
    + eapply gets_one; [cbn [deriv_step ds_locked ds_chain ds_busy]; rewrite E0; reflexivity|]. apply went_alone. rewrite seq_empty by exact E0. reflexivity.
    + eapply gets_one; [cbn [deriv_step ds_locked ds_chain ds_busy]; destruct (N.eqb_spec (dc_height ch) 0); [contradiction|]; rewrite sub1_ok by exact E0; reflexivity|].
      eapply gets_one; [cbn [deriv_step ds_locked ds_chain ds_busy]; destruct (N.ltb_spec (dc_height ch) (dc_height ch - 1)); [lia|reflexivity]|].
      apply went_alone. unfold seq_info, dc_get_last_raw_block, dc_find_raw_by_height. destruct (N.eqb_spec (dc_height ch) 0); [contradiction|]. rewrite sub1_ok by exact E0. cbn [bind].
      destruct (N.ltb_spec (dc_height ch) (dc_height ch - 1)); [lia|]. reflexivity.
Qed.

(** ** No deadlock *)
Definition dleft (th : dthread) : nat :=
  match th with
  | QStart _ => 12 | QBorrowed _ _ => 11 | QIdx _ _ => 10 | QGet _ _ => 9 | QGenesis _ _ => 8 | QLock _ _ => 7 | QWrite _ _ => 6 | QRef _ _ => 5 | QBump _ _ => 4
  | QHeight => 6 | QWriteHeight _ => 5 | QWriteDiff => 4 | QWriteGenesis => 3 | QBlocks => 2 | QRefs => 1 | QDone _ _ => 0
  end%nat.
Definition qdone (th : dthread) : bool := match th with QDone _ _ => true | _ => false end.
Lemma goes_left s c x s' th' : goes_on s c x = Some (s', th') -> (dleft th' <= 7)%nat.
Proof. intros E. apply goes_inv in E as [(i & _ & _ & ->)|(r & -> & _)]; cbn; lia. Qed.
Lemma ends_left s c r s' th' : call_ends s c r = Some (s', th') -> dleft th' = 0%nat.
Proof. intros E. apply ends_inv in E as (-> & _). reflexivity. Qed.
Lemma dstep_left p founder m s th s' th' : deriv_step p founder m s th = Some (s', th') -> (dleft th' < dleft th)%nat.
Proof.
  intros E. destruct th as [[i| |h|h| |w ts]|w ts|w ts|c j|c j|c i|c i|c i|c i| |h| | | | |c r]; cbn [deriv_step] in E; try discriminate E; cbn [dleft].
  all: repeat first [match type of E with (if ?b then _ else _) = _ => destruct b end | match type of E with (match ?x with _ => _ end) = _ => destruct x end]; try discriminate E.
  all: first [apply goes_left in E; lia | apply ends_left in E; lia | apply some_inv in E as [_ <-]; cbn; lia].
Qed.
Definition linv (s : dstate) (ts : list dthread) : Prop := total holding ts = bit (ds_locked s) /\ total emitting ts = bit (ds_busy s).
Lemma linv_step p founder m s ts k th s' th' : linv s ts -> nth_error ts k = Some th -> deriv_step p founder m s th = Some (s', th') -> linv s' (replace ts k th').
Proof.
  intros [L1 L2] Hk E. pose proof (nth_error_In _ _ Hk) as Hin. destruct (step_books p founder m _ _ _ _ E) as [B1 B2].
  - intros Hi. pose proof (total_in holding ts th Hin) as Q. unfold holding at 1 in Q. rewrite Hi, L1 in Q. destruct (ds_locked s); [reflexivity|cbn in Q; lia].
  - intros Hi. pose proof (total_in emitting ts th Hin) as Q. rewrite Hi, L2 in Q. destruct (ds_busy s); [reflexivity|cbn in Q; lia].
  - pose proof (total_replace holding ts k th th' Hk). pose proof (total_replace emitting ts k th th' Hk). split; lia.
Qed.
Lemma dstep_able p founder m s th : qdone th = false -> inside_add th = true \/ (ds_locked s = false /\ (ds_busy s = false \/ emitting th = 1)) -> exists s' th', deriv_step p founder m s th = Some (s', th').
Proof.
  intros Hd Hl. destruct (deriv_step p founder m s th) as [[s' th']|] eqn:E; [eauto|exfalso].
  destruct th as [[i| |h|h| |w ts]|w ts|w ts|c j|c j|c i|c i|c i|c i| |h| | | | |c r]; cbn [deriv_step] in E; try discriminate E; try discriminate Hd; try (destruct Hl as [Hl|[Hl1 Hl2]]; [discriminate Hl|]; rewrite ?Hl1 in E).
  all: repeat first [match type of E with (if ?b then _ else _) = _ => destruct b eqn:? end | match type of E with (match ?x with _ => _ end) = _ => destruct x end]; try discriminate E.
  all: try (unfold goes_on, call_ends in E; match type of E with context [match ?x with _ => _ end] => destruct x end; discriminate E).
  destruct Hl2 as [Hl2|Hl2]; [congruence|discriminate Hl2].
Qed.
Lemma total_zero {A} (f : A -> N) l : total f l = 0 -> forall x, In x l -> f x = 0.
Proof. intros H x Hx. pose proof (total_in f l x Hx). lia. Qed.
Lemma dfinishable p founder m n : forall s ts, linv s ts -> (N.to_nat (total (fun th => N.of_nat (dleft th)) ts) <= n)%nat ->
  exists sch, forall th, In th (snd (exec (deriv_step p founder m) sch (s, ts))) -> qdone th = true.
Proof.
  induction n as [|n IH]; intros s ts HL Hn.
  - exists []. intros th Hin. cbn [exec fold_left snd] in Hin. pose proof (total_in (fun th => N.of_nat (dleft th)) ts th Hin). destruct th; cbn [dleft] in *; try lia. reflexivity.
  - assert (Hstep : (forall th, In th ts -> qdone th = true) \/ exists k th s' th', nth_error ts k = Some th /\ deriv_step p founder m s th = Some (s', th')).
    { destruct (find_index qdone ts) as [H|(k & th & Hk & Hd)]; [left; exact H|right]. destruct HL as [L1 L2].
      destruct (ds_locked s) eqn:El.
      - destruct (find_index (fun th => negb (inside_add th)) ts) as [H|(j & h & Hj & Hh)].
        + exfalso. assert (total holding ts = 0); [|cbn in L1; lia]. clear -H. unfold total. induction ts as [|a ts IH]; [reflexivity|]. cbn [map fold_right].
          rewrite IH by (intros x Hx; apply H; right; exact Hx). specialize (H a (or_introl eq_refl)). unfold holding. destruct (inside_add a); [discriminate H|reflexivity].
        + apply negb_false_iff in Hh. assert (Hdh : qdone h = false) by (destruct h; try discriminate Hh; reflexivity).
          destruct (dstep_able p founder m s h Hdh (or_introl Hh)) as (s' & th' & E). eauto 6.
      - destruct (ds_busy s) eqn:Eb.
        + destruct (find_index (fun th => negb (emitting th =? 1)) ts) as [H|(j & h & Hj & Hh)].
          * exfalso. assert (total emitting ts = 0); [|cbn in L2; lia]. clear -H. unfold total. induction ts as [|a ts IH]; [reflexivity|]. cbn [map fold_right].
            rewrite IH by (intros x Hx; apply H; right; exact Hx). specialize (H a (or_introl eq_refl)). apply negb_true_iff, N.eqb_neq in H.
            destruct a as [| | |[]|[]|[]|[]|[]|[]| | | | | | |]; cbn [emitting] in *; lia.
          * apply negb_false_iff, N.eqb_eq in Hh. assert (Hdh : qdone h = false) by (destruct h; try discriminate Hh; reflexivity).
            destruct (dstep_able p founder m s h Hdh (or_intror (conj El (or_intror Hh)))) as (s' & th' & E). eauto 6.
        + destruct (dstep_able p founder m s th Hd (or_intror (conj El (or_introl Eb)))) as (s' & th' & E). eauto 6. }
    destruct Hstep as [H|(k & th & s' & th' & Hk & E)]; [exists []; exact H|].
    destruct (IH s' (replace ts k th')) as (sch & Hs).
    + eapply linv_step; eassumption.
    + pose proof (total_replace (fun th => N.of_nat (dleft th)) ts k th th' Hk) as E1. cbn beta in E1. pose proof (dstep_left _ _ _ _ _ _ _ E). lia.
    + exists (k :: sch). cbn [exec fold_left sched_step]. rewrite Hk, E. exact Hs.
Qed.
(*@E
Example C95_alone_ex :
  let t := run Debug fresh [deriv_1] in
  let no := MkDeriv sled_empty sled_empty 0 [] [] file_absent in
  let ch := match assoc_get addrA (t_derivs t) with Some c => c | None => no end in
  let i := MkInfo 1597926001 (repeat 0 32) (repeat 0 32) 1 (repeat 0 32) addrA in
  length (dc_difficulty ch) = 32%nat /\
  deriv_exec Debug addrA (t_main t) (repeat 0%nat 8) ch [DEmit (repeat 4 32) 1597926000] =
  (MkDs (fst (dcall_run Debug addrA t (DEmit (repeat 4 32) 1597926000) ch)) false false, [QDone (DEmit (repeat 4 32) 1597926000) (snd (dcall_run Debug addrA t (DEmit (repeat 4 32) 1597926000) ch))]).
Proof. split; vm_compute; reflexivity. Qed.
@*)

(*@T C95.  No deadlock: whatever has happened so far, a continuation of the schedule finishes every call. *)
Lemma p_C95_no_deadlock : forall p founder m ch calls schedule, exists rest,
  forall th, In th (snd (deriv_exec p founder m (schedule ++ rest) ch calls)) -> exists c r, th = QDone c r.
Proof.
  intros p founder m ch calls schedule. unfold deriv_exec.
  pose proof (exec_ind (deriv_step p founder m) linv (fun s ts k th s' th' H Hk E => linv_step p founder m s ts k th s' th' H Hk E) schedule (MkDs ch false false) (map QStart calls)) as HL.
  destruct (exec (deriv_step p founder m) schedule (MkDs ch false false, map QStart calls)) as [s ts] eqn:E.
  assert (L : linv s ts) by (apply HL; split; apply total_start; reflexivity).
  destruct (dfinishable p founder m _ s ts L (le_n _)) as (rest & H). exists rest. rewrite exec_app, E. intros th Hin. specialize (H th Hin). destruct th; try discriminate H. eauto.
Qed.

(** ** The config file under several flushes *)
(*@E
(* An emission stopped inside [add_block] blocks the reader until it goes on. *)
Example C95_no_deadlock_ex :
  let t := run Debug fresh [deriv_1] in
  let no := MkDeriv sled_empty sled_empty 0 [] [] file_absent in
  let ch := match assoc_get addrA (t_derivs t) with Some c => c | None => no end in
  let i := MkInfo 1597926001 (repeat 0 32) (repeat 0 32) 1 (repeat 0 32) addrA in
  let calls := [DEmit (repeat 4 32) 1597926000; DLast] in
  nth_error (snd (deriv_exec Debug addrA (t_main t) [0; 0; 0; 0; 0; 1; 1; 1]%nat ch calls)) 1 = Some (QStart DLast) /\
  (match snd (deriv_exec Debug addrA (t_main t) ([0; 0; 0; 0; 0; 1; 1; 1] ++ [0; 0; 0; 0; 1; 1; 1])%nat ch calls) with [QDone _ (Ok _); QDone _ (Ok _)] => True | _ => False end).
Proof. split; vm_compute; [reflexivity|exact I]. Qed.
@*)

Definition field (r : nat) (c : bytes) : bytes := firstn 32 (skipn (32 * r) c).
Lemma firstn_fill off (c : bytes) : length (firstn off (c ++ repeat 0 (off - length c))) = off.
Proof. rewrite firstn_length, app_length, repeat_length. lia. Qed.
Lemma field_same r d c : length d = 32%nat -> field r (overwrite (32 * r) d c) = d.
Proof.
  intros Hd. unfold field, overwrite. rewrite skipn_app, (skipn_all2 (n := 32 * r)) by (rewrite firstn_fill; lia). rewrite firstn_fill, Nat.sub_diag. cbn [app skipn].
  rewrite firstn_app, Hd, Nat.sub_diag, firstn_O, app_nil_r. apply firstn_all2. lia.
Qed.
Lemma field_full r c : length (field r c) = 32%nat -> (32 * r + 32 <= length c)%nat.
Proof. unfold field. rewrite firstn_length, skipn_length. lia. Qed.
Lemma skipn_skipn_add {A} (l : list A) : forall a b, skipn a (skipn b l) = skipn (b + a) l.
Proof. intros a b. revert l. induction b as [|b IH]; intros l; [reflexivity|]. destruct l as [|x l]; [rewrite !skipn_nil; reflexivity|]. cbn [skipn Nat.add]. apply IH. Qed.
Lemma field_other r r' d c : length d = 32%nat -> r <> r' -> length (field r' c) = 32%nat -> field r' (overwrite (32 * r) d c) = field r' c.
Proof.
  intros Hd Hne Hf. apply field_full in Hf. unfold field, overwrite. destruct (Nat.lt_ge_cases r' r) as [Hl|Hl].
  - rewrite skipn_app, firstn_fill. replace (32 * r' - 32 * r)%nat with 0%nat by lia. cbn [skipn]. rewrite firstn_app.
    rewrite skipn_length, firstn_fill. replace (32 - (32 * r - 32 * r'))%nat with 0%nat by lia. rewrite firstn_O, app_nil_r.
    replace (32 * r)%nat with (32 * r' + (32 * r - 32 * r'))%nat at 1 by lia. rewrite <- firstn_skipn_comm. rewrite firstn_firstn. replace (Nat.min 32 (32 * r - 32 * r')) with 32%nat by lia.
    rewrite skipn_app. rewrite firstn_app, skipn_length. replace (32 - (length c - 32 * r'))%nat with 0%nat by lia. rewrite firstn_O, app_nil_r. reflexivity.
  - rewrite app_assoc, skipn_app, app_length, firstn_fill, Hd. rewrite (skipn_all2 (n := 32 * r')) by (rewrite app_length, firstn_fill, Hd; lia). cbn [app].
    rewrite skipn_skipn_add. f_equal. f_equal. lia.
Qed.
Lemma overwrite_len r d c : length d = 32%nat -> (r <= 2)%nat -> (length c <= 96)%nat -> (length (overwrite (32 * r) d c) <= 96)%nat.
Proof. intros Hd Hr Hc. unfold overwrite. rewrite !app_length, firstn_fill, skipn_length, Hd. lia. Qed.
Lemma fields_all c x y z : (length c <= 96)%nat -> field 0 c = x -> field 1 c = y -> field 2 c = z -> length x = 32%nat -> length y = 32%nat -> length z = 32%nat -> c = x ++ y ++ z.
Proof.
  unfold field. change (32 * 0)%nat with 0%nat. change (32 * 1)%nat with 32%nat. change (32 * 2)%nat with 64%nat. change (skipn 0 c) with c.
  intros Hl <- <- <- H1 H2 H3. rewrite firstn_length, ?skipn_length in H1, H2, H3.
  transitivity (firstn 32 c ++ skipn 32 c); [symmetry; apply firstn_skipn|]. f_equal. transitivity (firstn 32 (skipn 32 c) ++ skipn 32 (skipn 32 c)); [symmetry; apply firstn_skipn|]. f_equal.
  rewrite skipn_skipn_add. change (32 + 32)%nat with 64%nat. symmetry. apply firstn_all2. rewrite skipn_length. lia.
Qed.

Definition pending_field (r : nat) (th : dthread) : bool :=
  match th with
  | QStart DFlush => true
  | QHeight | QWriteHeight _ => true
  | QWriteDiff => match r with 0%nat => false | _ => true end
  | QWriteGenesis => match r with 0%nat | 1%nat => false | _ => true end
  | _ => false
  end.
Definition unstarted (th : dthread) : bool := match th with QStart DFlush => true | _ => false end.
Record ccfg (h0 : N) (d g : bytes) (s : dstate) (ts : list dthread) : Prop := {
  cc_low : h0 <= dc_height (ds_chain s) < 2 ^ 256;
  cc_diff : dc_difficulty (ds_chain s) = d;
  cc_gen : dc_genesis (ds_chain s) = g;
  cc_len : (exists th, In th ts /\ unstarted th = true) \/ (length (file_bytes (dc_cfg (ds_chain s))) <= 96)%nat;
  cc_read : forall h, In (QWriteHeight h) ts -> h0 <= h <= dc_height (ds_chain s);
  cc_height : (exists th, In th ts /\ pending_field 0 th = true) \/ exists h, h0 <= h <= dc_height (ds_chain s) /\ field 0 (file_bytes (dc_cfg (ds_chain s))) = height_key h;
  cc_d : (exists th, In th ts /\ pending_field 1 th = true) \/ field 1 (file_bytes (dc_cfg (ds_chain s))) = d;
  cc_g : (exists th, In th ts /\ pending_field 2 th = true) \/ field 2 (file_bytes (dc_cfg (ds_chain s))) = g
}.
Definition flushes (th : dthread) : bool :=
  match th with QStart DFlush | QHeight | QWriteHeight _ | QWriteDiff | QWriteGenesis => true | _ => false end.
Definition calm (s : dstate) (s' : dstate) (th' : dthread) : Prop := dc_cfg (ds_chain s') = dc_cfg (ds_chain s) /\ (forall r, pending_field r th' = true -> False) /\ (forall h, th' <> QWriteHeight h).
Lemma noflush_cfg p founder m s th s' th' : deriv_step p founder m s th = Some (s', th') -> flushes th = false -> calm s s' th'.
Proof.
  intros E Hf.
  assert (Hgo : forall c x, goes_on s c x = Some (s', th') -> calm s s' th').
  { intros c x H. unfold calm. apply goes_inv in H as [(i & _ & -> & ->)|(r & -> & _ & E1 & _)]; (split; [congruence|]); (split; discriminate). }
  assert (Hend : forall s1 c r, call_ends s1 c r = Some (s', th') -> dc_cfg (ds_chain s1) = dc_cfg (ds_chain s) -> calm s s' th').
  { intros s1 c r H H1. unfold calm. apply ends_inv in H as (-> & E1 & _). split; [congruence|]. split; discriminate. }
  destruct th as [[i| |h|h| |w ts]|w ts|w ts|c j|c j|c i|c i|c i|c i| |h| | | | |c r]; cbn [deriv_step] in E; try discriminate E; try discriminate Hf.
  all: repeat first [match type of E with (if ?b then _ else _) = _ => destruct b end | match type of E with (match ?x with _ => _ end) = _ => destruct x end]; try discriminate E.
  all: first [apply Hgo in E; exact E | (eapply Hend; [exact E|reflexivity]) | (apply some_inv in E as [<- <-]; split; [reflexivity|split; discriminate])].
Qed.
Lemma ccfg_step p founder m h0 d g s ts k th s' th' : length d = 32%nat -> length g = 32%nat -> dc_height (ds_chain s) < 2 ^ 256 ->
  ccfg h0 d g s ts -> nth_error ts k = Some th -> deriv_step p founder m s th = Some (s', th') -> ccfg h0 d g s' (replace ts k th').
Proof.
  intros Hd Hg Hh [C0 C1 C2 C3 C4 C5 C6 C7] Hk E. destruct (effect_keeps _ _ _ _ Hh (step_effect _ _ _ _ _ _ _ E)) as [(K1 & K2 & K3 & _) K5].
  destruct (flushes th) eqn:Ef.
  - destruct th as [[| | | | |]| | | | | | | | | |h| | | | |]; try discriminate Ef; cbn [deriv_step] in E.
    + apply some_inv in E as [<- <-]. cbn [with_chain ds_chain] in *. split; cbn [ds_chain with_chain deriv_with_cfg dc_height dc_difficulty dc_genesis dc_cfg]; rewrite ?file_bytes_truncate; try assumption.
      * right. cbn [length]. lia.
      * intros h H. apply in_replace in H as [H|H]; [discriminate H|]. exact (C4 h H).
      * left. exists QHeight. split; [eapply in_replace_new, Hk|reflexivity].
      * left. exists QHeight. split; [eapply in_replace_new, Hk|reflexivity].
      * left. exists QHeight. split; [eapply in_replace_new, Hk|reflexivity].
    + destruct (ds_locked s); [discriminate E|]. apply some_inv in E as [<- <-]. split; try assumption.
      * destruct C3 as [H|H]; [left; eapply pending_move; [exact Hk| |exact H]; discriminate|right; exact H].
      * intros h H. apply in_replace in H as [H|H]; [|exact (C4 h H)]. injection H as ->. lia.
      * left. eexists. split; [eapply in_replace_new, Hk|reflexivity].
      * left. eexists. split; [eapply in_replace_new, Hk|reflexivity].
      * left. eexists. split; [eapply in_replace_new, Hk|reflexivity].
    + apply some_inv in E as [<- <-]. cbn [with_chain ds_chain] in *. change 0%nat with (32 * 0)%nat. split; cbn [ds_chain with_chain deriv_with_cfg dc_height dc_difficulty dc_genesis dc_cfg]; rewrite ?file_bytes_write; try assumption.
      * destruct C3 as [H|H]; [left; eapply pending_move; [exact Hk| |exact H]; discriminate|right]. apply overwrite_len; [apply height_key_length|lia|exact H].
      * intros h1 H. apply in_replace in H as [H|H]; [discriminate H|]. exact (C4 h1 H).
      * right. exists h. split; [apply C4; eapply nth_error_In, Hk|]. apply field_same, height_key_length.
      * left. exists QWriteDiff. split; [eapply in_replace_new, Hk|reflexivity].
      * left. exists QWriteDiff. split; [eapply in_replace_new, Hk|reflexivity].
    + apply some_inv in E as [<- <-]. cbn [with_chain ds_chain] in *. change (file_write_at 32) with (file_write_at (32 * 1)). split; cbn [ds_chain with_chain deriv_with_cfg dc_height dc_difficulty dc_genesis dc_cfg]; rewrite ?file_bytes_write; try assumption.
      * destruct C3 as [H|H]; [left; eapply pending_move; [exact Hk| |exact H]; discriminate|right]. apply overwrite_len; [rewrite C1; exact Hd|lia|exact H].
      * intros h1 H. apply in_replace in H as [H|H]; [discriminate H|]. exact (C4 h1 H).
      * destruct C5 as [H|(h & H1 & H2)]; [left; eapply pending_move; [exact Hk| |exact H]; discriminate|right]. exists h. split; [exact H1|].
        rewrite field_other; [exact H2|rewrite C1; exact Hd|lia|rewrite H2; apply height_key_length].
      * right. rewrite field_same by (rewrite C1; exact Hd). exact C1.
      * left. exists QWriteGenesis. split; [eapply in_replace_new, Hk|reflexivity].
    + apply some_inv in E as [<- <-]. cbn [with_chain ds_chain] in *. change (file_write_at 64) with (file_write_at (32 * 2)). split; cbn [ds_chain with_chain deriv_with_cfg dc_height dc_difficulty dc_genesis dc_cfg]; rewrite ?file_bytes_write; try assumption.
      * destruct C3 as [H|H]; [left; eapply pending_move; [exact Hk| |exact H]; discriminate|right]. apply overwrite_len; [rewrite C2; exact Hg|lia|exact H].
      * intros h1 H. apply in_replace in H as [H|H]; [discriminate H|]. exact (C4 h1 H).
      * destruct C5 as [H|(h & H1 & H2)]; [left; eapply pending_move; [exact Hk| |exact H]; discriminate|right]. exists h. split; [exact H1|].
        rewrite field_other; [exact H2|rewrite C2; exact Hg|lia|rewrite H2; apply height_key_length].
      * destruct C6 as [H|H]; [left; eapply pending_move; [exact Hk| |exact H]; discriminate|right]. rewrite field_other; [exact H|rewrite C2; exact Hg|lia|rewrite H; exact Hd].
      * right. rewrite field_same by (rewrite C2; exact Hg). exact C2.
  - destruct (noflush_cfg _ _ _ _ _ _ _ E Ef) as (Q1 & Q2 & Q3).
    assert (Hnp : forall r, pending_field r th = true -> pending_field r th' = true) by (intros r H; destruct th as [[]| | | | | | | | | | | | | | |]; discriminate).
    assert (Hnu : unstarted th = true -> unstarted th' = true) by (intros H; destruct th as [[]| | | | | | | | | | | | | | |]; discriminate).
    split; rewrite ?Q1, ?K2, ?K3; try assumption.
    + lia.
    + destruct C3 as [H|H]; [left; eapply pending_move; [exact Hk|exact Hnu|exact H]|right; exact H].
    + intros h H. apply in_replace in H as [H|H]; [exfalso; eapply Q3; symmetry; exact H|]. specialize (C4 h H). lia.
    + destruct C5 as [H|(h & H1 & H2)]; [left; eapply pending_move; [exact Hk|exact (Hnp 0%nat)|exact H]|right; exists h; split; [lia|exact H2]].
    + destruct C6 as [H|H]; [left; eapply pending_move; [exact Hk|exact (Hnp 1%nat)|exact H]|right; exact H].
    + destruct C7 as [H|H]; [left; eapply pending_move; [exact Hk|exact (Hnp 2%nat)|exact H]|right; exact H].
Qed.

(*@T C95.  Any number of flushes through the handles among other calls: when all calls have returned, and at least one was a flush, the chain's directory, closed
   and opened again (whatever block hash the opening caller offers), is a chain with the same genesis hash and difficulty, at a height between that at the start and
   that at the end, with every block below it as it was. *)
Lemma p_C95_flushes_reopen : forall p founder m ch calls schedule offered,
  is_array 33 founder -> is_array 32 (dc_difficulty ch) -> is_array 32 (dc_genesis ch) ->
  chain_filled ch -> Forall dcall_wf calls -> dc_height ch + N.of_nat (length calls) < 2 ^ 256 -> In DFlush calls ->
  let '(s, ts) := deriv_exec p founder m schedule ch calls in
  (forall th, In th ts -> exists c r, th = QDone c r) ->
  exists ch', dc_new (dc_close (ds_chain s)) offered = Ok ch' /\ dc_genesis ch' = dc_genesis ch /\ dc_difficulty ch' = dc_difficulty ch /\
    dc_height ch <= dc_height ch' <= dc_height (ds_chain s) /\
    (forall j, j < dc_height ch' -> dc_find_raw_by_height j ch' = dc_find_raw_by_height j (ds_chain s) /\ dc_find_raw_by_height j ch' <> None).
Proof.
  intros p founder m ch calls schedule offered Hf Hd Hg HF HW HB Hin.
  pose proof (exec_ind (deriv_step p founder m) (fun s ts => dinv p founder m s ts /\ ccfg (dc_height ch) (dc_difficulty ch) (dc_genesis ch) s ts)) as H.
  specialize (H ltac:(intros s ts k th s' th' [D C] Hk E; split; [eapply dinv_step; eassumption|eapply ccfg_step; [apply Hd|apply Hg|exact (dv_height _ _ _ _ _ D)|exact C|exact Hk|exact E]]) schedule (MkDs ch false false) (map QStart calls)).
  unfold deriv_exec. destruct (exec _ schedule _) as [s ts]. destruct H as [D C].
  { split; [apply dinv_init; [lia|apply filled_full, HF|exact HW]|].
    assert (Hs : In (QStart DFlush) (map QStart calls)) by (apply in_map, Hin).
    split; cbn [ds_chain]; try reflexivity; try (left; exists (QStart DFlush); split; [exact Hs|reflexivity]); [lia|]. intros h Hh. apply in_map_iff in Hh as (c & Q & _). discriminate Q. }
  intros Hall. destruct C as [C0 C1 C2 C3 C4 C5 C6 C7].
  assert (Hno : forall f : dthread -> bool, (forall c r, f (QDone c r) = false) -> (exists th, In th ts /\ f th = true) -> False).
  { intros f Hfd (th & Hth & Q). destruct (Hall th Hth) as (c & r & ->). rewrite Hfd in Q. discriminate Q. }
  destruct C3 as [C3|C3]; [destruct (Hno unstarted ltac:(reflexivity) C3)|]. destruct C5 as [C5|(h & Hh & C5)]; [destruct (Hno (pending_field 0) ltac:(reflexivity) C5)|].
  destruct C6 as [C6|C6]; [destruct (Hno (pending_field 1) ltac:(reflexivity) C6)|]. destruct C7 as [C7|C7]; [destruct (Hno (pending_field 2) ltac:(reflexivity) C7)|].
  pose proof (fields_all _ _ _ _ C3 C5 C6 C7 (height_key_length h) (proj1 Hd) (proj1 Hg)) as Hb.
  assert (Hc : file_cur (dd_cfg (dc_close (ds_chain s))) = Some (height_key h ++ dc_difficulty ch ++ dc_genesis ch)).
  { unfold dc_close. cbn [dd_cfg]. unfold file_settle, file_cur at 1. cbn [f_pend f_dur last]. unfold file_bytes in Hb. destruct (file_cur (dc_cfg (ds_chain s))); [rewrite Hb; reflexivity|].
    exfalso. apply (f_equal (@length N)) in Hb. rewrite app_length, height_key_length in Hb. cbn in Hb. lia. }
  exists (MkDeriv (sled_flush (dc_blocks (ds_chain s))) (sled_flush (dc_refs (ds_chain s))) h (dc_genesis ch) (dc_difficulty ch) (dd_cfg (dc_close (ds_chain s)))).
  split; [apply (dc_new_cfg (dc_close (ds_chain s)) offered h); [lia|exact Hd|exact Hg|exact Hc]|]. cbn [dc_genesis dc_difficulty dc_height].
  split; [reflexivity|]. split; [reflexivity|]. split; [exact Hh|]. intros j Hj. unfold dc_find_raw_by_height. cbn [dc_height dc_blocks].
  destruct (N.ltb_spec h j); [lia|]. destruct (N.ltb_spec (dc_height (ds_chain s)) j); [lia|]. change (sled_get (height_key j) (sled_flush (dc_blocks (ds_chain s)))) with (sled_get (height_key j) (dc_blocks (ds_chain s))).
  split; [reflexivity|]. destruct (dv_full _ _ _ _ _ D j ltac:(lia)) as (i & <- & _ & Q). rewrite Q. discriminate.
Qed.

(*@E
Example C95_flushes_reopen_ex :
  let t := run Debug fresh [deriv_1] in
  let no := MkDeriv sled_empty sled_empty 0 [] [] file_absent in
  let ch := match assoc_get addrA (t_derivs t) with Some c => c | None => no end in
  let i := MkInfo 1597926001 (repeat 0 32) (repeat 0 32) 1 (repeat 0 32) addrA in
  let r := deriv_exec Debug addrA (t_main t) [0; 0; 1; 1; 1; 1; 2; 1; 2; 0; 2; 2; 0; 2; 0; 0; 0; 2; 2]%nat ch [DFlush; DAdd i; DFlush] in
  snd r = [QDone DFlush (Ok DUnit); QDone (DAdd i) (Ok DUnit); QDone DFlush (Ok DUnit)] /\
  match dc_new (dc_close (ds_chain (fst r))) (repeat 9 32) with Ok c => dc_height c = 2 | _ => False end.
Proof. split; vm_compute; reflexivity. Qed.
@*)

(*@T C95, refuted.  Two flushes may overlap: one reads the height, blocks are added, the other flush runs from start to end, and then the first one writes the
   height it read into the file.  All calls succeed, yet the chain is reopened below the height it had when the second flush was called. *)
Lemma p_C95_flush_height_refuted : ~ (forall p founder m ch calls before after k offered,
  is_array 33 founder -> is_array 32 (dc_difficulty ch) -> is_array 32 (dc_genesis ch) ->
  chain_filled ch -> Forall dcall_wf calls -> dc_height ch + N.of_nat (length calls) < 2 ^ 256 ->
  nth_error (snd (deriv_exec p founder m before ch calls)) k = Some (QStart DFlush) ->
  let '(s, ts) := deriv_exec p founder m (before ++ after) ch calls in
  (forall th, In th ts -> exists c r, th = QDone c (Ok r)) ->
  forall ch', dc_new (dc_close (ds_chain s)) offered = Ok ch' -> dc_height (ds_chain (fst (deriv_exec p founder m before ch calls))) <= dc_height ch').
Proof.
  intros H.
  set (z := repeat 0 32). set (w := repeat 7 33). set (i := MkInfo 5 z z 0 z w).
  set (ch := MkDeriv sled_empty sled_empty 0 z z file_absent). set (m := MkMain sled_empty sled_empty sled_empty 0 z file_absent).
  specialize (H Debug w m ch [DFlush; DAdd i; DFlush] [0; 0; 1; 1; 1; 1; 1]%nat [2; 2; 2; 2; 2; 2; 2; 0; 0; 0; 0; 0]%nat 2%nat z).
  assert (Hz : is_array 32 z) by (split; [reflexivity|repeat constructor]).
  assert (Hw : is_array 33 w) by (split; [reflexivity|repeat constructor]).
  assert (Hi : info_wf i) by (repeat split; try apply Hz; try apply Hw).
  assert (Hf : chain_filled ch) by (intros j Hj; cbn in Hj; lia).
  assert (Hc : Forall dcall_wf [DFlush; DAdd i; DFlush]) by (constructor; [exact I|constructor; [exact Hi|constructor; [exact I|constructor]]]).
  assert (Hb : dc_height ch + N.of_nat (length [DFlush; DAdd i; DFlush]) < 2 ^ 256) by (cbn [ch dc_height length]; lia).
  assert (Hq : nth_error (snd (deriv_exec Debug w m [0; 0; 1; 1; 1; 1; 1]%nat ch [DFlush; DAdd i; DFlush])) 2 = Some (QStart DFlush)) by (vm_compute; reflexivity).
  specialize (H Hw Hz Hz Hf Hc Hb Hq).
  destruct (deriv_exec Debug w m _ ch [DFlush; DAdd i; DFlush]) as [s ts] eqn:E in H.
  assert (E1 : ts = [QDone DFlush (Ok DUnit); QDone (DAdd i) (Ok DUnit); QDone DFlush (Ok DUnit)]).
  { transitivity (snd (s, ts)); [reflexivity|]. rewrite <- E. vm_compute. reflexivity. }
  assert (E2 : exists ch', dc_new (dc_close (ds_chain s)) z = Ok ch' /\ dc_height ch' = 0).
  { replace s with (fst (s, ts)) by reflexivity. rewrite <- E. eexists. split; [vm_compute; reflexivity|reflexivity]. }
  destruct E2 as (ch' & E2 & E3). specialize (H ltac:(rewrite E1; intros th [<-|[<-|[<-|[]]]]; eauto) ch' E2). rewrite E3 in H.
  assert (E4 : dc_height (ds_chain (fst (deriv_exec Debug w m [0; 0; 1; 1; 1; 1; 1]%nat ch [DFlush; DAdd i; DFlush]))) = 1) by (vm_compute; reflexivity). rewrite E4 in H. apply H. reflexivity.
Qed.

(*@T C95.  Every open derivative chain of a reachable tree is filled, its references were made for blocks, and its difficulty and genesis hash have 32 bytes. *)
Lemma p_C95_reachable : forall p n t w ch, reachable any_op p n t -> few n -> assoc_get w (t_derivs t) = Some ch ->
  is_array 33 w /\ is_array 32 (dc_difficulty ch) /\ is_array 32 (dc_genesis ch) /\ chain_filled ch /\ refs_named ch.
Proof.
  intros p n t w ch Hr Hn E. destruct (reachable_derivs false any_op p n t Hr ltac:(intros ? _ ?; discriminate) Hn) as (L & _ & _ & HD).
  destruct (derivs_inv_get _ _ _ _ _ _ _ HD E) as (Hw & B & HB & _). split; [exact Hw|]. destruct HB as [H1 [C1 C2 C3 _] [H3 _] H4 H5 _].
  split; [exact H4|]. split; [exact H3|]. split; [|exact H5]. intros j Hj. unfold nthN in *. 
  destruct (nth_error B (N.to_nat j)) as [x|] eqn:Ex; [|apply nth_error_None in Ex; lia].
  assert (Hx : nthN B j = Some x) by exact Ex. exists x. split; [rewrite Forall_forall in C3; apply C3; eapply nth_error_In, Ex|]. split; [apply C2, Hx|apply C1, Hx].
Qed.
(*@E
Example C95_reachable_ex : exists ch, assoc_get addrA (t_derivs (run Debug fresh [deriv_1])) = Some ch /\ dc_height ch = 1.
Proof. eexists. split; vm_compute; reflexivity. Qed.
@*)
