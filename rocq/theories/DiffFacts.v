(** Lemmas about proof of work, difficulty and fee (Tools.v). *)
From Coq Require Import Lia ZifyBool ZifyNat ZifyN.
From Verif Require Import Base Sha256 Merkle Tools Spec BaseFacts ToolsFacts MerkleFacts.

(** ** Leading zeros *)

Definition all_bytes : list N := map N.of_nat (seq 0 256).

Lemma all_bytes_in b : b < 256 -> In b all_bytes.
Proof.
  intros H. unfold all_bytes. apply in_map_iff. exists (N.to_nat b). split; [lia|].
  apply in_seq. lia.
Qed.

Lemma byte_clz_sweep :
  forallb (fun b => (u8_leading_zeros b =? zeros_before_one (byte_bits b)) &&
                    ((b =? 0) || existsb id (byte_bits b))) all_bytes = true.
Proof. vm_compute. reflexivity. Qed.

Lemma zeros_app a b : zeros_before_one (a ++ b) =
  if existsb id a then zeros_before_one a else N.of_nat (length a) + zeros_before_one b.
Proof.
  induction a as [|[] a IH]; cbn [app existsb id orb zeros_before_one length]; try reflexivity.
  rewrite IH. destruct (existsb id a); [reflexivity|]. lia.
Qed.

Lemma clz_spec l : bytes_ok l -> count_leading_zeros l = leading_zero_bits l.
Proof.
  induction l as [|b l IH]; intros H; [reflexivity|]. inversion H as [|? ? Hb Hl]; subst.
  unfold leading_zero_bits, bits. cbn [map concat count_leading_zeros].
  fold (bits l). rewrite zeros_app.
  pose proof byte_clz_sweep as Hs. rewrite forallb_forall in Hs.
  specialize (Hs b (all_bytes_in b Hb)). apply andb_true_iff in Hs as [H1 H2].
  apply N.eqb_eq in H1. rewrite <- H1.
  destruct (N.eqb_spec b 0) as [->|Hnz].
  - cbn. rewrite IH by exact Hl. reflexivity.
  - cbn [orb] in H2. rewrite H2.
    assert (u8_leading_zeros b < 8).
    { unfold u8_leading_zeros. assert (0 < N.size b); [|lia].
      rewrite N.size_log2 by exact Hnz. lia. }
    destruct (N.ltb_spec (u8_leading_zeros b) 8); [reflexivity|lia].
Qed.

Lemma clz_bound l : count_leading_zeros l <= 8 * N.of_nat (length l).
Proof.
  induction l as [|b l IH]; cbn [count_leading_zeros length]; [lia|].
  assert (u8_leading_zeros b <= 8) by (unfold u8_leading_zeros; lia).
  destruct (u8_leading_zeros b <? 8); lia.
Qed.

(** For a 32-byte string: leading zero bits = 256 - bit length. *)
Lemma clz_size l : bytes_ok l -> count_leading_zeros l = 8 * N.of_nat (length l) - N.size (from_be l).
Proof.
  induction l as [|b l IH]; intros H; [reflexivity|]. inversion H as [|? ? Hb Hl]; subst.
  cbn [count_leading_zeros]. rewrite from_be_cons. pose proof (from_be_bound l Hl) as Hbound.
  assert (Hszl : N.size (from_be l) <= 8 * N.of_nat (length l)).
  { apply size_le_iff. rewrite <- pow256. exact Hbound. }
  cbn [length]. destruct (N.eq_dec b 0) as [->|Hnz].
  - change (u8_leading_zeros 0) with 8. cbn [N.ltb N.compare]. rewrite IH by exact Hl.
    replace (0 * 256 ^ N.of_nat (length l) + from_be l) with (from_be l) by lia.
    change (8 <? 8) with false. cbn iota. lia.
  - assert (Hs : N.size b <= 8) by (apply size_le_iff; exact Hb).
    assert (Hs' : 0 < N.size b) by (rewrite N.size_log2 by exact Hnz; lia).
    unfold u8_leading_zeros. destruct (N.ltb_spec (8 - N.size b) 8) as [_|]; [|lia].
    assert (Hsize : N.size (b * 256 ^ N.of_nat (length l) + from_be l) = N.size b + 8 * N.of_nat (length l)).
    { destruct (size_bounds b Hnz) as [Hb1 Hb2].
      set (n := 8 * N.of_nat (length l)) in *. rewrite pow256 in *. fold n in Hbound |- *.
      assert (Hp : 0 < 2 ^ n) by (apply N.neq_0_lt_0, N.pow_nonzero; lia).
      apply N.le_antisymm.
      - apply size_le_iff. rewrite N.pow_add_r. nia.
      - apply N.nlt_ge. intros Hc. assert (Hc' : N.size (b * 2 ^ n + from_be l) <= (N.size b - 1) + n) by lia.
        apply size_le_iff in Hc'. rewrite N.pow_add_r in Hc'. nia. }
    rewrite Hsize. lia.
Qed.

(** ** Retargeting *)

(** The retarget step as a function of how the gap compares with 600 s. *)
Definition retarget (p : profile) (c : comparison) (d : bytes) : out bytes :=
  let nz := first_nonzero 0 d in
  match c with
  | Lt => let! val := index_unchecked d nz in set_unchecked d nz (N.shiftr val 1)
  | Gt =>
      let! val := index_unchecked d nz in
      if (Nat.eqb nz 0 && (val =? 127))%bool then Ok d
      else if val =? 255 then
        match nz with
        | O => match p with Debug => Panic | Release => UB end
        | S i => let! val' := index_unchecked d i in set_unchecked d i ((val' * 2) mod 256 + 1)
        end
      else set_unchecked d nz ((val * 2) mod 256 + 1)
  | Eq => Ok d
  end.

Lemma recalc_retarget p a b d :
  recalculate_difficulty p a b d = let! gap := u64_sub p b a in retarget p (gap ?= 600) d.
Proof. reflexivity. Qed.

(** The difficulty with target 2^m-1. *)
Definition mask (m : nat) : bytes := to_be 32 (2 ^ N.of_nat m - 1).
(** The degenerate difficulties reached by easing the all-zero one. *)
Definition degenerate (k : nat) : bytes := (2 ^ N.of_nat k - 1) :: repeat 0 31.

Definition domain : list bytes := map mask (seq 0 256) ++ map degenerate (seq 1 7).

Definition out_eqb (x : out bytes) (y : bytes) : bool :=
  match x with Ok a => bytes_eqb a y | _ => false end.
Definition out_in (x : out bytes) (l : list bytes) : bool :=
  match x with Ok a => existsb (bytes_eqb a) l | _ => false end.

Lemma mask_sweep :
  forallb (fun m =>
    forallb (fun p =>
      out_eqb (retarget p Lt (mask m)) (mask (m - 1)) &&
      out_eqb (retarget p Gt (mask m))
        (if Nat.eqb m 0 then degenerate 1 else mask (Nat.min 255 (m + 1))))
      [Debug; Release]) (seq 0 256) = true.
Proof. vm_compute. reflexivity. Qed.

Lemma degenerate_sweep :
  forallb (fun k =>
    forallb (fun p =>
      out_eqb (retarget p Lt (degenerate k)) (if Nat.eqb k 1 then mask 0 else degenerate (k - 1)) &&
      out_eqb (retarget p Gt (degenerate k)) (degenerate (Nat.min 7 (k + 1))))
      [Debug; Release]) (seq 1 7) = true.
Proof. vm_compute. reflexivity. Qed.

Lemma domain_clz : forallb (fun d => (1 <=? count_leading_zeros d) && Nat.eqb (length d) 32) domain = true.
Proof. vm_compute. reflexivity. Qed.

Lemma profile_in p : In p [Debug; Release].
Proof. destruct p; cbn; auto. Qed.

Lemma out_eqb_eq x y : out_eqb x y = true -> x = Ok y.
Proof. destruct x; cbn; try discriminate. intros H. apply bytes_eqb_eq in H. congruence. Qed.

Lemma mask_lt p m : (m <= 255)%nat -> retarget p Lt (mask m) = Ok (mask (m - 1)).
Proof.
  intros H. pose proof mask_sweep as Hs. rewrite forallb_forall in Hs.
  specialize (Hs m ltac:(apply in_seq; lia)). rewrite forallb_forall in Hs.
  specialize (Hs p (profile_in p)). apply andb_true_iff in Hs as [Hs _]. apply out_eqb_eq, Hs.
Qed.

Lemma mask_gt p m : (m <= 255)%nat -> retarget p Gt (mask m) =
  Ok (if Nat.eqb m 0 then degenerate 1 else mask (Nat.min 255 (m + 1))).
Proof.
  intros H. pose proof mask_sweep as Hs. rewrite forallb_forall in Hs.
  specialize (Hs m ltac:(apply in_seq; lia)). rewrite forallb_forall in Hs.
  specialize (Hs p (profile_in p)). apply andb_true_iff in Hs as [_ Hs]. apply out_eqb_eq, Hs.
Qed.

Lemma domain_step p c d : In d domain -> exists d', retarget p c d = Ok d' /\ In d' domain.
Proof.
  intros H. apply in_app_or in H as [H|H]; apply in_map_iff in H as (m & <- & Hm); apply in_seq in Hm.
  - destruct c.
    + exists (mask m). split; [reflexivity|]. apply in_or_app; left. apply in_map, in_seq. lia.
    + rewrite mask_lt by lia. exists (mask (m - 1)). split; [reflexivity|].
      apply in_or_app; left. apply in_map, in_seq. lia.
    + rewrite mask_gt by lia. eexists. split; [reflexivity|].
      destruct (Nat.eqb m 0).
      * apply in_or_app; right. apply in_map, in_seq. lia.
      * apply in_or_app; left. apply in_map, in_seq. lia.
  - pose proof degenerate_sweep as Hs. rewrite forallb_forall in Hs.
    specialize (Hs m ltac:(apply in_seq; lia)). rewrite forallb_forall in Hs.
    specialize (Hs p (profile_in p)). apply andb_true_iff in Hs as [H1 H2].
    apply out_eqb_eq in H1, H2. destruct c.
    + exists (degenerate m). split; [reflexivity|]. apply in_or_app; right. apply in_map, in_seq. lia.
    + rewrite H1. eexists. split; [reflexivity|]. destruct (Nat.eqb_spec m 1).
      * apply in_or_app; left. apply in_map, in_seq. lia.
      * apply in_or_app; right. apply in_map, in_seq. lia.
    + rewrite H2. eexists. split; [reflexivity|]. apply in_or_app; right. apply in_map, in_seq. lia.
Qed.

Lemma domain_ok d : In d domain -> is_array 32 d /\ 1 <= count_leading_zeros d.
Proof.
  intros H. pose proof domain_clz as Hs. rewrite forallb_forall in Hs. specialize (Hs d H).
  apply andb_true_iff in Hs as [H1 H2]. apply N.leb_le in H1. apply Nat.eqb_eq in H2.
  split; [|exact H1]. split; [exact H2|].
  apply in_app_or in H as [H|H]; apply in_map_iff in H as (m & <- & Hm).
  - apply to_be_ok.
  - apply in_seq in Hm. constructor; [|apply bytes_ok_repeat; lia].
    unfold byte_ok. assert (2 ^ N.of_nat m <= 2 ^ 7) by (apply N.pow_le_mono_r; lia).
    change (2 ^ 7) with 128 in *. lia.
Qed.

Lemma beginning_mask : BEGINNING_DIFFICULTY = mask 255.
Proof. vm_compute. reflexivity. Qed.

Lemma beginning_domain : In BEGINNING_DIFFICULTY domain.
Proof. rewrite beginning_mask. apply in_or_app; left. apply in_map, in_seq. lia. Qed.

Lemma u64_sub_cases p a b : u64_sub p a b = Panic \/ exists g, u64_sub p a b = Ok g.
Proof. unfold u64_sub. destruct (b <=? a); [eauto|]. destruct p; eauto. Qed.

Lemma recalc_domain p a b d : In d domain ->
  (exists d', recalculate_difficulty p a b d = Ok d' /\ In d' domain) \/
  (p = Debug /\ b < a /\ recalculate_difficulty p a b d = Panic).
Proof.
  intros H. rewrite recalc_retarget. unfold u64_sub. destruct (N.leb_spec a b) as [Hab|Hab].
  - left. cbn [bind]. apply domain_step, H.
  - destruct p.
    + right. auto.
    + left. cbn [bind]. apply domain_step, H.
Qed.

(** Along any sequence of block timestamps. *)
Definition retarget_all (p : profile) (tss : list (N * N)) (d : bytes) : out bytes :=
  fold_left (fun acc ts => let! d := acc in recalculate_difficulty p (fst ts) (snd ts) d) tss (Ok d).

Lemma retarget_all_domain p tss d : In d domain ->
  (exists d', retarget_all p tss d = Ok d' /\ In d' domain) \/
  (p = Debug /\ Exists (fun ts => snd ts < fst ts) tss /\ retarget_all p tss d = Panic).
Proof.
  unfold retarget_all. revert d; induction tss as [|ts tss IH]; intros d H; cbn [fold_left bind].
  - left. eauto.
  - destruct (recalc_domain p (fst ts) (snd ts) d H) as [(d' & Hr & Hd')|(Hp & Hlt & Hr)]; rewrite Hr.
    + destruct (IH d' Hd') as [?|(H1 & H2 & H3)]; [left; assumption|].
      right. split; [exact H1|]. split; [constructor 2; exact H2|exact H3].
    + right. split; [exact Hp|]. split; [constructor; exact Hlt|].
      clear. induction tss as [|x tss IH]; cbn [fold_left bind]; auto.
Qed.

(** ** Length preservation for arbitrary difficulties *)

Lemma retarget_length p c d d' : retarget p c d = Ok d' -> length d' = length d.
Proof.
  unfold retarget. set (nz := first_nonzero 0 d).
  assert (Hset : forall i x r, set_unchecked d i x = Ok r -> length r = length d).
  { intros i x r. unfold set_unchecked. destruct (Nat.ltb i (length d)); [|discriminate].
    intros E; injection E as <-. apply replace_length. }
  destruct c; [congruence| |]; intros H; apply bind_ok in H as (v & Hv & H).
  - eapply Hset, H.
  - destruct (Nat.eqb nz 0 && (v =? 127))%bool; [congruence|].
    destruct (v =? 255); [|eapply Hset, H].
    destruct nz as [|i]; [destruct p; discriminate|].
    apply bind_ok in H as (v' & _ & H). eapply Hset, H.
Qed.

(** ** Fee *)

Lemma fee_eq d : (length d <= 32)%nat ->
  recalculate_fee d = Ok (62500 * count_leading_zeros d) /\ 62500 * count_leading_zeros d <= 16000000.
Proof.
  intros H. pose proof (clz_bound d). unfold recalculate_fee, u256_mul.
  change FEE_STEP with 62500.
  assert (62500 * count_leading_zeros d <= 16000000) by lia.
  destruct (N.ltb_spec (62500 * count_leading_zeros d) (2 ^ 256)) as [_|Hc]; [auto|].
  exfalso. assert (16000000 < 2 ^ 256) by reflexivity. lia.
Qed.

(** ** Proof of work *)

Lemma check_pow_eq h d txs pow :
  check_pow h d txs pow =
  Ok (count_leading_zeros d <=? count_leading_zeros (sha256 (h ++ mroot txs ++ pow))).
Proof.
  unfold check_pow. pose proof (mroot_ok txs) as H.
  destruct (build_tree txs) as [t|e| |]; cbn [bind] in *; try discriminate.
  rewrite H. reflexivity.
Qed.
