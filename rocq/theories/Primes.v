(** Certificates of primality (Pocklington), for the proofs about Secp.v.  Numbers are in [Z], [prime] is Znumtheory's. *)
From Coq Require Import Lia ZifyBool ZifyNat ZifyN ZArith Znumtheory Bool List.
Import ListNotations.
Local Open Scope Z_scope.

(** Every number above 1 has a prime divisor; one that is not prime has one whose square is not larger. *)
Lemma prime_divisor n : 1 < n -> exists p, prime p /\ (p | n).
Proof.
  intros Hn. assert (H0 : 0 <= n) by lia. revert n H0 Hn.
  apply (Zlt_0_ind (fun n => 1 < n -> exists p, prime p /\ (p | n))). intros n IH _ Hn.
  destruct (prime_dec n) as [Hp|Hp]; [exists n; split; [exact Hp|apply Z.divide_refl]|].
  destruct (not_prime_divide n Hn Hp) as [m [Hm Hd]].
  destruct (IH m ltac:(lia) ltac:(lia)) as [p [Hp' Hd']]. exists p. split; [exact Hp'|].
  eapply Z.divide_trans; eassumption.
Qed.

Lemma small_divisor n : 1 < n -> ~ prime n -> exists p, prime p /\ (p | n) /\ p * p <= n.
Proof.
  intros Hn Hp. destruct (not_prime_divide n Hn Hp) as [m [Hm [k Hk]]].
  destruct (Z_le_gt_dec m k) as [Hle|Hgt].
  - destruct (prime_divisor m ltac:(lia)) as [p [Hp' Hd]]. exists p. split; [exact Hp'|]. split.
    + eapply Z.divide_trans; [exact Hd|]. exists k. lia.
    + assert (p <= m) by (apply Z.divide_pos_le; [lia|exact Hd]). assert (1 < p) by (destruct Hp'; assumption). nia.
  - assert (1 < k) by nia. destruct (prime_divisor k ltac:(lia)) as [p [Hp' Hd]]. exists p. split; [exact Hp'|]. split.
    + eapply Z.divide_trans; [exact Hd|]. exists m. lia.
    + assert (p <= k) by (apply Z.divide_pos_le; [lia|exact Hd]). assert (1 < p) by (destruct Hp'; assumption). nia.
Qed.

(** Trial division *)
Fixpoint no_divisor (fuel : nat) (n d : Z) : bool :=
  match fuel with
  | O => false
  | S f => if n <? d * d then true else if n mod d =? 0 then false else no_divisor f n (d + 1)
  end.
Lemma no_divisor_spec f : forall n d, 0 < d -> no_divisor f n d = true ->
  forall p, d <= p -> p * p <= n -> ~ (p | n).
Proof.
  induction f as [|f IH]; intros n d Hd H p Hp Hpn; [discriminate|]. cbn [no_divisor] in H.
  destruct (Z.ltb_spec n (d * d)); [nia|].
  destruct (Z.eqb_spec (n mod d) 0) as [E|E]; [discriminate|].
  destruct (Z.eq_dec p d) as [->|Hne].
  - intros Hdv. apply E. apply Z.mod_divide; [lia|exact Hdv].
  - apply (IH n (d + 1)); try assumption; lia.
Qed.
Lemma trial_prime n : (1 <? n) && no_divisor 4000 n 2 = true -> prime n.
Proof.
  intros H. apply andb_prop in H. destruct H as [Hn H]. assert (Hn' : 1 < n) by lia.
  destruct (prime_dec n) as [Hp|Hp]; [exact Hp|].
  destruct (small_divisor n Hn' Hp) as [p [Hp' [Hd Hs]]]. exfalso.
  destruct Hp' as [H1 _]. eapply no_divisor_spec; [| exact H | | exact Hs | exact Hd]; lia.
Qed.

(** ** Orders of elements modulo a prime *)
Section Order.
  Variables (p b F : Z).
  Hypothesis Hp : prime p.
  Hypothesis HF : 0 < F.
  Let period k := (p | b ^ k - 1).
  Hypothesis HbF : period F.
  Hypothesis Hq : forall q, prime q -> (q | F) -> ~ period (F / q).

  Lemma period_mul d k : 0 <= d -> 0 <= k -> period d -> period (d * k).
  Proof.
    intros Hd Hk. unfold period. intros Hper. rewrite Z.pow_mul_r by lia.
    revert k Hk. apply natlike_ind.
    - rewrite Z.pow_0_r. exists 0. lia.
    - intros k Hk IH. rewrite Z.pow_succ_r by lia.
      replace (b ^ d * (b ^ d) ^ k - 1) with (b ^ d * ((b ^ d) ^ k - 1) + (b ^ d - 1)) by ring.
      apply Z.divide_add_r; [apply Z.divide_mul_r; exact IH|exact Hper].
  Qed.

  Lemma period_rest d k r : 0 <= d -> 0 <= k -> 0 <= r -> period d -> period (d * k + r) -> period r.
  Proof.
    intros Hd Hk Hr H1 H2. assert (H3 := period_mul d k Hd Hk H1). unfold period in *.
    rewrite Z.pow_add_r in H2 by nia.
    replace (b ^ r - 1) with ((b ^ (d * k) * b ^ r - 1) - (b ^ (d * k) - 1) * b ^ r) by ring.
    apply Z.divide_sub_r; [exact H2|]. apply Z.divide_mul_l. exact H3.
  Qed.

  Lemma no_short_period d : 0 < d -> period d -> F <= d.
  Proof.
    intros Hd. assert (H0 : 0 <= d) by lia. revert d H0 Hd.
    apply (Zlt_0_ind (fun d => 0 < d -> period d -> F <= d)). intros d IH _ Hd Hper.
    assert (Hdm := Z.div_mod F d ltac:(lia)). assert (Hr := Z.mod_pos_bound F d Hd).
    assert (Hdv : 0 <= F / d) by (apply Z.div_pos; lia).
    destruct (Z.eq_dec (F mod d) 0) as [E|E].
    - destruct (Z_le_gt_dec F d) as [Hle|Hgt]; [exact Hle|]. exfalso.
      assert (H1 : 1 < F / d) by nia.
      destruct (prime_divisor (F / d) H1) as [q [Hq' [k Hk]]].
      assert (Hq1 : 1 < q) by (destruct Hq'; assumption).
      apply (Hq q Hq').
      + exists (d * k). rewrite Hdm, E, Hk. ring.
      + assert (Hkk : F / q = d * k).
        { rewrite Hdm, E, Hk. replace (d * (k * q) + 0) with (d * k * q) by ring. apply Z.div_mul. lia. }
        rewrite Hkk. assert (0 <= k) by nia. apply period_mul; try lia; try assumption.
    - assert (Hper' : period (F mod d)).
      { apply (period_rest d (F / d) (F mod d)); try lia; try assumption. rewrite <- Hdm. exact HbF. }
      specialize (IH (F mod d) ltac:(lia) ltac:(lia) Hper'). lia.
  Qed.

  Lemma not_div_pow k : 0 <= k -> ~ (p | b ^ k).
  Proof.
    intros Hk Hd. assert (Hp1 : 1 < p) by (destruct Hp; assumption).
    assert (Hb : (p | b)).
    { revert k Hk Hd. apply (natlike_ind (fun k => (p | b ^ k) -> (p | b))).
      - rewrite Z.pow_0_r. intros H. apply Z.divide_1_r_nonneg in H; lia.
      - intros k Hk IH H. rewrite Z.pow_succ_r in H by lia.
        destruct (prime_mult p Hp _ _ H) as [H'|H']; [exact H'|apply IH; exact H']. }
    assert (HbF' : (p | b ^ F)).
    { replace F with (Z.succ (F - 1)) by lia. rewrite Z.pow_succ_r by lia. apply Z.divide_mul_l. exact Hb. }
    assert (H1 : (p | 1)).
    { replace 1 with (b ^ F - (b ^ F - 1)) by ring. apply Z.divide_sub_r; assumption. }
    apply Z.divide_1_r_nonneg in H1; lia.
  Qed.

  Lemma order_bound : F < p.
  Proof.
    assert (Hp1 : 1 < p) by (destruct Hp; assumption).
    set (l := map (fun i => Z.to_nat (b ^ Z.of_nat i mod p)) (seq 0 (Z.to_nat F))).
    assert (Hlen : (length l <= length (seq 1 (Z.to_nat (p - 1))))%nat).
    { apply NoDup_incl_length.
      - unfold l. clear l.
        assert (Hinj : forall i j, (i < j)%nat -> (j < Z.to_nat F)%nat ->
          Z.to_nat (b ^ Z.of_nat i mod p) <> Z.to_nat (b ^ Z.of_nat j mod p)).
        { intros i j Hij Hj E.
          apply Z2Nat.inj in E; try (apply Z.mod_pos_bound; lia).
          assert (Hd : (p | b ^ Z.of_nat j - b ^ Z.of_nat i)).
          { apply Z.mod_divide; [lia|]. rewrite Zminus_mod, E, Z.sub_diag. reflexivity. }
          replace (Z.of_nat j) with (Z.of_nat i + (Z.of_nat j - Z.of_nat i)) in Hd by ring.
          rewrite Z.pow_add_r in Hd by lia.
          replace (b ^ Z.of_nat i * b ^ (Z.of_nat j - Z.of_nat i) - b ^ Z.of_nat i)
            with (b ^ Z.of_nat i * (b ^ (Z.of_nat j - Z.of_nat i) - 1)) in Hd by ring.
          destruct (prime_mult p Hp _ _ Hd) as [H|H]; [apply (not_div_pow (Z.of_nat i)) in H; [exact H|lia]|].
          apply no_short_period in H; lia. }
        generalize dependent (Z.to_nat F). clear HF HbF Hq. intros n Hinj.
        assert (Hgen : forall m s, (s + m <= n)%nat ->
          NoDup (map (fun i => Z.to_nat (b ^ Z.of_nat i mod p)) (seq s m))).
        { induction m as [|m IH]; intros s Hs; cbn [seq map]; constructor.
          - intros Hin. apply in_map_iff in Hin. destruct Hin as [j [E Hj]]. apply in_seq in Hj.
            apply (Hinj s j ltac:(lia) ltac:(lia)). symmetry. exact E.
          - apply IH. lia. }
        apply Hgen. lia.
      - intros x Hx. apply in_map_iff in Hx. destruct Hx as [i [E Hi]]. apply in_seq.
        assert (Hm := Z.mod_pos_bound (b ^ Z.of_nat i) p ltac:(lia)).
        assert (b ^ Z.of_nat i mod p <> 0).
        { intros E0. apply (not_div_pow (Z.of_nat i)); [lia|]. apply Z.mod_divide; [lia|exact E0]. }
        lia. }
    unfold l in Hlen. rewrite map_length, !seq_length in Hlen. lia.
  Qed.
End Order.

(** ** Pocklington's criterion *)
Definition product (l : list Z) : Z := fold_right Z.mul 1 l.
Lemma prime_in_product q l : prime q -> Forall prime l -> (q | product l) -> In q l.
Proof.
  intros Hq. induction l as [|r l IH]; intros Hl Hd; cbn in Hd.
  - destruct Hq as [H1 _]. apply Z.divide_1_r_nonneg in Hd; lia.
  - inversion Hl as [|? ? Hr Hl']; subst. destruct (prime_mult q Hq _ _ Hd) as [H|H].
    + left. symmetry. apply prime_div_prime; assumption.
    + right. apply IH; assumption.
Qed.

(** If the order of [b] modulo [n] is exactly a number above the root of [n], modulo every divisor as well, then [n] is prime. *)
Lemma pocklington n b l : 1 < n -> Forall prime l -> n < product l * product l ->
  (n | b ^ product l - 1) ->
  Forall (fun q => exists u v, u * (b ^ (product l / q) - 1) + v * n = 1) l ->
  prime n.
Proof.
  intros Hn Hl Hs Hone Hg.
  destruct (prime_dec n) as [Hp|Hp]; [exact Hp|]. exfalso.
  destruct (small_divisor n Hn Hp) as [p [Hp' [Hdp Hps]]].
  assert (Hp1 : 1 < p) by (destruct Hp'; assumption).
  set (F := product l) in *.
  assert (HF : 0 < F).
  { assert (Hpos : 0 <= F); [|nia]. unfold F. clear - Hl.
    induction Hl as [|q l Hq Hl IH]; cbn; [lia|]. destruct Hq. unfold product in IH. nia. }
  assert (Hb : F < p); [|nia].
  apply (order_bound p b F Hp' HF).
  - eapply Z.divide_trans; eassumption.
  - intros q Hq HqF Hper.
    assert (Hin := prime_in_product q l Hq Hl HqF). rewrite Forall_forall in Hg.
    destruct (Hg q Hin) as [u [v Huv]].
    assert (H1 : (p | 1)).
    { rewrite <- Huv. apply Z.divide_add_r; apply Z.divide_mul_r; assumption. }
    apply Z.divide_1_r_nonneg in H1; lia.
Qed.

(** ** Checking certificates *)
(** Numbers equal to [x] modulo [n], and small: when [mu] is 2^k / n; when [n] is a little less than 2^k. *)
Definition cut (n mu k x : Z) : Z := x - Z.shiftr (x * mu) k * n.
Definition cut_high (n k x : Z) : Z :=
  let f x := let h := Z.shiftr x k in (x - Z.shiftl h k) + h * (2 ^ k - n) in f (f x).
Fixpoint powers (cut : Z -> Z) (a : Z) (e : positive) : Z :=
  match e with
  | xH => a
  | xO e => let b := powers cut a e in cut (b * b)
  | xI e => let b := powers cut a e in cut (a * cut (b * b))
  end.
Definition cuts (n : Z) (cut : Z -> Z) : Prop := forall x, (n | x - cut x).
Lemma cut_spec n mu k : cuts n (cut n mu k).
Proof. intros x. unfold cut. exists (Z.shiftr (x * mu) k). ring. Qed.
Lemma cut_high_spec n k : 0 <= k -> cuts n (cut_high n k).
Proof.
  intros Hk x. unfold cut_high. cbv zeta. rewrite !Z.shiftl_mul_pow2 by lia.
  set (h := Z.shiftr x k). set (x' := x - h * 2 ^ k + h * (2 ^ k - n)). set (h' := Z.shiftr x' k).
  exists (h + h'). unfold x' at 1. ring.
Qed.
Lemma powers_spec n f a e : cuts n f -> (n | a ^ Z.pos e - powers f a e).
Proof.
  intros Hf. induction e as [e IH|e IH|]; cbn [powers]; cbv zeta.
  - set (b := powers f a e) in *. destruct IH as [c Hc]. destruct (Hf (b * b)) as [d Hd].
    destruct (Hf (a * f (b * b))) as [g Hg]. set (s := f (b * b)) in *.
    replace (Z.pos e~1) with (1 + (Z.pos e + Z.pos e)) by lia. rewrite !Z.pow_add_r, Z.pow_1_r by lia.
    exists (a * (c * (a ^ Z.pos e + b)) + a * d + g).
    replace (a * (a ^ Z.pos e * a ^ Z.pos e) - f (a * s))
      with (a * ((a ^ Z.pos e - b) * (a ^ Z.pos e + b)) + a * (b * b - s) + (a * s - f (a * s))) by ring.
    rewrite Hc, Hd, Hg. ring.
  - set (b := powers f a e) in *. destruct IH as [c Hc]. destruct (Hf (b * b)) as [d Hd].
    replace (Z.pos e~0) with (Z.pos e + Z.pos e) by lia. rewrite !Z.pow_add_r by lia.
    exists (c * (a ^ Z.pos e + b) + d).
    replace (a ^ Z.pos e * a ^ Z.pos e - f (b * b))
      with ((a ^ Z.pos e - b) * (a ^ Z.pos e + b) + (b * b - f (b * b))) by ring.
    rewrite Hc, Hd. ring.
  - rewrite Z.pow_1_r, Z.sub_diag. exists 0. reflexivity.
Qed.

Definition certified (n b : Z) (cut : Z -> Z) (l : list (Z * Z)) : bool :=
  let f := product (map fst l) in
  (1 <? n) && (0 <? f) && (n <? f * f)
  && ((powers cut b (Z.to_pos f) - 1) mod n =? 0)
  && forallb (fun '(q, u) => (0 <? f / q)
       && ((u * (powers cut b (Z.to_pos (f / q)) - 1) - 1) mod n =? 0)) l.

Lemma certified_prime n b f l : cuts n f -> Forall prime (map fst l) -> certified n b f l = true -> prime n.
Proof.
  intros Hf Hl H. unfold certified in H. cbv zeta in H. repeat rewrite andb_true_iff in H.
  destruct H as [[[[Hn Hf0] Hs] H1] Hq].
  assert (Hn' : 1 < n) by lia.
  apply (pocklington n b (map fst l)); try lia; try assumption.
  - set (F := product (map fst l)) in *.
    assert (Hm := powers_spec n f b (Z.to_pos F) Hf). rewrite Z2Pos.id in Hm by lia.
    assert (H1' : (n | powers f b (Z.to_pos F) - 1)) by (apply Z.mod_divide; lia).
    replace (b ^ F - 1) with (b ^ F - powers f b (Z.to_pos F) + (powers f b (Z.to_pos F) - 1)) by ring.
    apply Z.divide_add_r; assumption.
  - set (F := product (map fst l)) in *.
    apply Forall_forall. intros q Hin. apply in_map_iff in Hin. destruct Hin as [[q' u] [E Hin]]. cbn in E. subst q'.
    rewrite forallb_forall in Hq. specialize (Hq _ Hin). cbv beta iota in Hq. repeat rewrite andb_true_iff in Hq.
    destruct Hq as [Hqp Hu].
    assert (Hm := powers_spec n f b (Z.to_pos (F / q)) Hf). rewrite Z2Pos.id in Hm by lia.
    set (c := powers f b (Z.to_pos (F / q))) in *.
    assert (Hu' : (n | u * (c - 1) - 1)) by (apply Z.mod_divide; lia).
    destruct Hm as [x Hx]. destruct Hu' as [y Hy].
    exists u, (- y - u * x).
    replace (b ^ (F / q) - 1) with ((b ^ (F / q) - c) + (c - 1)) by ring. rewrite Hx.
    replace (u * (x * n + (c - 1)) + (- y - u * x) * n) with (u * (c - 1) - y * n) by ring. lia.
Qed.

(** ** Fermat's little theorem *)
From Coq Require Import Permutation.

Definition residues (p : Z) : list Z := map Z.of_nat (seq 1 (Z.to_nat (p - 1))).
Lemma residues_spec p x : In x (residues p) <-> 1 <= x < p.
Proof.
  unfold residues. rewrite in_map_iff. split.
  - intros [i [<- Hi]]. apply in_seq in Hi. lia.
  - intros H. exists (Z.to_nat x). split; [lia|]. apply in_seq. lia.
Qed.
Lemma residues_nodup p : NoDup (residues p).
Proof.
  unfold residues. generalize (Z.to_nat (p - 1)) 1%nat. intros m.
  induction m as [|m IH]; intros s; cbn [seq map]; constructor; [|apply IH].
  intros Hin. apply in_map_iff in Hin. destruct Hin as [j [E Hj]]. apply in_seq in Hj. lia.
Qed.
Lemma product_perm l l' : Permutation l l' -> product l = product l'.
Proof. induction 1; cbn; [reflexivity|f_equal; assumption|ring|congruence]. Qed.

Lemma product_scaled p a l : (p | product (map (fun i => a * i mod p) l) - a ^ Z.of_nat (length l) * product l) \/ p = 0.
Proof.
  destruct (Z.eq_dec p 0) as [Hp|Hp]; [right; exact Hp|left].
  induction l as [|x l IH]; cbn [map product fold_right length].
  - exists 0. reflexivity.
  - fold (product (map (fun i => a * i mod p) l)). fold (product l).
    rewrite Nat2Z.inj_succ, Z.pow_succ_r by lia. destruct IH as [k Hk].
    assert (Hm := Z.div_mod (a * x) p Hp).
    set (A := product (map (fun i => a * i mod p) l)) in *. set (B := a ^ Z.of_nat (length l)) in *.
    exists (a * x * k - (a * x / p) * A).
    replace ((a * x) mod p) with (a * x - p * (a * x / p)) by lia.
    replace ((a * x - p * (a * x / p)) * A - a * B * (x * product l))
      with (a * x * (A - B * product l) - p * (a * x / p) * A) by ring.
    rewrite Hk. ring.
Qed.

Lemma fermat p a : prime p -> ~ (p | a) -> (p | a ^ (p - 1) - 1).
Proof.
  intros Hp Ha. assert (Hp1 : 1 < p) by (destruct Hp; assumption).
  assert (Hperm : Permutation (map (fun i => a * i mod p) (residues p)) (residues p)).
  { apply NoDup_Permutation_bis.
    - assert (Hinj : forall i j, In i (residues p) -> In j (residues p) -> a * i mod p = a * j mod p -> i = j).
      { intros i j Hi Hj E. apply residues_spec in Hi. apply residues_spec in Hj.
        assert (Hd : (p | a * (i - j))).
        { apply Z.mod_divide; [lia|]. rewrite Z.mul_sub_distr_l, Zminus_mod, E, Z.sub_diag. reflexivity. }
        destruct (prime_mult p Hp _ _ Hd) as [H|H]; [contradiction|].
        destruct H as [k Hk]. assert (k = 0) by nia. lia. }
      assert (Hnd := residues_nodup p). revert Hinj Hnd. generalize (residues p). intros l.
      induction l as [|x l IH]; intros Hinj Hnd; cbn [map]; [constructor|]. inversion Hnd; subst. constructor.
      + intros Hin. apply in_map_iff in Hin. destruct Hin as [j [E Hj]].
        assert (j = x) by (apply Hinj; [right; exact Hj|left; reflexivity|exact E]). subst. contradiction.
      + apply IH; [|assumption]. intros i j Hi Hj. apply Hinj; right; assumption.
    - rewrite map_length. lia.
    - intros x Hx. apply in_map_iff in Hx. destruct Hx as [i [<- Hi]]. apply residues_spec. apply residues_spec in Hi.
      assert (Hm := Z.mod_pos_bound (a * i) p ltac:(lia)).
      assert (a * i mod p <> 0); [|lia]. intros E. apply Z.mod_divide in E; [|lia].
      destruct (prime_mult p Hp _ _ E) as [H|H]; [contradiction|].
      apply Z.divide_pos_le in H; lia. }
  destruct (product_scaled p a (residues p)) as [Hd|Hd]; [|lia].
  rewrite (product_perm _ _ Hperm) in Hd.
  assert (Hlen : Z.of_nat (length (residues p)) = p - 1).
  { unfold residues. rewrite map_length, seq_length. lia. }
  rewrite Hlen in Hd.
  assert (Hprod : ~ (p | product (residues p))).
  { assert (Hin : forall x, In x (residues p) -> ~ (p | x)).
    { intros x Hx Hdx. apply residues_spec in Hx. apply Z.divide_pos_le in Hdx; lia. }
    revert Hin. generalize (residues p). intros l. induction l as [|x l IH]; intros Hin Hd'; cbn in Hd'.
    - apply Z.divide_1_r_nonneg in Hd'; lia.
    - destruct (prime_mult p Hp _ _ Hd') as [H|H]; [apply (Hin x); [left; reflexivity|exact H]|].
      apply IH; [|exact H]. intros y Hy. apply Hin. right. exact Hy. }
  replace (product (residues p) - a ^ (p - 1) * product (residues p))
    with ((a ^ (p - 1) - 1) * (- product (residues p))) in Hd by ring.
  destruct (prime_mult p Hp _ _ Hd) as [H|H]; [exact H|].
  exfalso. apply Hprod. apply Z.divide_opp_r. exact H.
Qed.
