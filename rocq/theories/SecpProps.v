(** Proofs about Secp.v (property C121). *)
From Coq Require Import Lia ZifyBool ZifyNat ZifyN ZArith Setoid Morphisms Znumtheory Ring.
From Verif Require Import Base BaseFacts Sha256 Transaction Tools Secp SecpSpec Primes SecpPrimes.
Local Strategy 1000 [affine j_sum j_add j_double m_inv m_pow m_mul bezout secp_point sign_loop sign_with hmac sha256 field_size group_size ones256 N.modulo N.div N.mul N.pow N.land N.shiftr].

(** ** Arithmetic *)

Lemma ones256_eq : ones256 = 2 ^ 256 - 1.
Proof. vm_compute. reflexivity. Qed.
Lemma field_eq : field_size = field_prime.
Proof. vm_compute. reflexivity. Qed.
Lemma group_eq : group_size = curve_order.
Proof. vm_compute. reflexivity. Qed.

Lemma fold_once_spec m x : 0 < m < 2 ^ 256 -> exists k, fold_once m x + m * k = x.
Proof.
  intros Hm. exists (N.shiftr x 256). unfold fold_once.
  replace ones256 with (N.ones 256) at 1 by (vm_compute; reflexivity).
  rewrite N.land_ones, N.shiftr_div_pow2.
  assert (Ho : ones256 - m + 1 = 2 ^ 256 - m) by (rewrite ones256_eq; lia). rewrite Ho.
  assert (Hd := N.div_mod x (2 ^ 256) ltac:(lia)).
  remember (x / 2 ^ 256) as h eqn:Eh. remember (x mod 2 ^ 256) as l eqn:El. clear Eh El Ho.
  remember (2 ^ 256) as B eqn:EB. clear EB.
  assert (E : (B - m) * h + m * h = B * h) by (rewrite <- N.mul_add_distr_r; f_equal; lia). lia.
Qed.

Lemma mod_more m x k : 0 < m -> (x + m * k) mod m = x mod m.
Proof. intros. rewrite (N.mul_comm m k). apply N.mod_add. lia. Qed.

Lemma reduce_spec m x : 0 < m < 2 ^ 256 -> reduce m x = x mod m.
Proof.
  intros Hm. unfold reduce.
  destruct (fold_once_spec m x Hm) as [k1 H1].
  destruct (fold_once_spec m (fold_once m x) Hm) as [k2 H2].
  destruct (fold_once_spec m (fold_once m (fold_once m x)) Hm) as [k3 H3].
  set (y := fold_once m (fold_once m (fold_once m x))) in *.
  assert (Hy : x mod m = y mod m).
  { rewrite <- H1, mod_more, <- H2, mod_more, <- H3, mod_more by lia. reflexivity. }
  rewrite Hy. clearbody y. clear - Hm.
  destruct (N.ltb_spec y m) as [Hl|Hl]; [symmetry; apply N.mod_small; exact Hl|].
  destruct (N.ltb_spec (y - m) m) as [Hl'|Hl']; [|reflexivity].
  replace y with ((y - m) + m * 1) at 2 by lia. rewrite mod_more by lia. symmetry. apply N.mod_small. exact Hl'.
Qed.

Lemma m_mul_spec m a b : 0 < m < 2 ^ 256 -> m_mul m a b = (a * b) mod m.
Proof. intros. apply reduce_spec. assumption. Qed.

Lemma m_add_spec m a b : 0 < m < 2 ^ 256 -> m_add m a b = (a + b) mod m.
Proof.
  intros Hm. unfold m_add. cbv zeta. destruct (N.ltb_spec (a + b) m) as [Hl|Hl].
  - symmetry. apply N.mod_small. exact Hl.
  - apply reduce_spec. exact Hm.
Qed.

Lemma m_sub_spec m a b : 0 < m < 2 ^ 256 -> (m_sub m a b + b) mod m = a mod m.
Proof.
  intros Hm. unfold m_sub. destruct (N.leb_spec b a) as [Hl|Hl].
  - f_equal. lia.
  - rewrite reduce_spec by exact Hm. rewrite N.add_mod_idemp_l by lia.
    assert (Hd := N.div_mod b m ltac:(lia)). assert (Hb := N.mod_lt b m ltac:(lia)).
    replace (a + (m - b mod m) + b) with (a + m * (1 + b / m)) by nia. apply mod_more. lia.
Qed.

Lemma m_sub_lt m a b : 0 < m < 2 ^ 256 -> a < m -> m_sub m a b < m.
Proof.
  intros Hm Ha. unfold m_sub. destruct (N.leb_spec b a) as [Hl|Hl]; [lia|].
  rewrite reduce_spec by exact Hm. apply N.mod_lt. lia.
Qed.

Lemma m_pow_spec m a e : 0 < m < 2 ^ 256 -> m_pow m a e mod m = a ^ N.pos e mod m.
Proof.
  intros Hm. induction e as [e IH|e IH|]; cbn [m_pow]; cbv zeta.
  - rewrite !m_mul_spec, N.mod_mod, N.mul_mod_idemp_r by lia.
    rewrite <- (N.mul_mod_idemp_r a) by lia. rewrite N.mul_mod by lia. rewrite N.mod_mod by lia.
    rewrite (N.mul_mod (m_pow m a e)) by lia. rewrite IH. rewrite <- (N.mul_mod (a ^ N.pos e)) by lia.
    rewrite <- N.mul_mod by lia. f_equal.
    replace (N.pos e~1) with (1 + (N.pos e + N.pos e)) by lia. rewrite !N.pow_add_r, N.pow_1_r. reflexivity.
  - rewrite m_mul_spec, N.mod_mod by lia. rewrite N.mul_mod, IH, <- N.mul_mod by lia.
    rewrite <- N.pow_add_r. f_equal. f_equal. lia.
  - rewrite N.pow_1_r. reflexivity.
Qed.

(** Euclid's algorithm *)
Lemma bezout_spec m a f : forall r0 r1 t0 t1,
  r1 < r0 -> r0 * r1 < 2 ^ N.of_nat f ->
  (exists k, t0 * Z.of_N a = Z.of_N r0 + k * Z.of_N m)%Z ->
  (exists k, t1 * Z.of_N a = Z.of_N r1 + k * Z.of_N m)%Z ->
  (exists k, bezout (S f) r0 r1 t0 t1 * Z.of_N a = Z.of_N (N.gcd r0 r1) + k * Z.of_N m)%Z.
Proof.
  induction f as [|f IH]; intros r0 r1 t0 t1 Hlt Hb H0 H1.
  - assert (r1 = 0) by (cbn in Hb; nia). subst r1. cbn [bezout]. rewrite N.gcd_0_r. exact H0.
  - cbn [bezout]. destruct (N.eqb_spec r1 0) as [->|Hn]; [rewrite N.gcd_0_r; exact H0|].
    assert (Hq : N.div_eucl r0 r1 = (r0 / r1, r0 mod r1)).
    { unfold N.div, N.modulo. destruct (N.div_eucl r0 r1); reflexivity. }
    rewrite Hq.
    assert (Hd := N.div_mod r0 r1 Hn). assert (Hr := N.mod_lt r0 r1 Hn).
    assert (Hg : N.gcd r0 r1 = N.gcd r1 (r0 mod r1)).
    { rewrite (N.gcd_comm r1 (r0 mod r1)). rewrite N.gcd_mod by exact Hn. apply N.gcd_comm. }
    rewrite Hg.
    remember (r0 / r1) as q eqn:Eq. remember (r0 mod r1) as r eqn:Er. clear Hq Hg.
    assert (Hq1 : 1 <= q).
    { destruct (N.eq_dec q 0) as [E|E]; [rewrite E in Hd; lia|lia]. }
    assert (Hm : r0 >= r1 + r) by nia.
    apply (IH r1 r t1 (t0 - Z.of_N q * t1)%Z Hr).
    + rewrite Nat2N.inj_succ, N.pow_succ_r in Hb by lia. nia.
    + exact H1.
    + destruct H0 as [k0 H0]. destruct H1 as [k1 H1]. exists (k0 - Z.of_N q * k1)%Z.
      rewrite Z.mul_sub_distr_r, <- Z.mul_assoc, H0, H1. rewrite Hd. rewrite N2Z.inj_add, N2Z.inj_mul. ring.
Qed.

Lemma m_inv_spec m a : 0 < m < 2 ^ 256 -> (m_inv m a * a) mod m = N.gcd a m mod m.
Proof.
  intros Hm. unfold m_inv.
  rewrite reduce_spec by exact Hm.
  assert (Hr := N.mod_lt a m ltac:(lia)).
  assert (H : forall n, n = S 599 -> exists k, (bezout n m (a mod m) 0 1 * Z.of_N (a mod m) = Z.of_N (N.gcd m (a mod m)) + k * Z.of_N m)%Z).
  { intros n ->. apply (bezout_spec m (a mod m) 599).
    - exact Hr.
    - assert (E : 2 ^ 256 * 2 ^ 256 < 2 ^ N.of_nat 599) by (vm_compute; reflexivity).
      eapply N.le_lt_trans; [|exact E]. apply N.mul_le_mono; lia.
    - exists (-1)%Z. lia.
    - exists 0%Z. lia. }
  specialize (H 600%nat eq_refl). destruct H as [k H].
  generalize dependent (bezout 600 m (a mod m) 0 1). intros B H.
  apply N2Z.inj. rewrite !N2Z.inj_mod, N2Z.inj_mul by lia.
  assert (Hp : (0 <= B mod Z.of_N m)%Z) by (apply Z.mod_pos_bound; lia).
  rewrite Z2N.id by exact Hp. rewrite Zmult_mod_idemp_l.
  assert (Ha : (B * Z.of_N a = Z.of_N (N.gcd m (a mod m)) + (k + B * Z.of_N (a / m)) * Z.of_N m)%Z).
  { assert (Hd := N.div_mod a m ltac:(lia)). rewrite Hd at 1. rewrite N2Z.inj_add, N2Z.inj_mul.
    replace (B * (Z.of_N m * Z.of_N (a / m) + Z.of_N (a mod m)))%Z
      with (B * Z.of_N (a mod m) + B * Z.of_N (a / m) * Z.of_N m)%Z by ring.
    rewrite H. ring. }
  rewrite Ha, Z_mod_plus_full. f_equal. f_equal.
  rewrite N.gcd_comm. rewrite N.gcd_mod by lia. apply N.gcd_comm.
Qed.

(** ** The curve *)

Local Open Scope Z_scope.
Notation PZ := (Z.of_N field_size).
Definition eqp (a b : Z) : Prop := exists k, a = b + k * PZ.

Global Instance eqp_equiv : Equivalence eqp.
Proof.
  split.
  - intros a. exists 0. ring.
  - intros a b [k ->]. exists (- k). ring.
  - intros a b c [k ->] [l ->]. exists (k + l). ring.
Qed.
Global Instance eqp_add : Proper (eqp ==> eqp ==> eqp) Z.add.
Proof. intros a b [k ->] c d [l ->]. exists (k + l). ring. Qed.
Global Instance eqp_sub : Proper (eqp ==> eqp ==> eqp) Z.sub.
Proof. intros a b [k ->] c d [l ->]. exists (k - l). ring. Qed.
Global Instance eqp_mul : Proper (eqp ==> eqp ==> eqp) Z.mul.
Proof. intros a b [k ->] c d [l ->]. exists (b * l + k * d + k * l * PZ). ring. Qed.

Lemma eqp_of_eq a b : a = b -> eqp a b.
Proof. intros ->. reflexivity. Qed.

Lemma field_bounds : (0 < field_size < 2 ^ 256)%N.
Proof. split; vm_compute; reflexivity. Qed.
Lemma group_bounds : (0 < group_size < 2 ^ 256)%N.
Proof. split; vm_compute; reflexivity. Qed.

Lemma eqp_mod a b : eqp (Z.of_N a) (Z.of_N b) <-> (a mod field_size = b mod field_size)%N.
Proof.
  assert (Hf := field_bounds). destruct Hf as [Hf _].
  remember field_size as p eqn:Ep. unfold eqp. rewrite <- Ep. clear Ep. split.
  - intros [k H]. apply N2Z.inj. rewrite !N2Z.inj_mod by lia. rewrite H. apply Z_mod_plus_full.
  - intros H. assert (Ha := N.div_mod a p ltac:(lia)). assert (Hb := N.div_mod b p ltac:(lia)).
    exists (Z.of_N (a / p) - Z.of_N (b / p)). rewrite Ha at 1. rewrite Hb at 1.
    rewrite !N2Z.inj_add, !N2Z.inj_mul, H. ring.
Qed.

Lemma eqp_N_mod a : eqp (Z.of_N (a mod field_size)) (Z.of_N a).
Proof. apply eqp_mod. apply N.mod_mod. assert (H := field_bounds). lia. Qed.

Lemma eqp_m_mul a b : eqp (Z.of_N (m_mul field_size a b)) (Z.of_N a * Z.of_N b).
Proof. rewrite m_mul_spec by exact field_bounds. rewrite eqp_N_mod, N2Z.inj_mul. reflexivity. Qed.
Lemma eqp_m_add a b : eqp (Z.of_N (m_add field_size a b)) (Z.of_N a + Z.of_N b).
Proof. rewrite m_add_spec by exact field_bounds. rewrite eqp_N_mod, N2Z.inj_add. reflexivity. Qed.
Lemma eqp_m_sub a b : eqp (Z.of_N (m_sub field_size a b)) (Z.of_N a - Z.of_N b).
Proof.
  assert (H := m_sub_spec field_size a b field_bounds). apply eqp_mod in H.
  rewrite N2Z.inj_add in H. rewrite <- H. apply eqp_of_eq. ring.
Qed.

Lemma on_curve_eqp x y : on_curve x y <-> eqp (Z.of_N y * Z.of_N y) (Z.of_N x * Z.of_N x * Z.of_N x + 7).
Proof.
  unfold on_curve. rewrite <- field_eq, <- eqp_mod.
  rewrite N2Z.inj_add, !N2Z.inj_mul. reflexivity.
Qed.
Lemma j_on_curve_eqp x y z : j_on_curve (x, y, z) <->
  eqp (Z.of_N y * Z.of_N y) (Z.of_N x * Z.of_N x * Z.of_N x
    + 7 * (Z.of_N z * Z.of_N z * Z.of_N z * Z.of_N z * Z.of_N z * Z.of_N z)).
Proof.
  unfold j_on_curve. rewrite <- field_eq, <- eqp_mod.
  rewrite N2Z.inj_add, !N2Z.inj_mul. reflexivity.
Qed.

Lemma eqp_sub0 a b : eqp (a - b) 0 <-> eqp a b.
Proof. split; intros [k H]; exists k; lia. Qed.

Ltac to_z := rewrite ?eqp_m_sub, ?eqp_m_add, ?eqp_m_mul.

Lemma j_double_curve q : j_on_curve q -> j_on_curve (j_double q).
Proof.
  destruct q as [[x y] z]. intros H. apply j_on_curve_eqp in H. unfold j_double. cbv beta zeta.
  apply j_on_curve_eqp. repeat to_z.
  generalize dependent (Z.of_N x). generalize dependent (Z.of_N y). generalize dependent (Z.of_N z).
  clear. intros Z Y X H.
  assert (H7 : eqp (7 * (Z * Z * Z * Z * Z * Z)) (Y * Y - X * X * X)).
  { rewrite H. apply eqp_of_eq. ring. }
  match goal with |- eqp ?l (?c + 7 * (?w * ?w * ?w * ?w * ?w * ?w)) =>
    transitivity (c + 64 * (Y * Y * Y * Y * Y * Y) * (7 * (Z * Z * Z * Z * Z * Z))) end.
  - rewrite H7. apply eqp_of_eq. ring.
  - apply eqp_of_eq. ring.
Qed.

Lemma j_add_curve q u v : j_on_curve q -> on_curve u v -> j_on_curve (j_add q u v).
Proof.
  destruct q as [[x y] z]. intros H Hc. unfold j_add. cbv beta zeta.
  destruct (z =? 0)%N.
  { apply j_on_curve_eqp. apply on_curve_eqp in Hc. rewrite Hc. apply eqp_of_eq. change (Z.of_N 1) with 1. ring. }
  destruct (m_sub field_size (m_mul field_size u (m_mul field_size z z)) x =? 0)%N.
  { destruct (_ =? 0)%N; [apply j_double_curve; exact H|].
    apply j_on_curve_eqp. apply eqp_of_eq. reflexivity. }
  apply j_on_curve_eqp in H. apply on_curve_eqp in Hc. apply j_on_curve_eqp. repeat to_z.
  generalize dependent (Z.of_N x). generalize dependent (Z.of_N y). generalize dependent (Z.of_N z).
  generalize dependent (Z.of_N u). generalize dependent (Z.of_N v).
  clear. intros V U Hc Z Y X H.
  set (Z6 := Z * Z * Z * Z * Z * Z) in *.
  assert (H7 : eqp (7 * Z6) ((V * V - U * U * U) * Z6)).
  { rewrite Hc. apply eqp_of_eq. ring. }
  assert (HF : eqp (Y * Y - X * X * X - (V * V - U * U * U) * Z6) 0).
  { rewrite H, <- H7. apply eqp_of_eq. ring. }
  set (A := U * (Z * Z)). set (B := V * Z * (Z * Z)).
  set (h := A - X). set (r := B - Y). set (X3 := r * r - h * (h * h) - X * (h * h) - X * (h * h)).
  transitivity (X3 * X3 * X3 + h * h * h * h * h * h * (7 * Z6)).
  2:{ apply eqp_of_eq. unfold Z6. ring. }
  rewrite H7.
  apply eqp_sub0.
  transitivity ((Y * Y - X * X * X - (V * V - U * U * U) * Z6) * (h * h * h * (A * (h * h) - X3))).
  2:{ rewrite HF. reflexivity. }
  apply eqp_of_eq. unfold X3, h, r, A, B, Z6. ring.
Qed.

Lemma j_sum_curve n : forall a b u v q,
  (b = 0%N \/ on_curve u v) -> j_on_curve q -> j_on_curve (j_sum n a b u v q).
Proof.
  induction n as [|n IH]; intros a b u v q Hc Hq; cbn [j_sum]; [exact Hq|]. cbv zeta.
  apply IH; [exact Hc|].
  assert (Hg : on_curve gen_x gen_y) by (vm_compute; reflexivity).
  assert (H1 := j_double_curve q Hq).
  assert (H2 : j_on_curve (if N.testbit a (N.of_nat n) then j_add (j_double q) gen_x gen_y else j_double q)).
  { destruct (N.testbit a (N.of_nat n)); [apply j_add_curve; assumption|exact H1]. }
  destruct Hc as [->|Hc].
  - rewrite N.bits_0. exact H2.
  - destruct (N.testbit b (N.of_nat n)); [apply j_add_curve; assumption|exact H2].
Qed.

Lemma j_zero_curve : j_on_curve j_zero.
Proof. vm_compute. reflexivity. Qed.

(** ** Facts that need the primes *)

Lemma field_prime_ok : prime PZ.
Proof. exact prime_field. Qed.

Lemma same_eqp a b : same a b <-> eqp a b.
Proof.
  unfold same, eqp. rewrite <- field_eq. split; intros [k H]; exists k; lia.
Qed.
Lemma eqp_0_div a : eqp a 0 <-> (PZ | a).
Proof. split; intros [k H]; exists k; lia. Qed.
Lemma eqp_prod a b : eqp (a * b) 0 -> eqp a 0 \/ eqp b 0.
Proof. rewrite !eqp_0_div. apply prime_mult. exact field_prime_ok. Qed.
Lemma eqp_small a b : (a < field_size)%N -> (b < field_size)%N -> eqp (Z.of_N a) (Z.of_N b) -> a = b.
Proof. intros Ha Hb H. apply eqp_mod in H. rewrite !N.mod_small in H by assumption. exact H. Qed.
Lemma eqp_small0 a : (a < field_size)%N -> eqp (Z.of_N a) 0 -> a = 0%N.
Proof. intros Ha H. apply eqp_small; [exact Ha| |exact H]. apply field_bounds. Qed.

Lemma m_mul_lt m a b : (0 < m < 2 ^ 256)%N -> (m_mul m a b < m)%N.
Proof. intros H. rewrite m_mul_spec by exact H. apply N.mod_lt. lia. Qed.
Lemma m_add_lt m a b : (0 < m < 2 ^ 256)%N -> (m_add m a b < m)%N.
Proof. intros H. rewrite m_add_spec by exact H. apply N.mod_lt. lia. Qed.
Lemma m_pow_lt m a e : (0 < m < 2 ^ 256)%N -> (a < m)%N -> (m_pow m a e < m)%N.
Proof. intros H Ha. destruct e; cbn [m_pow]; cbv zeta; try (apply m_mul_lt; exact H). exact Ha. Qed.

Lemma prime_gcd m a : prime (Z.of_N m) -> (a mod m <> 0)%N -> N.gcd a m = 1%N.
Proof.
  intros Hp Ha. assert (Hm : (1 < m)%N) by (destruct Hp; lia).
  destruct (N.gcd_divide_r a m) as [k Hk]. destruct (N.gcd_divide_l a m) as [j Hj].
  assert (Hd : (Z.of_N (N.gcd a m) | Z.of_N m)).
  { exists (Z.of_N k). rewrite Hk at 1. apply N2Z.inj_mul. }
  destruct (prime_divisors _ Hp _ Hd) as [H|[H|[H|H]]]; try lia.
  exfalso. apply Ha. apply N2Z.inj in H. rewrite Hj, H. apply N.mod_mul. lia.
Qed.

Lemma m_inv_prime m a : (0 < m < 2 ^ 256)%N -> prime (Z.of_N m) -> (a mod m <> 0)%N -> ((m_inv m a * a) mod m = 1)%N.
Proof.
  intros Hm Hp Ha. rewrite m_inv_spec by exact Hm. rewrite (prime_gcd m a Hp Ha).
  apply N.mod_small. destruct Hp; lia.
Qed.

Lemma eqp_inv a : ~ eqp (Z.of_N a) 0 -> eqp (Z.of_N (m_inv field_size a) * Z.of_N a) 1.
Proof.
  intros Ha. rewrite <- N2Z.inj_mul. change 1 with (Z.of_N 1). apply eqp_mod.
  rewrite m_inv_prime.
  - symmetry. apply N.mod_small. vm_compute. reflexivity.
  - exact field_bounds.
  - exact field_prime_ok.
  - intros E. apply Ha. change 0 with (Z.of_N 0). apply eqp_mod. rewrite E. symmetry. apply N.mod_small. apply field_bounds.
Qed.

Lemma eqp_cancel a b c : ~ eqp c 0 -> eqp (a * c) (b * c) -> eqp a b.
Proof.
  intros Hc H. apply eqp_sub0. apply eqp_sub0 in H.
  assert (H' : eqp ((a - b) * c) 0) by (rewrite <- H; apply eqp_of_eq; ring).
  destruct (eqp_prod _ _ H') as [E|E]; [exact E|contradiction].
Qed.

Lemma two_not_zero : ~ eqp 2 0.
Proof.
  intros H. change 2 with (Z.of_N 2) in H. apply eqp_small0 in H; [discriminate|]. vm_compute. reflexivity.
Qed.

(** ** Adding points *)

Lemma j_double_spec q x1 y1 x3 y3 : represents q x1 y1 -> ~ same y1 0 -> tangent x1 y1 x3 y3 ->
  represents (j_double q) x3 y3.
Proof.
  destruct q as [[a b] c]. unfold represents, tangent, j_double. cbv beta zeta. rewrite !same_eqp.
  intros [Hc [Ha Hb]] Hy [l Ht]. rewrite !same_eqp in *. destruct Ht as [Hl [H3 H4]]. repeat to_z.
  generalize dependent (Z.of_N a). generalize dependent (Z.of_N b). generalize dependent (Z.of_N c).
  intros Z Hz Y HY X HX.
  split; [|split].
  - intros E. assert (E' : eqp (2 * (y1 * (Z * (Z * (Z * Z))))) 0) by (rewrite <- E, HY; apply eqp_of_eq; ring).
    destruct (eqp_prod _ _ E') as [E2|E2]; [exact (two_not_zero E2)|].
    destruct (eqp_prod _ _ E2) as [E3|E3]; [exact (Hy E3)|].
    repeat (destruct (eqp_prod _ _ E3) as [E4|E4]; [exact (Hz E4)|]; clear E3; rename E4 into E3). exact (Hz E3).
  - rewrite HX, HY, H3.
    transitivity (3 * x1 * x1 * (3 * x1 * x1) * (Z * Z * Z * Z * Z * Z * Z * Z)
      - 8 * x1 * (y1 * y1) * (Z * Z * Z * Z * Z * Z * Z * Z)).
    + apply eqp_of_eq. ring.
    + rewrite <- Hl. apply eqp_of_eq. ring.
  - rewrite HX, HY, H4, H3.
    set (W := Z * Z * Z * Z * Z * Z * Z * Z).
    set (e := 3 * x1 * x1) in *.
    transitivity (e * (4 * x1 * (y1 * y1) * W - (e * e * W - 8 * x1 * (y1 * y1) * W)) * (Z * Z * Z * Z)
       - 8 * (y1 * y1 * y1 * y1) * (W * Z * Z * Z * Z)).
    + apply eqp_of_eq. unfold W, e. ring.
    + rewrite <- Hl. apply eqp_of_eq. unfold W. ring.
Qed.

Lemma j_add_spec q x1 y1 u v x3 y3 : represents q x1 y1 -> ~ same x1 (Z.of_N u) ->
  chord x1 y1 (Z.of_N u) (Z.of_N v) x3 y3 -> represents (j_add q u v) x3 y3.
Proof.
  destruct q as [[a b] c]. unfold represents, chord, j_add. cbv beta zeta. rewrite !same_eqp.
  intros [Hc [Ha Hb]] Hx [l Ht]. rewrite !same_eqp in *. destruct Ht as [Hl [H3 H4]].
  destruct (N.eqb_spec c 0) as [E|_].
  { exfalso. apply Hc. rewrite E. reflexivity. }
  destruct (N.eqb_spec (m_sub field_size (m_mul field_size u (m_mul field_size c c)) a) 0) as [E|_].
  { exfalso. apply (f_equal Z.of_N) in E. assert (E' : eqp (Z.of_N u * (Z.of_N c * Z.of_N c) - Z.of_N a) 0).
    { change 0 with (Z.of_N 0). rewrite <- E. repeat to_z. reflexivity. }
    apply Hx. apply (eqp_cancel _ _ (Z.of_N c) Hc). apply (eqp_cancel _ _ (Z.of_N c) Hc).
    rewrite <- Ha. symmetry. apply eqp_sub0. rewrite <- E'. apply eqp_of_eq. ring. }
  cbv beta iota. rewrite !same_eqp. repeat to_z.
  generalize dependent (Z.of_N a). generalize dependent (Z.of_N b). generalize dependent (Z.of_N c).
  generalize dependent (Z.of_N u). generalize dependent (Z.of_N v).
  intros V U Hx Hl H3 Z Hz Y HY X HX.
  assert (Hh : eqp (U * (Z * Z) - X) ((U - x1) * (Z * Z))) by (rewrite HX; apply eqp_of_eq; ring).
  assert (Hr : eqp (V * Z * (Z * Z) - Y) (l * (U - x1) * (Z * Z * Z))).
  { rewrite HY, Hl. apply eqp_of_eq. ring. }
  rewrite Hh, Hr, H3, H4. split; [|split].
  - intros E. destruct (eqp_prod _ _ E) as [E1|E1]; [exact (Hz E1)|].
    destruct (eqp_prod _ _ E1) as [E2|E2].
    + apply Hx. symmetry. apply eqp_sub0. exact E2.
    + destruct (eqp_prod _ _ E2) as [E3|E3]; exact (Hz E3).
  - rewrite HX. apply eqp_of_eq. ring.
  - rewrite H3. rewrite HX, HY. apply eqp_of_eq. ring.
Qed.

Lemma j_add_same q x1 y1 u v : represents q x1 y1 -> same x1 (Z.of_N u) -> same y1 (Z.of_N v) ->
  j_add q u v = j_double q.
Proof.
  destruct q as [[a b] c]. unfold represents, j_add. cbv beta zeta. rewrite !same_eqp.
  intros [Hc [Ha Hb]] Hx Hy. assert (Hf := field_bounds).
  destruct (N.eqb_spec c 0) as [E|_].
  { exfalso. apply Hc. rewrite E. reflexivity. }
  assert (E1 : m_sub field_size (m_mul field_size u (m_mul field_size c c)) a = 0%N).
  { apply eqp_small0; [apply m_sub_lt; [exact Hf|apply m_mul_lt; exact Hf]|].
    repeat to_z. rewrite Ha, Hx. apply eqp_of_eq. ring. }
  assert (E2 : m_sub field_size (m_mul field_size (m_mul field_size v c) (m_mul field_size c c)) b = 0%N).
  { apply eqp_small0; [apply m_sub_lt; [exact Hf|apply m_mul_lt; exact Hf]|].
    repeat to_z. rewrite Hb, Hy. apply eqp_of_eq. ring. }
  rewrite E1, E2. reflexivity.
Qed.

Lemma j_add_opposite q x1 y1 u v : represents q x1 y1 -> same x1 (Z.of_N u) -> ~ same y1 (Z.of_N v) ->
  j_add q u v = j_zero.
Proof.
  destruct q as [[a b] c]. unfold represents, j_add. cbv beta zeta. rewrite !same_eqp.
  intros [Hc [Ha Hb]] Hx Hy. assert (Hf := field_bounds).
  destruct (N.eqb_spec c 0) as [E|_].
  { exfalso. apply Hc. rewrite E. reflexivity. }
  assert (E1 : m_sub field_size (m_mul field_size u (m_mul field_size c c)) a = 0%N).
  { apply eqp_small0; [apply m_sub_lt; [exact Hf|apply m_mul_lt; exact Hf]|].
    repeat to_z. rewrite Ha, Hx. apply eqp_of_eq. ring. }
  rewrite E1. cbn [N.eqb].
  destruct (N.eqb_spec (m_sub field_size (m_mul field_size (m_mul field_size v c) (m_mul field_size c c)) b) 0) as [E|_];
    [|reflexivity].
  exfalso. apply (f_equal Z.of_N) in E.
  assert (E' : eqp (Z.of_N v * Z.of_N c * (Z.of_N c * Z.of_N c) - Z.of_N b) 0).
  { change 0 with (Z.of_N 0). rewrite <- E. repeat to_z. reflexivity. }
  apply Hy. do 3 apply (eqp_cancel _ _ (Z.of_N c) Hc). rewrite <- Hb. symmetry. apply eqp_sub0.
  rewrite <- E'. apply eqp_of_eq. ring.
Qed.

Lemma j_add_first x y u v : represents (j_add (x, y, 0%N) u v) (Z.of_N u) (Z.of_N v).
Proof.
  unfold represents, j_add. cbn [N.eqb]. rewrite !same_eqp. change (Z.of_N 1) with 1. split; [|split].
  - intros H. change 1 with (Z.of_N 1) in H. apply eqp_small0 in H; [discriminate|]. vm_compute. reflexivity.
  - apply eqp_of_eq. ring.
  - apply eqp_of_eq. ring.
Qed.

(** Reduced triples *)
Definition reduced (q : jpoint) : Prop := (snd q < field_size)%N.
Lemma j_double_reduced q : reduced (j_double q).
Proof. destruct q as [[x y] z]. unfold reduced, j_double. cbv beta zeta. cbn [snd]. apply m_add_lt. exact field_bounds. Qed.
Lemma j_add_reduced q u v : reduced (j_add q u v).
Proof.
  destruct q as [[x y] z]. unfold j_add. cbv beta zeta.
  destruct (z =? 0)%N; [vm_compute; reflexivity|].
  destruct (_ =? 0)%N; [destruct (_ =? 0)%N; [apply j_double_reduced|vm_compute; reflexivity]|].
  unfold reduced. cbn [snd]. apply m_mul_lt. exact field_bounds.
Qed.
Lemma j_sum_reduced n : forall a b u v q, reduced q -> reduced (j_sum n a b u v q).
Proof.
  induction n as [|n IH]; intros a b u v q Hq; cbn [j_sum]; [exact Hq|]. cbv zeta. apply IH.
  destruct (N.testbit a (N.of_nat n)); destruct (N.testbit b (N.of_nat n));
    first [apply j_add_reduced|apply j_double_reduced].
Qed.

Lemma affine_spec q x y : reduced q -> affine q = Some (x, y) ->
  represents q (Z.of_N x) (Z.of_N y) /\ (x < field_size)%N /\ (y < field_size)%N.
Proof.
  destruct q as [[a b] c]. unfold reduced, affine. cbn [snd]. intros Hr.
  destruct (N.eqb_spec c 0) as [E|Hc]; [discriminate|]. cbv zeta. intros H.
  assert (Ex : m_mul field_size a (m_mul field_size (m_inv field_size c) (m_inv field_size c)) = x) by congruence.
  assert (Ey : m_mul field_size b (m_mul field_size (m_mul field_size (m_inv field_size c) (m_inv field_size c))
    (m_inv field_size c)) = y) by congruence. clear H.
  assert (Hc' : ~ eqp (Z.of_N c) 0) by (intros E; apply Hc; apply eqp_small0; assumption).
  assert (Hi := eqp_inv c Hc').
  split; [|subst; split; apply m_mul_lt; exact field_bounds].
  unfold represents. rewrite !same_eqp. split; [exact Hc'|]. subst x y. split.
  - repeat to_z. generalize dependent (m_inv field_size c). intros i Hi.
    transitivity (Z.of_N a * ((Z.of_N i * Z.of_N c) * (Z.of_N i * Z.of_N c))).
    + rewrite Hi. apply eqp_of_eq. ring.
    + apply eqp_of_eq. ring.
  - repeat to_z. generalize dependent (m_inv field_size c). intros i Hi.
    transitivity (Z.of_N b * ((Z.of_N i * Z.of_N c) * (Z.of_N i * Z.of_N c) * (Z.of_N i * Z.of_N c))).
    + rewrite Hi. apply eqp_of_eq. ring.
    + apply eqp_of_eq. ring.
Qed.

Lemma represents_curve q x y : j_on_curve q -> represents q (Z.of_N x) (Z.of_N y) -> on_curve x y.
Proof.
  destruct q as [[a b] c]. intros H. apply j_on_curve_eqp in H. unfold represents. rewrite !same_eqp.
  intros [Hc [Ha Hb]]. apply on_curve_eqp. rewrite Ha, Hb in H.
  do 6 apply (eqp_cancel _ _ (Z.of_N c) Hc).
  transitivity (Z.of_N y * Z.of_N c * Z.of_N c * Z.of_N c * (Z.of_N y * Z.of_N c * Z.of_N c * Z.of_N c)).
  - apply eqp_of_eq. ring.
  - rewrite H. apply eqp_of_eq. ring.
Qed.

Lemma affine_sum_curve a b u v x y : (b = 0%N \/ on_curve u v) ->
  affine (j_sum 256 a b u v j_zero) = Some (x, y) ->
  on_curve x y /\ (x < field_size)%N /\ (y < field_size)%N.
Proof.
  intros Hc H. apply affine_spec in H; [|apply j_sum_reduced; vm_compute; reflexivity].
  destruct H as [H [Hx Hy]]. split; [|split; assumption].
  eapply represents_curve; [|exact H]. apply j_sum_curve; [exact Hc|exact j_zero_curve].
Qed.

(** ** Keys *)

Lemma eqp_pow a b k : 0 <= k -> eqp a b -> eqp (a ^ k) (b ^ k).
Proof.
  intros Hk H. revert k Hk. apply natlike_ind; [rewrite !Z.pow_0_r; reflexivity|].
  intros k Hk IH. rewrite !Z.pow_succ_r by lia. rewrite IH, H. reflexivity.
Qed.
Lemma eqp_fermat a : ~ eqp a 0 -> eqp (a ^ (PZ - 1)) 1.
Proof.
  intros Ha. apply eqp_sub0. apply eqp_0_div. apply fermat; [exact field_prime_ok|].
  intros H. apply Ha. apply eqp_0_div. exact H.
Qed.
Lemma eqp_m_pow a e : eqp (Z.of_N (m_pow field_size a e)) (Z.of_N a ^ Z.pos e).
Proof.
  assert (H := m_pow_spec field_size a e field_bounds). apply eqp_mod in H. rewrite H.
  rewrite N2Z.inj_pow. reflexivity.
Qed.

Definition third : positive := Z.to_pos ((PZ - 1) / 3).
Lemma third_eq : PZ - 1 = 3 * Z.pos third.
Proof. vm_compute. reflexivity. Qed.
Lemma minus7 : m_pow field_size (field_size - 7) third <> 1%N.
Proof. intros H. apply (f_equal (fun x => N.eqb x 1)) in H. revert H. vm_compute. discriminate. Qed.

Lemma no_root_zero x : ~ on_curve x 0.
Proof.
  intros H. apply on_curve_eqp in H. change (Z.of_N 0) with 0 in H. rewrite Z.mul_0_l in H.
  set (X := Z.of_N x) in *.
  assert (H7 : eqp (Z.of_N (field_size - 7)) (X * X * X)).
  { rewrite N2Z.inj_sub by (vm_compute; discriminate). change (Z.of_N 7) with 7.
    transitivity (- (7)).
    - exists 1. ring.
    - apply eqp_sub0. transitivity (- (7) + - (X * X * X)); [apply eqp_of_eq; ring|].
      symmetry. transitivity (0 * (-1)); [reflexivity|]. rewrite H at 1. apply eqp_of_eq. ring. }
  assert (HX : ~ eqp X 0).
  { intros E. rewrite E in H. change (0 * 0 * 0 + 7) with (Z.of_N 7) in H. symmetry in H.
    apply eqp_small0 in H; [discriminate|]. vm_compute. reflexivity. }
  assert (HF := eqp_fermat X HX). rewrite third_eq in HF. rewrite Z.pow_mul_r in HF by lia.
  assert (E : eqp (Z.of_N (m_pow field_size (field_size - 7) third)) (Z.of_N 1)).
  { rewrite eqp_m_pow. rewrite (eqp_pow _ _ (Z.pos third) ltac:(lia) H7). change (Z.of_N 1) with 1. rewrite <- HF.
    apply eqp_of_eq. f_equal. ring. }
  apply minus7. apply eqp_small; [| |exact E].
  - apply m_pow_lt; [exact field_bounds|]. vm_compute. reflexivity.
  - vm_compute. reflexivity.
Qed.

(** Square roots *)
Definition quarter : positive := match ((field_size + 1) / 4)%N with Npos e => e | N0 => 1%positive end.
Lemma quarter_eq : ((field_size + 1) / 4 = N.pos quarter)%N.
Proof. vm_compute. reflexivity. Qed.
Lemma quarter_four : PZ + 1 = 2 * (2 * Z.pos quarter).
Proof. vm_compute. reflexivity. Qed.

Lemma root_found w s : ~ eqp s 0 -> eqp (Z.of_N w) (s * s) ->
  eqp (Z.of_N (m_pow field_size w quarter) * Z.of_N (m_pow field_size w quarter)) (Z.of_N w).
Proof.
  intros Hs Hw. rewrite eqp_m_pow. rewrite <- Z.pow_add_r by lia.
  rewrite (eqp_pow _ _ (Z.pos quarter + Z.pos quarter) ltac:(lia) Hw). rewrite Hw.
  replace (s * s) with (s ^ 2) at 1 by ring. rewrite <- Z.pow_mul_r by lia.
  replace (2 * (Z.pos quarter + Z.pos quarter)) with ((PZ - 1) + 2) by (rewrite <- (Z.add_simpl_r PZ 1), quarter_four; lia).
  rewrite Z.pow_add_r by (vm_compute; discriminate). rewrite (eqp_fermat s Hs). apply eqp_of_eq. ring.
Qed.

Lemma roots_equal a b : (a < field_size)%N -> (b < field_size)%N -> a <> 0%N ->
  eqp (Z.of_N a * Z.of_N a) (Z.of_N b * Z.of_N b) -> a = b \/ a = (field_size - b)%N.
Proof.
  intros Ha Hb Hn H. assert (H' : eqp ((Z.of_N a - Z.of_N b) * (Z.of_N a + Z.of_N b)) 0).
  { transitivity (Z.of_N a * Z.of_N a - Z.of_N b * Z.of_N b); [apply eqp_of_eq; ring|]. apply eqp_sub0. exact H. }
  destruct (eqp_prod _ _ H') as [E|E].
  - left. apply eqp_small; try assumption. apply eqp_sub0. exact E.
  - right. destruct E as [k Hk].
    assert (Hf := field_bounds). assert (k = 1) by nia. subst k. lia.
Qed.

Lemma m_sub_neg y : (0 < y < field_size)%N -> m_sub field_size 0 y = (field_size - y)%N.
Proof.
  intros Hy. unfold m_sub. destruct (N.leb_spec y 0) as [H|H]; [lia|].
  rewrite reduce_spec by exact field_bounds. rewrite (N.mod_small y) by lia.
  apply N.mod_small. lia.
Qed.

Lemma field_odd : (field_size mod 2 = 1)%N.
Proof. vm_compute. reflexivity. Qed.
Lemma even_mod y : N.even y = (y mod 2 =? 0)%N.
Proof. rewrite <- N.bit0_mod, N.bit0_odd, <- N.negb_odd. destruct (N.odd y); reflexivity. Qed.

Lemma point_iff k x y : bytes_ok k ->
  secp_point k = Some (x, y)
  <-> on_curve x y /\ (x < field_size)%N /\ (y < field_size)%N /\ k = encoding x y.
Proof.
  intros Hk. assert (Hf := field_bounds). assert (Hodd := field_odd).
  assert (Hp32 : (field_size < 256 ^ N.of_nat 32)%N) by (vm_compute; reflexivity).
  unfold secp_point. rewrite quarter_eq. cbv beta iota zeta. split.
  - destruct k as [|c t]; [discriminate|].
    destruct (Nat.eqb (length t) 32 && ((c =? 2)%N || (c =? 3)%N) && (from_be t <? field_size)%N) eqn:E; [|discriminate].
    repeat rewrite andb_true_iff in E. destruct E as [[Hlen Hc] Hx]. apply Nat.eqb_eq in Hlen.
    set (w := m_add field_size (m_mul field_size (from_be t) (m_mul field_size (from_be t) (from_be t))) 7).
    set (y0 := m_pow field_size w quarter).
    assert (Hw : (w < field_size)%N) by (apply m_add_lt; exact Hf).
    assert (Hy0 : (y0 < field_size)%N) by (apply m_pow_lt; assumption).
    destruct (N.eqb_spec (m_mul field_size y0 y0) w) as [E|]; [|discriminate].
    intros H. assert (Ex : from_be t = x) by congruence.
    assert (Ey : (if (y0 mod 2 =? c mod 2)%N then y0 else m_sub field_size 0 y0) = y) by congruence. clear H.
    assert (Hcur0 : on_curve x y0).
    { apply on_curve_eqp. rewrite <- eqp_m_mul, E. unfold w. repeat to_z. rewrite Ex. apply eqp_of_eq. change (Z.of_N 7) with 7. ring. }
    assert (Hn0 : (0 < y0)%N).
    { destruct (N.eq_dec y0 0) as [E0|]; [|lia]. exfalso. rewrite E0 in Hcur0. exact (no_root_zero x Hcur0). }
    inversion Hk as [|? ? Hcb Ht]; subst.
    assert (Hte : to_be 32 (from_be t) = t) by (rewrite <- Hlen; apply to_from_be; exact Ht).
    unfold encoding. rewrite Hte.
    destruct (N.eqb_spec (y0 mod 2) (c mod 2)) as [Ep|Ep].
    + split; [exact Hcur0|]. split; [lia|]. split; [exact Hy0|]. f_equal. rewrite even_mod.
      destruct (N.eqb_spec (y0 mod 2) 0); lia.
    + rewrite m_sub_neg by lia. split; [|split; [lia|split; [lia|]]].
      * apply on_curve_eqp. apply on_curve_eqp in Hcur0. rewrite <- Hcur0. rewrite N2Z.inj_sub by lia.
        exists (PZ - 2 * Z.of_N y0). ring.
      * f_equal. rewrite even_mod. destruct (N.eqb_spec ((field_size - y0) mod 2) 0); lia.
  - intros [Hcur [Hx [Hy ->]]]. unfold encoding.
    rewrite to_be_length, from_to_be_small by lia. cbn [Nat.eqb].
    assert (Hc : (((if N.even y then 2 else 3) =? 2) || ((if N.even y then 2 else 3) =? 3) = true)%N)
      by (destruct (N.even y); reflexivity).
    rewrite Hc. destruct (N.ltb_spec x field_size) as [_|]; [|lia]. cbn [andb].
    set (w := m_add field_size (m_mul field_size x (m_mul field_size x x)) 7).
    assert (Hn : (0 < y)%N).
    { destruct (N.eq_dec y 0) as [E0|]; [|lia]. exfalso. rewrite E0 in Hcur. exact (no_root_zero x Hcur). }
    assert (Hw : eqp (Z.of_N w) (Z.of_N y * Z.of_N y)).
    { apply on_curve_eqp in Hcur. rewrite Hcur. unfold w. repeat to_z. apply eqp_of_eq. change (Z.of_N 7) with 7. ring. }
    assert (Hs : ~ eqp (Z.of_N y) 0) by (intros E; apply eqp_small0 in E; [lia|exact Hy]).
    assert (Hr := root_found w (Z.of_N y) Hs Hw). set (y0 := m_pow field_size w quarter) in *.
    assert (Hwl : (w < field_size)%N) by (apply m_add_lt; exact Hf).
    assert (Hy0 : (y0 < field_size)%N) by (apply m_pow_lt; assumption).
    assert (E : m_mul field_size y0 y0 = w).
    { apply eqp_small; [apply m_mul_lt; exact Hf|exact Hwl|]. rewrite eqp_m_mul. exact Hr. }
    rewrite E, N.eqb_refl. f_equal. f_equal.
    assert (Hn0 : y0 <> 0%N).
    { intros E0. rewrite E0 in Hr. change (Z.of_N 0) with 0 in Hr. rewrite Z.mul_0_l, Hw in Hr.
      symmetry in Hr. destruct (eqp_prod _ _ Hr); contradiction. }
    assert (Hcp : ((if N.even y then 2 else 3) mod 2 = y mod 2)%N).
    { rewrite even_mod. destruct (N.eqb_spec (y mod 2) 0) as [e|e]; [rewrite e; reflexivity|].
      change (3 mod 2)%N with 1%N. lia. }
    rewrite Hcp. rewrite Hw in Hr.
    destruct (roots_equal y0 y Hy0 Hy Hn0 Hr) as [->| ->].
    + rewrite N.eqb_refl. reflexivity.
    + destruct (N.eqb_spec ((field_size - y) mod 2) (y mod 2)) as [Ep|Ep]; [lia|].
      rewrite m_sub_neg by lia. lia.
Qed.

Local Open Scope N_scope.

Lemma compressed_encoding x y : compressed (x, y) = encoding x y.
Proof.
  unfold compressed, encoding. cbn [fst snd]. f_equal. rewrite even_mod.
  assert (H := N.mod_lt y 2 ltac:(lia)). destruct (N.eqb_spec (y mod 2) 0); lia.
Qed.
Lemma encoding_ok x y : is_array 33 (encoding x y).
Proof.
  unfold encoding. split.
  - cbn [length]. rewrite to_be_length. reflexivity.
  - constructor; [unfold byte_ok; destruct (N.even y); lia|apply to_be_ok].
Qed.

Lemma half_of_order : 2 * (group_size / 2) + 1 = group_size.
Proof. vm_compute. reflexivity. Qed.

Lemma verified_signature d s k : is_array 64 s -> bytes_ok k -> secp_sig_ok s = true -> secp_verify d s k = true ->
  low_signature s
  /\ (exists x y, k = encoding x y /\ on_curve x y /\ x < field_prime /\ y < field_prime)
  /\ (exists x y, on_curve x y /\ x < field_prime /\ y < field_prime /\ x mod curve_order = first_half s).
Proof.
  intros Hs Hk Hok Hv. unfold secp_verify in Hv. cbv zeta in Hv. unfold secp_sig_ok in Hok.
  repeat rewrite andb_true_iff in Hok. destruct Hok as [[_ Hr] Hss].
  rewrite <- field_eq, <- group_eq.
  destruct ((sig_r s =? 0) || (sig_s s =? 0) || (group_size / 2 <? sig_s s)) eqn:E; [discriminate|].
  repeat rewrite orb_false_iff in E. destruct E as [[E1 E2] E3].
  destruct (secp_point k) as [[u v]|] eqn:Ek; [|discriminate].
  apply (point_iff k u v Hk) in Ek. destruct Ek as [Hc [Hu [Hv' Hke]]].
  destruct (affine _) as [[x y]|] eqn:Ea; [|discriminate].
  apply affine_sum_curve in Ea; [|right; exact Hc]. destruct Ea as [Hcx [Hx Hy]].
  rewrite reduce_spec in Hv by exact group_bounds. assert (Hh := half_of_order).
  split; [|split].
  - unfold low_signature. rewrite <- group_eq. change (first_half s) with (sig_r s). change (second_half s) with (sig_s s).
    split; [exact Hs|]. lia.
  - exists u, v. repeat split; assumption.
  - exists x, y. change (first_half s) with (sig_r s). repeat split; try assumption. lia.
Qed.

Lemma negated_refused d s k : is_array 64 s -> low_signature s -> secp_sig_ok (negated s) = true /\ secp_verify d (negated s) k = false.
Proof.
  intros Hs Hl. destruct Hl as [_ [Hr [Hs0 Hs1]]]. assert (Hh := half_of_order). rewrite <- group_eq in *.
  destruct Hs as [Hlen Hok].
  assert (Hb32 : group_size < 256 ^ N.of_nat 32) by (vm_compute; reflexivity).
  assert (Hf : length (firstn 32 s) = 32%nat) by (rewrite firstn_length; lia).
  assert (Er : sig_r (negated s) = first_half s).
  { unfold sig_r, negated, first_half. f_equal. rewrite firstn_app, Hf, Nat.sub_diag, firstn_O, app_nil_r.
    rewrite firstn_firstn. reflexivity. }
  assert (Es : sig_s (negated s) = group_size - second_half s).
  { unfold sig_s, negated. rewrite skipn_app, Hf, Nat.sub_diag. rewrite skipn_all2 by lia. cbn [skipn app].
    rewrite <- group_eq. apply from_to_be_small. lia. }
  split.
  - unfold secp_sig_ok. rewrite Er, Es. unfold negated. rewrite app_length, Hf, to_be_length.
    repeat rewrite andb_true_iff. split; [split|]; [reflexivity|lia|lia].
  - unfold secp_verify. rewrite Er, Es. cbv zeta.
    assert (E : group_size / 2 <? group_size - second_half s = true) by lia. rewrite E, orb_true_r. reflexivity.
Qed.

Lemma sign_with_low k z d s : sign_with k z d = Some s -> low_signature s.
Proof.
  unfold sign_with. destruct ((k =? 0) || (group_size <=? k)); [discriminate|].
  destruct (affine _) as [[x y]|]; [|discriminate]. cbv zeta.
  rewrite reduce_spec by exact group_bounds. assert (Hg := group_bounds).
  assert (Hr := N.mod_lt x group_size ltac:(lia)).
  assert (Hs := m_mul_lt group_size (m_inv group_size k)
     (m_add group_size z (m_mul group_size (x mod group_size) d)) group_bounds).
  revert Hr Hs. generalize (x mod group_size).
  intros r. generalize (m_mul group_size (m_inv group_size k) (m_add group_size z (m_mul group_size r d))).
  intros v Hr Hv. destruct ((r =? 0) || (v =? 0)) eqn:E; [discriminate|]. apply orb_false_iff in E.
  intros H. assert (Es : s = to_be 32 r ++ to_be 32 (if group_size / 2 <? v then group_size - v else v)) by congruence.
  clear H. assert (Hh := half_of_order).
  assert (Hb32 : group_size < 256 ^ N.of_nat 32) by (vm_compute; reflexivity).
  set (v' := if group_size / 2 <? v then group_size - v else v) in *.
  assert (Hv' : 0 < v' /\ 2 * v' < group_size).
  { unfold v'. destruct (N.ltb_spec (group_size / 2) v); lia. }
  clearbody v'. subst s. unfold low_signature. rewrite <- group_eq.
  assert (E1 : first_half (to_be 32 r ++ to_be 32 v') = r).
  { unfold first_half. rewrite firstn_app, to_be_length, Nat.sub_diag, firstn_O, app_nil_r.
    rewrite firstn_all2 by (rewrite to_be_length; lia). apply from_to_be_small. lia. }
  assert (E2 : second_half (to_be 32 r ++ to_be 32 v') = v').
  { unfold second_half. rewrite skipn_app, to_be_length, Nat.sub_diag. rewrite skipn_all2 by (rewrite to_be_length; lia).
    cbn [skipn app]. apply from_to_be_small. lia. }
  rewrite E1, E2. split; [|lia]. split.
  - rewrite app_length, !to_be_length. reflexivity.
  - apply Forall_app. split; apply to_be_ok.
Qed.

Lemma sign_loop_low f : forall k v z d, sign_loop f k v z d = repeat 0 64 \/ low_signature (sign_loop f k v z d).
Proof.
  induction f as [|f IH]; intros k v z d; [left; reflexivity|].
  cbn [sign_loop]. cbv zeta. destruct (sign_with (from_be (hmac k v)) z d) as [s|] eqn:E.
  - right. eapply sign_with_low. exact E.
  - apply IH.
Qed.

(** ** The theorems *)

(*@T The field of the curve has prime order. *)
Lemma p_C121_prime : prime (Z.of_N field_prime).
Proof. rewrite <- field_eq. exact prime_field. Qed.

(*@T The arithmetic of the model is arithmetic modulo m; by a prime, [m_inv] divides. *)
Lemma p_C121_arithmetic :
  forall m a b e, 0 < m < 2 ^ 256 ->
    m_add m a b = (a + b) mod m
    /\ m_mul m a b = (a * b) mod m
    /\ (m_sub m a b + b) mod m = a mod m
    /\ m_pow m a e mod m = a ^ N.pos e mod m
    /\ (prime (Z.of_N m) -> a mod m <> 0 -> (m_inv m a * a) mod m = 1).
Proof.
  intros m a b e Hm. split; [|split; [|split; [|split]]].
  - apply m_add_spec. exact Hm.
  - apply m_mul_spec. exact Hm.
  - apply m_sub_spec. exact Hm.
  - apply m_pow_spec. exact Hm.
  - intros Hp Ha. apply m_inv_prime; assumption.
Qed.

(*@E
Example C121_arithmetic_ex : m_inv 7 3 = 5 /\ m_mul 7 5 3 = 1 /\ m_sub 7 2 5 = 4 /\ m_pow 7 3 6 = 1.
Proof. vm_compute. repeat split; reflexivity. Qed.
@*)


(*@T Doubling and adding are the tangent and the chord construction, with the usual cases for equal and opposite points and for the point at infinity. *)
Lemma p_C121_addition :
  forall q x1 y1 u v x3 y3, represents q x1 y1 ->
    (~ same y1 0 -> tangent x1 y1 x3 y3 -> represents (j_double q) x3 y3)
    /\ (~ same x1 (Z.of_N u) -> chord x1 y1 (Z.of_N u) (Z.of_N v) x3 y3 -> represents (j_add q u v) x3 y3)
    /\ (same x1 (Z.of_N u) -> same y1 (Z.of_N v) -> j_add q u v = j_double q)
    /\ (same x1 (Z.of_N u) -> ~ same y1 (Z.of_N v) -> j_add q u v = j_zero)
    /\ represents (j_add j_zero u v) (Z.of_N u) (Z.of_N v).
Proof.
  intros q x1 y1 u v x3 y3 Hq. split; [|split; [|split; [|split]]].
  - intros. eapply j_double_spec; eassumption.
  - intros. eapply j_add_spec; eassumption.
  - intros. eapply j_add_same; eassumption.
  - intros. eapply j_add_opposite; eassumption.
  - apply j_add_first.
Qed.

(*@E
(** Twice and three times the base point. *)
Example C121_addition_ex :
  let x2 := 89565891926547004231252920425935692360644145829622209833684329913297188986597%Z in
  let y2 := 12158399299693830322967808612713398636155367887041628176798871954788371653930%Z in
  let x3 := 112711660439710606056748659173929673102114977341539408544630613555209775888121%Z in
  let y3 := 25583027980570883691656905877401976406448868254816295069919888960541586679410%Z in
  represents (gen_x, gen_y, 1) (Z.of_N gen_x) (Z.of_N gen_y)
  /\ represents (j_double (gen_x, gen_y, 1)) x2 y2
  /\ represents (j_add (j_double (gen_x, gen_y, 1)) gen_x gen_y) x3 y3.
Proof.
  cbv zeta.
  assert (H1 : represents (gen_x, gen_y, 1) (Z.of_N gen_x) (Z.of_N gen_y)).
  { split; [|split].
    - intros [k H]. revert H. clear. intros H. apply (f_equal (fun z => Z.modulo z (Z.of_N field_prime))) in H.
      rewrite Z_mod_mult in H. vm_compute in H. discriminate H.
    - exists 0%Z. vm_compute. reflexivity.
    - exists 0%Z. vm_compute. reflexivity. }
  assert (Hd : forall a b, Z.modulo (a - b) (Z.of_N field_prime) = 0%Z -> same a b).
  { intros a b H. apply Z.mod_divide; [vm_compute; discriminate|exact H]. }
  assert (Hn : forall a b, Z.modulo (a - b) (Z.of_N field_prime) <> 0%Z -> ~ same a b).
  { intros a b H H'. apply H. apply Z.mod_divide; [vm_compute; discriminate|exact H']. }
  split; [exact H1|].
  assert (H2 : represents (j_double (gen_x, gen_y, 1))
    89565891926547004231252920425935692360644145829622209833684329913297188986597
    12158399299693830322967808612713398636155367887041628176798871954788371653930).
  { apply (proj1 (C121_addition _ _ _ 0 0 _ _ H1)).
    - apply Hn. vm_compute. discriminate.
    - exists 91914383230618135761690975197207778399550061809281766160147273830617914855857%Z.
      repeat split; apply Hd; vm_compute; reflexivity. }
  split; [exact H2|].
  apply (proj1 (proj2 (C121_addition _ _ _ _ _ _ _ H2))).
  - apply Hn. vm_compute. discriminate.
  - exists 23578750110654438173404407907450265080473019639451825850605815020978465167024%Z.
    repeat split; apply Hd; vm_compute; reflexivity.
Qed.
@*)


(*@T Sums of multiples of the base point and of a point of the curve are on the curve. *)
Lemma p_C121_curve :
  forall a b u v x y, on_curve u v -> affine (j_sum 256 a b u v j_zero) = Some (x, y) ->
    on_curve x y /\ x < field_prime /\ y < field_prime.
Proof. rewrite <- field_eq. intros a b u v x y H. apply affine_sum_curve. right. exact H. Qed.

(*@E
Example C121_curve_ex : on_curve gen_x gen_y /\ affine (j_sum 256 1 1 gen_x gen_y j_zero) =
  Some (89565891926547004231252920425935692360644145829622209833684329913297188986597,
        12158399299693830322967808612713398636155367887041628176798871954788371653930).
Proof. split; vm_compute; reflexivity. Qed.
@*)


(*@T Keys and points of the curve correspond: 33 bytes are accepted as a key exactly if they encode a point, and every point is the reading of its encoding. *)
Lemma p_C121_keys :
  forall k x y, bytes_ok k ->
    (secp_point k = Some (x, y) <-> on_curve x y /\ x < field_prime /\ y < field_prime /\ k = encoding x y).
Proof. rewrite <- field_eq. intros k x y Hk. exact (point_iff k x y Hk). Qed.

(*@E
Example C121_keys_ex : secp_point (encoding gen_x gen_y) = Some (gen_x, gen_y) /\ bytes_ok (encoding gen_x gen_y)
  /\ secp_point (repeat 0 33) = None /\ secp_point (2 :: repeat 255 32) = None.
Proof.
  assert (H : bytes_ok (encoding gen_x gen_y)) by (vm_compute; repeat constructor).
  split; [|split; [exact H|split; vm_compute; reflexivity]].
  apply (C121_keys _ _ _ H). repeat split; vm_compute; reflexivity.
Qed.
@*)


(*@T Whatever the secret number, the key computed from it is the encoding of a point, and is accepted. *)
Lemma p_C121_public :
  forall s k, public_key s = Some k ->
    is_array 33 k /\ secp_pubkey_ok k = true
    /\ exists x y, k = encoding x y /\ on_curve x y /\ x < field_prime /\ y < field_prime.
Proof.
  intros s k H. unfold public_key in H.
  destruct (affine (j_sum 256 (from_be s) 0 0 0 j_zero)) as [[x y]|] eqn:E; [|discriminate].
  cbn [option_map] in H. rewrite compressed_encoding in H. assert (Hk : k = encoding x y) by congruence.
  apply affine_sum_curve in E; [|left; reflexivity]. destruct E as [Hc [Hx Hy]].
  split; [rewrite Hk; apply encoding_ok|]. split.
  - unfold secp_pubkey_ok. assert (Hp : secp_point k = Some (x, y)).
    { apply point_iff; [rewrite Hk; apply encoding_ok|]. repeat split; assumption. }
    rewrite Hp. reflexivity.
  - exists x, y. rewrite <- field_eq. repeat split; assumption.
Qed.

(*@T A signature that is accepted for a key: the key is a point of the curve; the signature consists of two numbers in range, the second one the smaller of s and -s, the first one the x coordinate of another point. *)
Lemma p_C121_verified :
  forall d s k, is_array 64 s -> bytes_ok k -> sig_ok secp256k1 s = true -> ecdsa_verify secp256k1 d s k = true ->
    low_signature s
    /\ (exists x y, k = encoding x y /\ on_curve x y /\ x < field_prime /\ y < field_prime)
    /\ (exists x y, on_curve x y /\ x < field_prime /\ y < field_prime /\ x mod curve_order = first_half s).
Proof. intros d s k Hs Hk H1 H2. exact (verified_signature d s k Hs Hk H1 H2). Qed.

(*@E
(** A signature of 4 r by the base point, s and r being the x coordinate of its fivefold. *)
Example C121_verified_ex :
  let r := 21505829891763648114329055987619236494102133314575206970830385799158076338148 in
  let s := to_be 32 r ++ to_be 32 r in
  is_array 64 s /\ bytes_ok (encoding gen_x gen_y) /\ sig_ok secp256k1 s = true
  /\ ecdsa_verify secp256k1 (to_be 32 (4 * r mod curve_order)) s (encoding gen_x gen_y) = true.
Proof.
  cbv zeta. split; [split; [vm_compute; reflexivity|vm_compute; repeat constructor]|].
  assert (H : bytes_ok (encoding gen_x gen_y)) by (vm_compute; repeat constructor).
  split; [exact H|]. split; [vm_compute; reflexivity|].
  assert (E : secp_point (encoding gen_x gen_y) = Some (gen_x, gen_y)).
  { apply (C121_keys _ _ _ H). repeat split; vm_compute; reflexivity. }
  cbn [ecdsa_verify secp256k1]. unfold secp_verify. rewrite E. vm_compute. reflexivity.
Qed.
@*)

Lemma solve_unique n s i z a : (0 < n -> (i * s) mod n = 1 mod n -> a < n -> ((a * s) mod n = z mod n <-> a = (z * i) mod n))%N.
Proof.
  intros Hn Hi Ha. split; intros H.
  - rewrite <- (N.mul_mod_idemp_l z i) by lia. rewrite <- H, N.mul_mod_idemp_l by lia.
    replace (a * s * i) with (a * (i * s)) by ring. rewrite <- N.mul_mod_idemp_r, Hi, N.mul_mod_idemp_r, N.mul_1_r by lia. symmetry. apply N.mod_small. exact Ha.
  - rewrite H, N.mul_mod_idemp_l by lia. replace (z * i * s) with (z * (i * s)) by ring. rewrite <- N.mul_mod_idemp_r, Hi, N.mul_mod_idemp_r, N.mul_1_r by lia. reflexivity.
Qed.

(*@T The order of the curve is prime. *)
Lemma p_C121_order : prime (Z.of_N curve_order).
Proof. exact prime_order. Qed.

(*@T The equation of ECDSA: a signature (r, s) in the form above is accepted for a digest z and a key Q exactly if r is the x coordinate, modulo the order n, of a G + b Q for the a and b below n with a s = z and b s = r modulo n. *)
Lemma p_C121_equation :
  forall d s x y, low_signature s -> on_curve x y -> x < field_prime -> y < field_prime ->
    (ecdsa_verify secp256k1 d s (encoding x y) = true <->
     exists a b X Y, a < curve_order /\ b < curve_order
       /\ (a * second_half s) mod curve_order = from_be d mod curve_order
       /\ (b * second_half s) mod curve_order = first_half s
       /\ affine (j_sum 256 a b x y j_zero) = Some (X, Y) /\ X mod curve_order = first_half s).
Proof.
  rewrite <- field_eq. intros d s x y (_ & [Hr1 Hr2] & Hs1 & Hs2) Hc Hx Hy. rewrite <- group_eq in *. assert (Hh := half_of_order). pose proof group_bounds as Hg.
  change (ecdsa_verify secp256k1 d s (encoding x y)) with (secp_verify d s (encoding x y)). unfold secp_verify. cbv zeta.
  change (sig_r s) with (first_half s). change (sig_s s) with (second_half s).
  destruct (N.eqb_spec (first_half s) 0) as [Q|_]; [lia|]. destruct (N.eqb_spec (second_half s) 0) as [Q|_]; [lia|].
  destruct (N.ltb_spec (group_size / 2) (second_half s)) as [Q|_]; [lia|]. cbn [orb].
  assert (Hp : secp_point (encoding x y) = Some (x, y)).
  { apply point_iff; [apply encoding_ok|]. repeat split; assumption. }
  rewrite Hp. clear Hp.
  assert (Hi : (m_inv group_size (second_half s) * second_half s) mod group_size = 1 mod group_size).
  { rewrite (N.mod_small 1) by lia. apply m_inv_prime; [exact Hg|rewrite group_eq; exact p_C121_order|]. rewrite N.mod_small; lia. }
  set (i := m_inv group_size (second_half s)) in *. clearbody i. rewrite !reduce_spec by exact Hg. rewrite !m_mul_spec by exact Hg.
  rewrite N.mul_mod_idemp_l by lia.
  assert (U : forall z a, a < group_size -> ((a * second_half s) mod group_size = z mod group_size <-> a = (z * i) mod group_size)).
  { intros z a Ha. apply solve_unique; [lia|exact Hi|exact Ha]. }
  assert (M : forall z, z mod group_size < group_size) by (intros z; apply N.mod_lt; lia).
  assert (Er : first_half s = first_half s mod group_size) by (symmetry; apply N.mod_small; lia).
  split.
  - destruct (affine _) as [[X Y]|] eqn:E; [|discriminate]. intros H. rewrite reduce_spec in H by exact Hg. apply N.eqb_eq in H.
    exists ((from_be d * i) mod group_size), ((first_half s * i) mod group_size), X, Y. split; [apply M|]. split; [apply M|].
    split; [apply U; [apply M|reflexivity]|]. split; [rewrite Er at 2; apply U; [apply M|reflexivity]|]. split; [exact E|exact H].
  - intros (a & b & X & Y & Ha & Hb & E1 & E2 & E3 & E4). apply U in E1; [|exact Ha]. rewrite Er in E2 at 1. apply U in E2; [|exact Hb].
    rewrite <- E1, <- E2, E3, reduce_spec by exact Hg. apply N.eqb_eq. exact E4.
Qed.

(*@E
(** 5 G, from the digest 4 r and the key G: a = 4, b = 1 when s = r. *)
Example C121_equation_ex :
  let r := 21505829891763648114329055987619236494102133314575206970830385799158076338148 in
  (4 * r) mod curve_order = from_be (to_be 32 (4 * r mod curve_order)) mod curve_order /\ (1 * r) mod curve_order = r /\ low_signature (to_be 32 r ++ to_be 32 r) /\
  on_curve gen_x gen_y /\ gen_x < field_prime /\ gen_y < field_prime /\ exists y, affine (j_sum 256 4 1 gen_x gen_y j_zero) = Some (r, y).
Proof.
  cbv zeta. do 2 (split; [vm_compute; reflexivity|]). split; [split; [split; [reflexivity|vm_compute; repeat constructor]|vm_compute; repeat split; reflexivity]|].
  do 3 (split; [vm_compute; reflexivity|]). eexists. vm_compute. reflexivity.
Qed.
@*)

(*@T The same for the sender and the signature of a transaction that [verify] accepts (SecpTests.v has one). *)
Lemma p_C121_accepted :
  forall t, bytes_ok (tx_sender t) -> is_array 64 (tx_signature t) -> tx_verify secp256k1 t = Ok true ->
    low_signature (tx_signature t)
    /\ (exists x y, tx_sender t = encoding x y /\ on_curve x y /\ x < field_prime /\ y < field_prime)
    /\ (exists x y, on_curve x y /\ x < field_prime /\ y < field_prime
          /\ x mod curve_order = first_half (tx_signature t)).
Proof.
  intros t Hk Hs H. unfold tx_verify in H. cbv zeta in H.
  destruct (negb (pubkey_ok secp256k1 (tx_sender t))); [discriminate|].
  destruct (negb (sig_ok secp256k1 (tx_signature t))) eqn:E; [discriminate|].
  assert (H' : ecdsa_verify secp256k1 (hash_without_signature t) (tx_signature t) (tx_sender t) = true) by congruence.
  apply negb_false_iff in E.
  eapply verified_signature; [exact Hs|exact Hk|exact E|exact H'].
Qed.

(*@T Nobody can change an accepted signature to the other one that solves the same equation: [verify] answers false. *)
Lemma p_C121_other_signature :
  forall t, bytes_ok (tx_sender t) -> is_array 64 (tx_signature t) -> tx_verify secp256k1 t = Ok true ->
    tx_verify secp256k1 (with_signature t (negated (tx_signature t))) = Ok false.
Proof.
  intros t Hk Hs H. destruct (p_C121_accepted t Hk Hs H) as [Hl _].
  unfold tx_verify in *. cbv zeta in *. cbn [with_signature tx_sender tx_signature].
  destruct (negb (pubkey_ok secp256k1 (tx_sender t))); [discriminate|].
  destruct (negated_refused (hash_without_signature (with_signature t (negated (tx_signature t))))
    (tx_signature t) (tx_sender t) Hs Hl) as [H1 H2].
  change (sig_ok secp256k1 (negated (tx_signature t))) with (secp_sig_ok (negated (tx_signature t))).
  rewrite H1. cbn [negb]. f_equal. exact H2.
Qed.

(*@T Which secret keys a transaction can be made with: the numbers above 0 and below the order of the curve.  With any other 32 bytes the constructor returns its error. *)
Lemma p_C121_secret_keys :
  forall sender receiver ts amount key data, length key = 32%nat ->
    ((exists t, tx_new secp256k1 sender receiver ts amount key data = Ok t) <-> 0 < from_be key < curve_order)
    /\ (tx_new secp256k1 sender receiver ts amount key data = Err ETxParse <-> from_be key = 0 \/ curve_order <= from_be key).
Proof.
  intros sender receiver ts amount key data Hl. unfold tx_new, generate_signature. cbv zeta.
  change (seckey_ok secp256k1 key) with (secp_seckey_ok key). unfold secp_seckey_ok. rewrite Hl, group_eq. cbn [Nat.eqb andb].
  destruct (N.ltb_spec 0 (from_be key)) as [A|A], (N.ltb_spec (from_be key) curve_order) as [B|B]; cbn [andb bind].
  - split; split; try discriminate; [intros _; split; assumption|eauto|]. intros [E|E]; exfalso; [rewrite E in A; exact (N.lt_irrefl _ A)|exact (N.lt_irrefl _ (N.lt_le_trans _ _ _ B E))].
  - split; split; auto; [intros (t & E); discriminate|]. intros [_ E]. exfalso. exact (N.lt_irrefl _ (N.lt_le_trans _ _ _ E B)).
  - split; split; auto; [intros (t & E); discriminate| |]. { intros [E _]. exfalso. exact (N.lt_irrefl _ (N.lt_le_trans _ _ _ E A)). } intros _. left. apply N.le_0_r. exact A.
  - split; split; auto; [intros (t & E); discriminate|]. intros [E _]. exfalso. exact (N.lt_irrefl _ (N.lt_le_trans _ _ _ E A)).
Qed.

(*@E
Example C121_secret_keys_ex : length (to_be 32 curve_order) = 32%nat /\ from_be (to_be 32 curve_order) = curve_order /\ from_be (to_be 32 (curve_order - 1)) = curve_order - 1 /\
  tx_new secp256k1 (repeat 2 33) (repeat 2 33) 0 0 (repeat 0 32) None = Err ETxParse /\ tx_new secp256k1 (repeat 2 33) (repeat 2 33) 0 0 (to_be 32 curve_order) None = Err ETxParse /\
  exists t, tx_new secp256k1 (repeat 2 33) (repeat 2 33) 0 0 (to_be 32 (curve_order - 1)) None = Ok t.
Proof.
  do 3 (split; [vm_compute; reflexivity|]). split; [apply C121_secret_keys; [reflexivity|left; vm_compute; reflexivity]|].
  split; [apply C121_secret_keys; [reflexivity|right; vm_compute; discriminate]|]. apply C121_secret_keys; [reflexivity|split; vm_compute; reflexivity].
Qed.
@*)

(*@T When [verify] refuses to answer: the sender encodes no point of the curve, or a number of the signature is not below the order of the curve.  Otherwise it answers true or false. *)
Lemma p_C121_refused :
  forall t, bytes_ok (tx_sender t) -> length (tx_signature t) = 64%nat ->
    (tx_verify secp256k1 t = Err ETxVerify <->
       (forall x y, on_curve x y -> x < field_prime -> y < field_prime -> tx_sender t <> encoding x y)
       \/ curve_order <= first_half (tx_signature t) \/ curve_order <= second_half (tx_signature t))
    /\ (tx_verify secp256k1 t = Err ETxVerify \/ exists b, tx_verify secp256k1 t = Ok b).
Proof.
  intros t Hk Hl. unfold tx_verify. cbv zeta. change (pubkey_ok secp256k1 (tx_sender t)) with (secp_pubkey_ok (tx_sender t)).
  change (sig_ok secp256k1 (tx_signature t)) with (secp_sig_ok (tx_signature t)).
  change first_half with sig_r. change second_half with sig_s. unfold secp_pubkey_ok, secp_sig_ok. rewrite Hl, group_eq. cbn [Nat.eqb andb].
  destruct (secp_point (tx_sender t)) as [[x y]|] eqn:E; cbn [negb].
  - destruct (proj1 (p_C121_keys _ x y Hk) E) as (C & X & Y & K).
    destruct (N.ltb_spec (sig_r (tx_signature t)) curve_order) as [A|A], (N.ltb_spec (sig_s (tx_signature t)) curve_order) as [B|B]; cbn [andb negb].
    + split; [|eauto]. split; [discriminate|]. intros [F|[F|F]]; exfalso; [exact (F x y C X Y K)|exact (N.lt_irrefl _ (N.lt_le_trans _ _ _ A F))|exact (N.lt_irrefl _ (N.lt_le_trans _ _ _ B F))].
    + split; [|auto]. split; auto.
    + split; [|auto]. split; auto.
    + split; [|auto]. split; auto.
  - split; [|auto]. split; [|auto]. intros _. left. intros x y C X Y K.
    assert (Z : secp_point (tx_sender t) = Some (x, y)) by (apply (p_C121_keys _ x y Hk); auto). congruence.
Qed.

(*@E
Example C121_refused_ex :
  let t k r s := MkTx k (repeat 2 33) 0 (to_be 32 r ++ to_be 32 s) 0 None (repeat 0 32) in
  tx_verify secp256k1 (t (repeat 0 33) 1 1) = Err ETxVerify /\ tx_verify secp256k1 (t (2 :: repeat 255 32) 1 1) = Err ETxVerify /\
  tx_verify secp256k1 (t (encoding gen_x gen_y) curve_order 1) = Err ETxVerify /\ tx_verify secp256k1 (t (encoding gen_x gen_y) 1 curve_order) = Err ETxVerify /\
  tx_verify secp256k1 (t (encoding gen_x gen_y) 0 1) = Ok false /\ tx_verify secp256k1 (t (encoding gen_x gen_y) 1 (curve_order - 1)) = Ok false.
Proof.
  cbv zeta. assert (H : bytes_ok (encoding gen_x gen_y)) by (vm_compute; repeat constructor).
  assert (E : secp_point (encoding gen_x gen_y) = Some (gen_x, gen_y)) by (apply (C121_keys _ _ _ H); repeat split; vm_compute; reflexivity).
  assert (F : forall s, secp_sig_ok s = true -> (sig_r s =? 0) || (group_size / 2 <? sig_s s) = true ->
    tx_verify secp256k1 (MkTx (encoding gen_x gen_y) (repeat 2 33) 0 s 0 None (repeat 0 32)) = Ok false).
  { intros s H1 H2. unfold tx_verify. cbn [tx_sender tx_signature secp256k1 pubkey_ok sig_ok ecdsa_verify]. unfold secp_pubkey_ok. rewrite E, H1. cbn [negb]. unfold secp_verify. cbv zeta. apply orb_prop in H2.
    destruct H2 as [H2|H2]; rewrite H2; rewrite ?orb_true_r; reflexivity. }
  split; [reflexivity|]. split; [reflexivity|].
  split; [apply C121_refused; [exact H|reflexivity|right; left; vm_compute; discriminate]|]. split; [apply C121_refused; [exact H|reflexivity|right; right; vm_compute; discriminate]|].
  split; apply F; vm_compute; reflexivity.
Qed.
@*)

(*@T Signing yields a signature of the form that [verify] asks for (or, in the model, no signature: a thousand nonces were refused). *)
Lemma p_C121_signing :
  forall digest key, secp_sign digest key = repeat 0 64 \/ low_signature (secp_sign digest key).
Proof.
  intros digest key. unfold secp_sign. cbv zeta.
  match goal with |- sign_loop ?f ?k ?v ?z ?d = _ \/ _ => exact (sign_loop_low f k v z d) end.
Qed.

(*@E
Example C121_signing_ex : repeat 0 64 <> to_be 32 1 ++ to_be 32 1 /\ low_signature (to_be 32 1 ++ to_be 32 1).
Proof. split; [vm_compute; discriminate|]. split; [split; [reflexivity|vm_compute; repeat constructor]|]. vm_compute. repeat split; reflexivity. Qed.
@*)


Lemma hmac_eq k m : hmac k m = hmac_sha256 k m.
Proof. unfold hmac, hmac_sha256, pad_key. cbv zeta. f_equal. f_equal; [|f_equal; f_equal]; apply map_ext; intros b; apply N.lxor_comm. Qed.

Lemma sign_with_iff digest key k sg : sign_with k (reduce group_size (from_be digest)) (from_be key) = Some sg <-> signature_with digest key k sg.
Proof.
  unfold sign_with, signature_with. rewrite <- group_eq. pose proof group_bounds as Hg. assert (Hh := half_of_order).
  destruct (N.eqb_spec k 0) as [Q|Q]; cbn [orb]; [split; [discriminate|lia]|]. destruct (N.leb_spec group_size k) as [Q'|Q']; [split; [discriminate|lia]|].
  destruct (affine _) as [[x y]|]; [|split; [discriminate|intros (_ & x & y & s & E & _); discriminate]]. cbv zeta.
  rewrite !reduce_spec, !m_mul_spec, m_add_spec by exact Hg. set (r := x mod group_size).
  assert (Hi : (m_inv group_size k * k) mod group_size = 1 mod group_size).
  { rewrite (N.mod_small 1) by lia. apply m_inv_prime; [exact Hg|rewrite group_eq; exact p_C121_order|]. rewrite N.mod_small; lia. }
  set (i := m_inv group_size k) in *. clearbody i. set (w := from_be digest + r * from_be key).
  assert (Ew : (i * ((from_be digest mod group_size + (r * from_be key) mod group_size) mod group_size)) mod group_size = (w * i) mod group_size).
  { rewrite <- N.add_mod by lia. rewrite N.mul_mod_idemp_r by lia. f_equal. apply N.mul_comm. }
  rewrite Ew. clear Ew. set (s0 := (w * i) mod group_size).
  assert (Hs0 : s0 < group_size) by (apply N.mod_lt; lia).
  assert (U : forall a, a < group_size -> ((a * k) mod group_size = w mod group_size <-> a = s0)) by (intros a Ha; apply solve_unique; [lia|exact Hi|exact Ha]).
  assert (Em : (if group_size / 2 <? s0 then group_size - s0 else s0) = N.min s0 (group_size - s0)).
  { clear - Hh Hs0. destruct (N.ltb_spec (group_size / 2) s0); lia. }
  rewrite Em. clear Em. clearbody s0. split.
  - destruct (N.eqb_spec r 0) as [R|R]; cbn [orb]; [discriminate|]. destruct (N.eqb_spec s0 0) as [S|S]; [discriminate|]. intros E.
    split; [clear - Q Q'; lia|]. exists x, y, s0. split; [reflexivity|]. split; [exact R|]. split; [clear - S Hs0; lia|]. split; [apply U; [exact Hs0|reflexivity]|]. fold r. congruence.
  - intros (_ & x' & y' & s & E & R & [S1 S2] & E2 & ->). assert (Ex : x' = x) by congruence. subst x'. fold r in R, E2 |- *. apply U in E2; [|exact S2]. subst s.
    destruct (N.eqb_spec r 0) as [R'|_]; [contradiction|]. destruct (N.eqb_spec s0 0) as [S|_]; [clear - S S1; lia|]. reflexivity.
Qed.

Lemma sign_loop_first digest key f : forall i k v, nonce_state digest key i = (k, v) ->
  let r := sign_loop f k v (reduce group_size (from_be digest)) (from_be key) in
  (exists m, (i <= m < i + f)%nat /\ signature_with digest key (nonce digest key m) r /\ forall j, (i <= j < m)%nat -> forall s, ~ signature_with digest key (nonce digest key j) s)
  \/ (r = repeat 0 64 /\ forall j, (i <= j < i + f)%nat -> forall s, ~ signature_with digest key (nonce digest key j) s).
Proof.
  induction f as [|f IH]; intros i k v Hi.
  - right. split; [reflexivity|]. intros j Hj. lia.
  - cbn [sign_loop]. cbv zeta. assert (En : from_be (hmac k v) = nonce digest key i) by (unfold nonce; rewrite Hi, hmac_eq; reflexivity). rewrite En.
    destruct (sign_with (nonce digest key i) _ _) as [s|] eqn:E.
    + left. exists i. split; [lia|]. split; [apply sign_with_iff; exact E|]. intros j Hj. lia.
    + assert (No : forall s, ~ signature_with digest key (nonce digest key i) s) by (intros s H; apply sign_with_iff in H; congruence).
      assert (Hn : nonce_state digest key (S i) = (hmac k (hmac k v ++ [0]), hmac (hmac k (hmac k v ++ [0])) (hmac k v))).
      { cbn [nonce_state]. rewrite Hi. cbv zeta. rewrite !hmac_eq. reflexivity. }
      specialize (IH _ _ _ Hn). cbv zeta in IH. destruct IH as [(m & H1 & H2 & H3)|[H1 H2]].
      * left. exists m. split; [lia|]. split; [exact H2|]. intros j Hj. destruct (Nat.eq_dec j i) as [->|D]; [exact No|apply H3; lia].
      * right. split; [exact H1|]. intros j Hj. destruct (Nat.eq_dec j i) as [->|D]; [exact No|apply H2; lia].
Qed.

(*@T Signing is that of SEC 1 with the nonces of RFC 6979: the first candidate that gives a signature is taken (or, in the model, a thousand candidates gave none). *)
Lemma p_C121_nonce :
  forall digest key,
    (exists m, (m < 1000)%nat /\ signature_with digest key (nonce digest key m) (secp_sign digest key)
       /\ forall j, (j < m)%nat -> forall s, ~ signature_with digest key (nonce digest key j) s)
    \/ (secp_sign digest key = repeat 0 64 /\ forall j, (j < 1000)%nat -> forall s, ~ signature_with digest key (nonce digest key j) s).
Proof.
  intros digest key. unfold secp_sign. cbv zeta.
  match goal with |- context [sign_loop ?f ?k ?v ?z ?d] => assert (H0 : nonce_state digest key 0 = (k, v)) by (cbn [nonce_state]; cbv zeta; rewrite !hmac_eq; reflexivity); generalize (sign_loop_first digest key f 0 k v H0); set (r := sign_loop f k v z d) end.
  cbv zeta. intros [(m & H1 & H2 & H3)|[H1 H2]].
  - left. exists m. split; [lia|]. split; [exact H2|]. intros j Hj. apply H3. lia.
  - right. split; [exact H1|]. intros j Hj. apply H2. lia.
Qed.

(*@E
(** RFC 4231, test case 2: HMAC of a text with the key "Jefe". *)
Example C121_nonce_ex :
  hmac_sha256 [74; 101; 102; 101] [119; 104; 97; 116; 32; 100; 111; 32; 121; 97; 32; 119; 97; 110; 116; 32; 102; 111; 114; 32; 110; 111; 116; 104; 105; 110; 103; 63] =
  to_be 32 0x5bdcc146bf60754e6a042426089575c75a003f089d2739839dec58b964ec3843.
Proof. vm_compute. reflexivity. Qed.
@*)

(*@T The secret key of the root account stands in the source. *)
Lemma p_C121_root_key :
  public_key ROOT_PRIVATE_ADDRESS = Some ROOT_PUBLIC_ADDRESS.
Proof. vm_compute. reflexivity. Qed.
