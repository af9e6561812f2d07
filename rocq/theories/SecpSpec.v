(** Notions for the theorems about signatures.  Definitions only. *)
From Coq Require Import ZArith.
From Verif Require Import Base Sha256 Transaction Secp.

(** The field of the curve, and its order (SEC 2, 2.4.1). *)
Definition field_prime : N := 2 ^ 256 - 2 ^ 32 - 977.
Definition curve_order : N := 0xFFFFFFFFFFFFFFFFFFFFFFFFFFFFFFFEBAAEDCE6AF48A03BBFD25E8CD0364141.
(** y^2 = x^3 + 7 *)
Definition on_curve (x y : N) : Prop := (y * y) mod field_prime = (x * x * x + 7) mod field_prime.
(** The same for (X / Z^2, Y / Z^3), without division; holds of the point at infinity when Y^2 = X^3. *)
Definition j_on_curve (q : N * N * N) : Prop :=
  let '(x, y, z) := q in (y * y) mod field_prime = (x * x * x + 7 * (z * z * z * z * z * z)) mod field_prime.
(** Equal modulo the prime. *)
Definition same (a b : Z) : Prop := (Z.of_N field_prime | a - b)%Z.
(** The third point on the line through two points, mirrored: the sum of two points with different x. *)
Definition chord (x1 y1 x2 y2 x3 y3 : Z) : Prop :=
  exists l, (same (l * (x2 - x1)) (y2 - y1) /\ same x3 (l * l - x1 - x2) /\ same y3 (l * (x1 - x3) - y1))%Z.
(** The same for the tangent in one point. *)
Definition tangent (x1 y1 x3 y3 : Z) : Prop :=
  exists l, (same (l * (2 * y1)) (3 * x1 * x1) /\ same x3 (l * l - x1 - x1) /\ same y3 (l * (x1 - x3) - y1))%Z.
(** A triple stands for a point. *)
Definition represents (q : N * N * N) (x y : Z) : Prop :=
  let '(a, b, c) := q in
  (~ same (Z.of_N c) 0 /\ same (Z.of_N a) (x * Z.of_N c * Z.of_N c)
  /\ same (Z.of_N b) (y * Z.of_N c * Z.of_N c * Z.of_N c))%Z.
(** 33 bytes for a point: whether y is odd, and x (SEC 1, 2.3.3). *)
Definition encoding (x y : N) : bytes := (if N.even y then 2 else 3) :: to_be 32 x.

(** The first and the second number in a signature of 64 bytes. *)
Definition first_half (s : bytes) : N := from_be (firstn 32 s).
Definition second_half (s : bytes) : N := from_be (skipn 32 s).
(** A signature in the only form that counts: both numbers are there, and the second is the smaller one of s and -s. *)
Definition low_signature (s : bytes) : Prop :=
  is_array 64 s /\ 0 < first_half s < curve_order /\ 0 < second_half s /\ 2 * second_half s < curve_order.
(** The other solution of the equation of ECDSA. *)
Definition negated (s : bytes) : bytes := firstn 32 s ++ to_be 32 (curve_order - second_half s).
Definition with_signature (t : transaction) (s : bytes) : transaction :=
  MkTx (tx_sender t) (tx_receiver t) (tx_timestamp t) s (tx_amount t) (tx_data t) (tx_hash t).

(** HMAC with SHA-256, for keys of at most 64 bytes (RFC 2104). *)
Definition hmac_sha256 (key text : bytes) : bytes :=
  let key := key ++ repeat 0 (64 - length key) in
  sha256 (map (N.lxor 0x5c) key ++ sha256 (map (N.lxor 0x36) key ++ text)).
(** K and V after [n] refused candidates (RFC 6979, 3.2, b to h), and the candidate that follows. *)
Fixpoint nonce_state (digest key : bytes) (n : nat) : bytes * bytes :=
  match n with
  | O =>
      let k := hmac_sha256 (repeat 0 32) (repeat 1 32 ++ [0] ++ key ++ digest) in
      let v := hmac_sha256 k (repeat 1 32) in
      let k := hmac_sha256 k (v ++ [1] ++ key ++ digest) in
      (k, hmac_sha256 k v)
  | S n =>
      let (k, v) := nonce_state digest key n in
      let v := hmac_sha256 k v in
      let k := hmac_sha256 k (v ++ [0]) in
      (k, hmac_sha256 k v)
  end.
Definition nonce (digest key : bytes) (n : nat) : N := let (k, v) := nonce_state digest key n in from_be (hmac_sha256 k v).
(** [sg] is the signature of the digest with the nonce [k] (SEC 1, 4.1.3), made small. *)
Definition signature_with (digest key : bytes) (k : N) (sg : bytes) : Prop :=
  0 < k < curve_order /\ exists x y s,
    affine (j_sum 256 k 0 0 0 j_zero) = Some (x, y) /\ x mod curve_order <> 0 /\ 0 < s < curve_order
    /\ (s * k) mod curve_order = (from_be digest + x mod curve_order * from_be key) mod curve_order
    /\ sg = to_be 32 (x mod curve_order) ++ to_be 32 (N.min s (curve_order - s)).
