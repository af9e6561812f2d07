(** Crate secp256k1 0.29 (libsecp256k1), as far as transaction.rs:124-131 and :229-254 use it: secret and public keys, compact
    signatures, signing and verifying.  The repository calls the crate; this file models its documented behaviour (SEC 1, SEC 2,
    RFC 6979 without extra entropy, signatures with small s only) and takes the place of the oracle [ecdsa] of Transaction.v.
    The crate computes with other formulas and in constant time; only results are modelled.
    Model file: definitions only.  SecpTests.v compares it with published values. *)
From Coq Require Import ZArith.
From Verif Require Import Base Sha256 Transaction.

(** ** Arithmetic modulo numbers just below 2^256 *)

(** 2^256 - 1 *)
Definition ones256 : N := 115792089237316195423570985008687907853269984665640564039457584007913129639935.
(** [x mod m]: 2^256 is [2^256 - m] modulo [m]. *)
Definition fold_once (m x : N) : N := N.land x ones256 + (ones256 - m + 1) * N.shiftr x 256.
Definition reduce (m x : N) : N :=
  let y := fold_once m (fold_once m (fold_once m x)) in
  if y <? m then y else if y - m <? m then y - m else y mod m.
Definition m_add (m a b : N) : N := let c := a + b in if c <? m then c else reduce m c.
Definition m_sub (m a b : N) : N := if b <=? a then a - b else reduce m (a + (m - b mod m)).
Definition m_mul (m a b : N) : N := reduce m (a * b).
Fixpoint m_pow (m a : N) (e : positive) : N :=
  match e with
  | xH => a
  | xO e => let b := m_pow m a e in m_mul m b b
  | xI e => let b := m_pow m a e in m_mul m a (m_mul m b b)
  end.
(** Euclid's algorithm: the coefficient of the second number in the greatest common divisor.  600 divisions are enough for numbers of 256 bits. *)
Fixpoint bezout (fuel : nat) (r0 r1 : N) (t0 t1 : Z) : Z :=
  match fuel with
  | O => t0
  | S f =>
      if r1 =? 0 then t0
      else let (q, r2) := N.div_eucl r0 r1 in bezout f r1 r2 t1 (t0 - Z.of_N q * t1)
  end.
Definition m_inv (m a : N) : N := Z.to_N (bezout 600 m (reduce m a) 0 1 mod Z.of_N m).

(** ** The curve y^2 = x^3 + 7 *)
(* 2^256 - 2^32 - 977 *)
Definition field_size : N := 115792089237316195423570985008687907853269984665640564039457584007908834671663.
(* 2^256 - 432420386565659656852420866394968145599 *)
Definition group_size : N := 115792089237316195423570985008687907852837564279074904382605163141518161494337.
Definition gen_x : N := 55066263022277343669578718895168534326250603453777594175500187360389116729240.
Definition gen_y : N := 32670510020758816978083085130507043184471273380659243275938904335757337482424.
(** Jacobian coordinates: (X, Y, Z) with Z <> 0 is the point (X / Z^2, Y / Z^3), and Z = 0 the point at infinity. *)
Definition jpoint := (N * N * N)%type.
Definition j_zero : jpoint := (1, 1, 0).
Definition j_double (q : jpoint) : jpoint :=
  let mul := m_mul field_size in let add := m_add field_size in let sub := m_sub field_size in
  let '(x, y, z) := q in
  let a := mul x x in
  let b := mul y y in
  let c := mul b b in
  let xb := add x b in
  let d := let e := sub (sub (mul xb xb) a) c in add e e in
  let e := add (add a a) a in
  let x' := sub (sub (mul e e) d) d in
  let c2 := add c c in let c4 := add c2 c2 in
  let yz := mul y z in
  (x', sub (mul e (sub d x')) (add c4 c4), add yz yz).
(** [q] plus the point with affine coordinates [(u, v)] *)
Definition j_add (q : jpoint) (u v : N) : jpoint :=
  let mul := m_mul field_size in let add := m_add field_size in let sub := m_sub field_size in
  let '(x, y, z) := q in
  if z =? 0 then (u, v, 1)
  else
    let zz := mul z z in
    let h := sub (mul u zz) x in
    let r := sub (mul (mul v z) zz) y in
    if h =? 0 then if r =? 0 then j_double q else j_zero
    else
      let hh := mul h h in
      let hhh := mul h hh in
      let w := mul x hh in
      let x' := sub (sub (sub (mul r r) hhh) w) w in
      (x', sub (mul r (sub w x')) (mul y hhh), mul z h).
(** a G + b (u, v), over the lowest [n] bits of [a] and [b] *)
Fixpoint j_sum (n : nat) (a b u v : N) (q : jpoint) : jpoint :=
  match n with
  | O => q
  | S n =>
      let q := j_double q in
      let q := if N.testbit a (N.of_nat n) then j_add q gen_x gen_y else q in
      let q := if N.testbit b (N.of_nat n) then j_add q u v else q in
      j_sum n a b u v q
  end.
Definition affine (q : jpoint) : option (N * N) :=
  let '(x, y, z) := q in
  if z =? 0 then None
  else
    let i := m_inv field_size z in
    let ii := m_mul field_size i i in
    Some (m_mul field_size x ii, m_mul field_size y (m_mul field_size ii i)).

(** ** Keys *)
(** [SecretKey::from_slice] *)
Definition secp_seckey_ok (k : bytes) : bool :=
  Nat.eqb (length k) 32 && (0 <? from_be k) && (from_be k <? group_size).
(** [PublicKey::from_slice] of 33 bytes: a prefix for the parity of y, then x.  A square root of a square w is w^((p+1)/4). *)
Definition secp_point (k : bytes) : option (N * N) :=
  match k with
  | c :: t =>
      let x := from_be t in
      if Nat.eqb (length t) 32 && ((c =? 2) || (c =? 3)) && (x <? field_size) then
        let w := m_add field_size (m_mul field_size x (m_mul field_size x x)) 7 in
        let y := match (field_size + 1) / 4 with Npos e => m_pow field_size w e | N0 => 0 end in
        if m_mul field_size y y =? w
        then Some (x, if y mod 2 =? c mod 2 then y else m_sub field_size 0 y)
        else None
      else None
  | [] => None
  end.
Definition secp_pubkey_ok (k : bytes) : bool := match secp_point k with Some _ => true | None => false end.
(** [PublicKey::serialize] *)
Definition compressed (q : N * N) : bytes := (2 + snd q mod 2) :: to_be 32 (fst q).
(** [PublicKey::from_secret_key] *)
Definition public_key (k : bytes) : option bytes :=
  option_map compressed (affine (j_sum 256 (from_be k) 0 0 0 j_zero)).

(** ** Signatures *)
(** [Signature::from_compact] *)
Definition sig_r (s : bytes) : N := from_be (firstn 32 s).
Definition sig_s (s : bytes) : N := from_be (skipn 32 s).
Definition secp_sig_ok (s : bytes) : bool :=
  Nat.eqb (length s) 64 && (sig_r s <? group_size) && (sig_s s <? group_size).
(** [verify_ecdsa]: also refuses signatures whose s is above half the group size. *)
Definition secp_verify (digest sg key : bytes) : bool :=
  let r := sig_r sg in let s := sig_s sg in
  if (r =? 0) || (s =? 0) || (group_size / 2 <? s) then false
  else
    match secp_point key with
    | None => false
    | Some (u, v) =>
        let i := m_inv group_size s in
        let z := reduce group_size (from_be digest) in
        match affine (j_sum 256 (m_mul group_size z i) (m_mul group_size r i) u v j_zero) with
        | None => false
        | Some (x, _) => reduce group_size x =? r
        end
    end.

Definition pad_key (k : bytes) : bytes := k ++ repeat 0 (64 - length k).
Definition hmac (k m : bytes) : bytes :=
  let x c := map (fun b => N.lxor b c) (pad_key k) in
  sha256 (x 92 ++ sha256 (x 54 ++ m)).
(** One attempt to sign with the nonce [k]; [None]: another one is needed. *)
Definition sign_with (k z d : N) : option bytes :=
  if (k =? 0) || (group_size <=? k) then None
  else
    match affine (j_sum 256 k 0 0 0 j_zero) with
    | None => None
    | Some (x, _) =>
        let r := reduce group_size x in
        let s := m_mul group_size (m_inv group_size k) (m_add group_size z (m_mul group_size r d)) in
        if (r =? 0) || (s =? 0) then None
        else Some (to_be 32 r ++ to_be 32 (if group_size / 2 <? s then group_size - s else s))
    end.
(** RFC 6979, 3.2 h.  The loop of the crate has no bound; [fuel] ends it here. *)
Fixpoint sign_loop (fuel : nat) (k v : bytes) (z d : N) : bytes :=
  match fuel with
  | O => repeat 0 64
  | S f =>
      let v := hmac k v in
      match sign_with (from_be v) z d with
      | Some s => s
      | None => let k := hmac k (v ++ [0]) in sign_loop f k (hmac k v) z d
      end
  end.
(** [sign_ecdsa] *)
Definition secp_sign (digest key : bytes) : bytes :=
  let v := repeat 1 32 in
  let k := hmac (repeat 0 32) (v ++ [0] ++ key ++ digest) in
  let v := hmac k v in
  let k := hmac k (v ++ [1] ++ key ++ digest) in
  let v := hmac k v in
  sign_loop 1000 k v (reduce group_size (from_be digest)) (from_be key).

Definition secp256k1 : ecdsa := MkEcdsa secp_seckey_ok secp_pubkey_ok secp_sig_ok secp_sign secp_verify.

(** static_values.rs:35 *)
Definition ROOT_PRIVATE_ADDRESS : bytes := repeat 1 32.
