(** Property C121: keys and signatures (secp256k1)
    Only theorem statements (closed by [exact]), examples showing that their
    premises are met, and the assumptions of each theorem. *)
From Coq Require Import Lia ZifyBool ZifyNat ZifyN ZArith Setoid Morphisms Znumtheory Ring.
From Verif Require Import Base BaseFacts Sha256 Transaction Tools Secp SecpSpec Primes SecpPrimes.
Local Open Scope Z_scope.
Local Open Scope N_scope.
From Verif Require Import SecpProps.

(** The field of the curve has prime order. *)
Theorem C121_prime : prime (Z.of_N field_prime).
Proof. exact p_C121_prime. Qed.
Print Assumptions C121_prime.

(** The arithmetic of the model is arithmetic modulo m; by a prime, [m_inv] divides. *)
Theorem C121_arithmetic :
  forall m a b e, 0 < m < 2 ^ 256 ->
    m_add m a b = (a + b) mod m
    /\ m_mul m a b = (a * b) mod m
    /\ (m_sub m a b + b) mod m = a mod m
    /\ m_pow m a e mod m = a ^ N.pos e mod m
    /\ (prime (Z.of_N m) -> a mod m <> 0 -> (m_inv m a * a) mod m = 1).
Proof. exact p_C121_arithmetic. Qed.
Print Assumptions C121_arithmetic.

Example C121_arithmetic_ex : m_inv 7 3 = 5 /\ m_mul 7 5 3 = 1 /\ m_sub 7 2 5 = 4 /\ m_pow 7 3 6 = 1.
Proof. vm_compute. repeat split; reflexivity. Qed.

(** Doubling and adding are the tangent and the chord construction, with the usual cases for equal and opposite points and for the point at infinity. *)
Theorem C121_addition :
  forall q x1 y1 u v x3 y3, represents q x1 y1 ->
    (~ same y1 0 -> tangent x1 y1 x3 y3 -> represents (j_double q) x3 y3)
    /\ (~ same x1 (Z.of_N u) -> chord x1 y1 (Z.of_N u) (Z.of_N v) x3 y3 -> represents (j_add q u v) x3 y3)
    /\ (same x1 (Z.of_N u) -> same y1 (Z.of_N v) -> j_add q u v = j_double q)
    /\ (same x1 (Z.of_N u) -> ~ same y1 (Z.of_N v) -> j_add q u v = j_zero)
    /\ represents (j_add j_zero u v) (Z.of_N u) (Z.of_N v).
Proof. exact p_C121_addition. Qed.
Print Assumptions C121_addition.

(** Twice and three times the base point. *)
Example C121_addition_ex :
  let x2 := 89565891926547004231252920425935692360644145829622209833684329913297188986597%Z in
  let y2 := 12158399299693830322967808612713398636155367887041628176798871954788371653930%Z in
  let x3 := 112711660439710606056748659173929673102114977341539408544630613555209775888121%Z in
  let y3 := 25583027980570883691656905877401976406448868254816295069919888960541586679410%Z in
  represents (gen_x, gen_y, 1) (Z.of_N gen_x) (Z.of_N gen_y)
  /\ represents (j_double (gen_x, gen_y, 1)) x2 y2
  /\ represents (j_add (j_double (gen_x, gen_y, 1)) gen_x gen_y) x3 y3.
Proof.
  cbv zeta.
  assert (H1 : represents (gen_x, gen_y, 1) (Z.of_N gen_x) (Z.of_N gen_y)).
  { split; [|split].
    - intros [k H]. revert H. clear. intros H. apply (f_equal (fun z => Z.modulo z (Z.of_N field_prime))) in H.
      rewrite Z_mod_mult in H. vm_compute in H. discriminate H.
    - exists 0%Z. vm_compute. reflexivity.
    - exists 0%Z. vm_compute. reflexivity. }
  assert (Hd : forall a b, Z.modulo (a - b) (Z.of_N field_prime) = 0%Z -> same a b).
  { intros a b H. apply Z.mod_divide; [vm_compute; discriminate|exact H]. }
  assert (Hn : forall a b, Z.modulo (a - b) (Z.of_N field_prime) <> 0%Z -> ~ same a b).
  { intros a b H H'. apply H. apply Z.mod_divide; [vm_compute; discriminate|exact H']. }
  split; [exact H1|].
  assert (H2 : represents (j_double (gen_x, gen_y, 1))
    89565891926547004231252920425935692360644145829622209833684329913297188986597
    12158399299693830322967808612713398636155367887041628176798871954788371653930).
  { apply (proj1 (C121_addition _ _ _ 0 0 _ _ H1)).
    - apply Hn. vm_compute. discriminate.
    - exists 91914383230618135761690975197207778399550061809281766160147273830617914855857%Z.
      repeat split; apply Hd; vm_compute; reflexivity. }
  split; [exact H2|].
  apply (proj1 (proj2 (C121_addition _ _ _ _ _ _ _ H2))).
  - apply Hn. vm_compute. discriminate.
  - exists 23578750110654438173404407907450265080473019639451825850605815020978465167024%Z.
    repeat split; apply Hd; vm_compute; reflexivity.
Qed.

(** Sums of multiples of the base point and of a point of the curve are on the curve. *)
Theorem C121_curve :
  forall a b u v x y, on_curve u v -> affine (j_sum 256 a b u v j_zero) = Some (x, y) ->
    on_curve x y /\ x < field_prime /\ y < field_prime.
Proof. exact p_C121_curve. Qed.
Print Assumptions C121_curve.

Example C121_curve_ex : on_curve gen_x gen_y /\ affine (j_sum 256 1 1 gen_x gen_y j_zero) =
  Some (89565891926547004231252920425935692360644145829622209833684329913297188986597,
        12158399299693830322967808612713398636155367887041628176798871954788371653930).
Proof. split; vm_compute; reflexivity. Qed.

(** Keys and points of the curve correspond: 33 bytes are accepted as a key exactly if they encode a point, and every point is the reading of its encoding. *)
Theorem C121_keys :
  forall k x y, bytes_ok k ->
    (secp_point k = Some (x, y) <-> on_curve x y /\ x < field_prime /\ y < field_prime /\ k = encoding x y).
Proof. exact p_C121_keys. Qed.
Print Assumptions C121_keys.

Example C121_keys_ex : secp_point (encoding gen_x gen_y) = Some (gen_x, gen_y) /\ bytes_ok (encoding gen_x gen_y)
  /\ secp_point (repeat 0 33) = None /\ secp_point (2 :: repeat 255 32) = None.
Proof.
  assert (H : bytes_ok (encoding gen_x gen_y)) by (vm_compute; repeat constructor).
  split; [|split; [exact H|split; vm_compute; reflexivity]].
  apply (C121_keys _ _ _ H). repeat split; vm_compute; reflexivity.
Qed.

(** Whatever the secret number, the key computed from it is the encoding of a point, and is accepted. *)
Theorem C121_public :
  forall s k, public_key s = Some k ->
    is_array 33 k /\ secp_pubkey_ok k = true
    /\ exists x y, k = encoding x y /\ on_curve x y /\ x < field_prime /\ y < field_prime.
Proof. exact p_C121_public. Qed.
Print Assumptions C121_public.

(** A signature that is accepted for a key: the key is a point of the curve; the signature consists of two numbers in range, the second one the smaller of s and -s, the first one the x coordinate of another point. *)
Theorem C121_verified :
  forall d s k, is_array 64 s -> bytes_ok k -> sig_ok secp256k1 s = true -> ecdsa_verify secp256k1 d s k = true ->
    low_signature s
    /\ (exists x y, k = encoding x y /\ on_curve x y /\ x < field_prime /\ y < field_prime)
    /\ (exists x y, on_curve x y /\ x < field_prime /\ y < field_prime /\ x mod curve_order = first_half s).
Proof. exact p_C121_verified. Qed.
Print Assumptions C121_verified.

(** A signature of 4 r by the base point, s and r being the x coordinate of its fivefold. *)
Example C121_verified_ex :
  let r := 21505829891763648114329055987619236494102133314575206970830385799158076338148 in
  let s := to_be 32 r ++ to_be 32 r in
  is_array 64 s /\ bytes_ok (encoding gen_x gen_y) /\ sig_ok secp256k1 s = true
  /\ ecdsa_verify secp256k1 (to_be 32 (4 * r mod curve_order)) s (encoding gen_x gen_y) = true.
Proof.
  cbv zeta. split; [split; [vm_compute; reflexivity|vm_compute; repeat constructor]|].
  assert (H : bytes_ok (encoding gen_x gen_y)) by (vm_compute; repeat constructor).
  split; [exact H|]. split; [vm_compute; reflexivity|].
  assert (E : secp_point (encoding gen_x gen_y) = Some (gen_x, gen_y)).
  { apply (C121_keys _ _ _ H). repeat split; vm_compute; reflexivity. }
  cbn [ecdsa_verify secp256k1]. unfold secp_verify. rewrite E. vm_compute. reflexivity.
Qed.

(** The order of the curve is prime. *)
Theorem C121_order : prime (Z.of_N curve_order).
Proof. exact p_C121_order. Qed.
Print Assumptions C121_order.

(** The equation of ECDSA: a signature (r, s) in the form above is accepted for a digest z and a key Q exactly if r is the x coordinate, modulo the order n, of a G + b Q for the a and b below n with a s = z and b s = r modulo n. *)
Theorem C121_equation :
  forall d s x y, low_signature s -> on_curve x y -> x < field_prime -> y < field_prime ->
    (ecdsa_verify secp256k1 d s (encoding x y) = true <->
     exists a b X Y, a < curve_order /\ b < curve_order
       /\ (a * second_half s) mod curve_order = from_be d mod curve_order
       /\ (b * second_half s) mod curve_order = first_half s
       /\ affine (j_sum 256 a b x y j_zero) = Some (X, Y) /\ X mod curve_order = first_half s).
Proof. exact p_C121_equation. Qed.
Print Assumptions C121_equation.

(** 5 G, from the digest 4 r and the key G: a = 4, b = 1 when s = r. *)
Example C121_equation_ex :
  let r := 21505829891763648114329055987619236494102133314575206970830385799158076338148 in
  (4 * r) mod curve_order = from_be (to_be 32 (4 * r mod curve_order)) mod curve_order /\ (1 * r) mod curve_order = r /\ low_signature (to_be 32 r ++ to_be 32 r) /\
  on_curve gen_x gen_y /\ gen_x < field_prime /\ gen_y < field_prime /\ exists y, affine (j_sum 256 4 1 gen_x gen_y j_zero) = Some (r, y).
Proof.
  cbv zeta. do 2 (split; [vm_compute; reflexivity|]). split; [split; [split; [reflexivity|vm_compute; repeat constructor]|vm_compute; repeat split; reflexivity]|].
  do 3 (split; [vm_compute; reflexivity|]). eexists. vm_compute. reflexivity.
Qed.

(** The same for the sender and the signature of a transaction that [verify] accepts (SecpTests.v has one). *)
Theorem C121_accepted :
  forall t, bytes_ok (tx_sender t) -> is_array 64 (tx_signature t) -> tx_verify secp256k1 t = Ok true ->
    low_signature (tx_signature t)
    /\ (exists x y, tx_sender t = encoding x y /\ on_curve x y /\ x < field_prime /\ y < field_prime)
    /\ (exists x y, on_curve x y /\ x < field_prime /\ y < field_prime
          /\ x mod curve_order = first_half (tx_signature t)).
Proof. exact p_C121_accepted. Qed.
Print Assumptions C121_accepted.

(** Nobody can change an accepted signature to the other one that solves the same equation: [verify] answers false. *)
Theorem C121_other_signature :
  forall t, bytes_ok (tx_sender t) -> is_array 64 (tx_signature t) -> tx_verify secp256k1 t = Ok true ->
    tx_verify secp256k1 (with_signature t (negated (tx_signature t))) = Ok false.
Proof. exact p_C121_other_signature. Qed.
Print Assumptions C121_other_signature.

(** Which secret keys a transaction can be made with: the numbers above 0 and below the order of the curve.  With any other 32 bytes the constructor returns its error. *)
Theorem C121_secret_keys :
  forall sender receiver ts amount key data, length key = 32%nat ->
    ((exists t, tx_new secp256k1 sender receiver ts amount key data = Ok t) <-> 0 < from_be key < curve_order)
    /\ (tx_new secp256k1 sender receiver ts amount key data = Err ETxParse <-> from_be key = 0 \/ curve_order <= from_be key).
Proof. exact p_C121_secret_keys. Qed.
Print Assumptions C121_secret_keys.

Example C121_secret_keys_ex : length (to_be 32 curve_order) = 32%nat /\ from_be (to_be 32 curve_order) = curve_order /\ from_be (to_be 32 (curve_order - 1)) = curve_order - 1 /\
  tx_new secp256k1 (repeat 2 33) (repeat 2 33) 0 0 (repeat 0 32) None = Err ETxParse /\ tx_new secp256k1 (repeat 2 33) (repeat 2 33) 0 0 (to_be 32 curve_order) None = Err ETxParse /\
  exists t, tx_new secp256k1 (repeat 2 33) (repeat 2 33) 0 0 (to_be 32 (curve_order - 1)) None = Ok t.
Proof.
  do 3 (split; [vm_compute; reflexivity|]). split; [apply C121_secret_keys; [reflexivity|left; vm_compute; reflexivity]|].
  split; [apply C121_secret_keys; [reflexivity|right; vm_compute; discriminate]|]. apply C121_secret_keys; [reflexivity|split; vm_compute; reflexivity].
Qed.

(** When [verify] refuses to answer: the sender encodes no point of the curve, or a number of the signature is not below the order of the curve.  Otherwise it answers true or false. *)
Theorem C121_refused :
  forall t, bytes_ok (tx_sender t) -> length (tx_signature t) = 64%nat ->
    (tx_verify secp256k1 t = Err ETxVerify <->
       (forall x y, on_curve x y -> x < field_prime -> y < field_prime -> tx_sender t <> encoding x y)
       \/ curve_order <= first_half (tx_signature t) \/ curve_order <= second_half (tx_signature t))
    /\ (tx_verify secp256k1 t = Err ETxVerify \/ exists b, tx_verify secp256k1 t = Ok b).
Proof. exact p_C121_refused. Qed.
Print Assumptions C121_refused.

Example C121_refused_ex :
  let t k r s := MkTx k (repeat 2 33) 0 (to_be 32 r ++ to_be 32 s) 0 None (repeat 0 32) in
  tx_verify secp256k1 (t (repeat 0 33) 1 1) = Err ETxVerify /\ tx_verify secp256k1 (t (2 :: repeat 255 32) 1 1) = Err ETxVerify /\
  tx_verify secp256k1 (t (encoding gen_x gen_y) curve_order 1) = Err ETxVerify /\ tx_verify secp256k1 (t (encoding gen_x gen_y) 1 curve_order) = Err ETxVerify /\
  tx_verify secp256k1 (t (encoding gen_x gen_y) 0 1) = Ok false /\ tx_verify secp256k1 (t (encoding gen_x gen_y) 1 (curve_order - 1)) = Ok false.
Proof.
  cbv zeta. assert (H : bytes_ok (encoding gen_x gen_y)) by (vm_compute; repeat constructor).
  assert (E : secp_point (encoding gen_x gen_y) = Some (gen_x, gen_y)) by (apply (C121_keys _ _ _ H); repeat split; vm_compute; reflexivity).
  assert (F : forall s, secp_sig_ok s = true -> (sig_r s =? 0) || (group_size / 2 <? sig_s s) = true ->
    tx_verify secp256k1 (MkTx (encoding gen_x gen_y) (repeat 2 33) 0 s 0 None (repeat 0 32)) = Ok false).
  { intros s H1 H2. unfold tx_verify. cbn [tx_sender tx_signature secp256k1 pubkey_ok sig_ok ecdsa_verify]. unfold secp_pubkey_ok. rewrite E, H1. cbn [negb]. unfold secp_verify. cbv zeta. apply orb_prop in H2.
    destruct H2 as [H2|H2]; rewrite H2; rewrite ?orb_true_r; reflexivity. }
  split; [reflexivity|]. split; [reflexivity|].
  split; [apply C121_refused; [exact H|reflexivity|right; left; vm_compute; discriminate]|]. split; [apply C121_refused; [exact H|reflexivity|right; right; vm_compute; discriminate]|].
  split; apply F; vm_compute; reflexivity.
Qed.

(** Signing yields a signature of the form that [verify] asks for (or, in the model, no signature: a thousand nonces were refused). *)
Theorem C121_signing :
  forall digest key, secp_sign digest key = repeat 0 64 \/ low_signature (secp_sign digest key).
Proof. exact p_C121_signing. Qed.
Print Assumptions C121_signing.

Example C121_signing_ex : repeat 0 64 <> to_be 32 1 ++ to_be 32 1 /\ low_signature (to_be 32 1 ++ to_be 32 1).
Proof. split; [vm_compute; discriminate|]. split; [split; [reflexivity|vm_compute; repeat constructor]|]. vm_compute. repeat split; reflexivity. Qed.

(** Signing is that of SEC 1 with the nonces of RFC 6979: the first candidate that gives a signature is taken (or, in the model, a thousand candidates gave none). *)
Theorem C121_nonce :
  forall digest key,
    (exists m, (m < 1000)%nat /\ signature_with digest key (nonce digest key m) (secp_sign digest key)
       /\ forall j, (j < m)%nat -> forall s, ~ signature_with digest key (nonce digest key j) s)
    \/ (secp_sign digest key = repeat 0 64 /\ forall j, (j < 1000)%nat -> forall s, ~ signature_with digest key (nonce digest key j) s).
Proof. exact p_C121_nonce. Qed.
Print Assumptions C121_nonce.

(** RFC 4231, test case 2: HMAC of a text with the key "Jefe". *)
Example C121_nonce_ex :
  hmac_sha256 [74; 101; 102; 101] [119; 104; 97; 116; 32; 100; 111; 32; 121; 97; 32; 119; 97; 110; 116; 32; 102; 111; 114; 32; 110; 111; 116; 104; 105; 110; 103; 63] =
  to_be 32 0x5bdcc146bf60754e6a042426089575c75a003f089d2739839dec58b964ec3843.
Proof. vm_compute. reflexivity. Qed.

(** The secret key of the root account stands in the source. *)
Theorem C121_root_key :
  public_key ROOT_PRIVATE_ADDRESS = Some ROOT_PUBLIC_ADDRESS.
Proof. exact p_C121_root_key. Qed.
Print Assumptions C121_root_key.

