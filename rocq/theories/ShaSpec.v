(** SHA-256 as FIPS 180-4 describes it (sections 2.2, 4.1.2, 4.2.2, 5.1.1, 5.2.1, 5.3.3, 6.2), as relations.  Definitions only. *)
From Verif Require Import Base.

Definition word (x : N) : Prop := x < 2 ^ 32.
(** Addition modulo 2^32. *)
Definition sum32 (l : list N) : N := fold_right N.add 0 l mod 2 ^ 32.
Definition Shr (n x : N) : N := x / 2 ^ n.
Definition Rotr (n x : N) : N := x / 2 ^ n + (x mod 2 ^ n) * 2 ^ (32 - n).
(** Every bit of the result is that of [y] or that of [z], as the bit of [x] says. *)
Definition is_choice (x y z r : N) : Prop :=
  word r /\ forall i, i < 32 -> N.testbit r i = if N.testbit x i then N.testbit y i else N.testbit z i.
(** Every bit of the result is the one at least two of the three words have. *)
Definition is_majority (x y z r : N) : Prop :=
  word r /\ forall i, i < 32 -> N.testbit r i = if Bool.eqb (N.testbit x i) (N.testbit y i) then N.testbit x i else N.testbit z i.
Definition Sigma0 (x : N) : N := N.lxor (N.lxor (Rotr 2 x) (Rotr 13 x)) (Rotr 22 x).
Definition Sigma1 (x : N) : N := N.lxor (N.lxor (Rotr 6 x) (Rotr 11 x)) (Rotr 25 x).
Definition sigma0 (x : N) : N := N.lxor (N.lxor (Rotr 7 x) (Rotr 18 x)) (Shr 3 x).
Definition sigma1 (x : N) : N := N.lxor (N.lxor (Rotr 17 x) (Rotr 19 x)) (Shr 10 x).

(** The constants: the first 32 bits of the fractional part of the [e]-th root of [p]. *)
Definition root_bits (e p k : N) : Prop := exists m, m ^ e <= p * 2 ^ (32 * e) < (m + 1) ^ e /\ k = m mod 2 ^ 32.
Definition primes64 : list N :=
  [2; 3; 5; 7; 11; 13; 17; 19; 23; 29; 31; 37; 41; 43; 47; 53; 59; 61; 67; 71; 73; 79; 83; 89; 97; 101; 103; 107; 109; 113; 127; 131;
   137; 139; 149; 151; 157; 163; 167; 173; 179; 181; 191; 193; 197; 199; 211; 223; 227; 229; 233; 239; 241; 251; 257; 263; 269; 271; 277; 281; 283; 293; 307; 311].

(** One round with the constant [k] and the word [w]. *)
Definition round_of (k w : N) (s s' : list N) : Prop :=
  exists a b c d e f g h cho maj, s = [a; b; c; d; e; f; g; h] /\ is_choice e f g cho /\ is_majority a b c maj /\
    let t1 := sum32 [h; Sigma1 e; cho; k; w] in let t2 := sum32 [Sigma0 a; maj] in
    s' = [sum32 [t1; t2]; a; b; c; sum32 [d; t1]; e; f; g].
(** The 64 words made from the 16 words of a block. *)
Definition schedule_of (M W : list N) : Prop :=
  length W = 64%nat /\ firstn 16 W = M /\
  forall t, (16 <= t < 64)%nat -> nth t W 0 = sum32 [sigma1 (nth (t - 2) W 0); nth (t - 7) W 0; sigma0 (nth (t - 15) W 0); nth (t - 16) W 0].
(** The hash value [H'] computed from [H] and the block [M]; [S] lists the values of the eight variables. *)
Definition follows (H M H' : list N) : Prop :=
  exists W S, schedule_of M W /\ length S = 65%nat /\ nth 0 S [] = H /\
    (forall t, (t < 64)%nat -> exists k, root_bits 3 (nth t primes64 0) k /\ round_of k (nth t W 0) (nth t S []) (nth (t + 1) S [])) /\
    length H' = 8%nat /\ forall i, (i < 8)%nat -> nth i H' 0 = sum32 [nth i H 0; nth i (nth 64 S []) 0].
Definition initial (H : list N) : Prop := length H = 8%nat /\ forall i, (i < 8)%nat -> root_bits 2 (nth i primes64 0) (nth i H 0).

(** Big-endian words and bytes. *)
Fixpoint words (l : bytes) : list N :=
  match l with a :: b :: c :: d :: t => (a * 2 ^ 24 + b * 2 ^ 16 + c * 2 ^ 8 + d) :: words t | _ => [] end.
Definition be4 (x : N) : bytes := [x / 2 ^ 24; x / 2 ^ 16 mod 256; x / 2 ^ 8 mod 256; x mod 256].
Definition be8 (x : N) : bytes := be4 (x / 2 ^ 32) ++ be4 (x mod 2 ^ 32).

(** [P] is [m], the bit 1, as few bits 0 as possible to fill up blocks of 64 bytes, and the length of [m] in bits. *)
Definition padded (m P : bytes) : Prop :=
  exists z, (z < 64)%nat /\ P = m ++ [128] ++ repeat 0 z ++ be8 (8 * N.of_nat (length m)) /\ (length P mod 64 = 0)%nat.
(** [d] is the SHA-256 of [m]; [Hs] lists the hash values. *)
Definition is_sha256 (m d : bytes) : Prop :=
  exists P n Hs, padded m P /\ length P = (64 * n)%nat /\ length Hs = (n + 1)%nat /\ initial (nth 0 Hs []) /\
    (forall i, (i < n)%nat -> follows (nth i Hs []) (words (firstn 64 (skipn (64 * i) P))) (nth (i + 1) Hs [])) /\
    d = concat (map be4 (nth n Hs [])).

(** Inputs of the compression function. *)
Definition chaining (H : list N) : Prop := length H = 8%nat /\ Forall word H.
Definition sha_block (M : list N) : Prop := length M = 16%nat /\ Forall word M.
