(** Property C123: hashes are the SHA-256 of the standard
    Only theorem statements (closed by [exact]), examples showing that their
    premises are met, and the assumptions of each theorem. *)
From Coq Require Import Lia ZifyBool ZifyNat ZifyN.
From Verif Require Import Base Sha256 Spec ShaSpec.
From Verif Require Import BaseFacts.
From Verif Require Import ShaProps.

(** C123: the hash function of the model is the one of the standard (FIPS 180-4): for every message of less than 2^61 bytes there is exactly one string the standard calls its
   SHA-256, and the model computes it. *)
Theorem C123_standard : forall m d, bytes_ok m -> N.of_nat (length m) < 2 ^ 61 -> (is_sha256 m d <-> d = sha256 m).
Proof. exact p_C123_standard. Qed.
Print Assumptions C123_standard.

(** C123: the numbers the constants are made from are the first 64 primes, in order. *)
Theorem C123_primes : length primes64 = 64%nat /\ (forall i, (i < 63)%nat -> nth i primes64 0 < nth (i + 1) primes64 0) /\
  forall p, p <= 311 -> (In p primes64 <-> 1 < p /\ forall d, (d | p) -> d = 1 \/ d = p).
Proof. exact p_C123_primes. Qed.
Print Assumptions C123_primes.

(** C123: two messages with the same SHA-256 give a collision of the compression function: two different pairs of eight and sixteen words that it maps to the same words. *)
Theorem C123_collision : forall m m', bytes_ok m -> bytes_ok m' -> N.of_nat (length m) < 2 ^ 61 -> N.of_nat (length m') < 2 ^ 61 -> collision m m' ->
  exists H M H' M' X, chaining H /\ chaining H' /\ sha_block M /\ sha_block M' /\ (H, M) <> (H', M') /\ follows H M X /\ follows H' M' X.
Proof. exact p_C123_collision. Qed.
Print Assumptions C123_collision.

(* "abc", the example of the standard *)
Example C123_ex : is_sha256 [97; 98; 99]
  [186; 120; 22; 191; 143; 1; 207; 234; 65; 65; 64; 222; 93; 174; 34; 35; 176; 3; 97; 163; 150; 23; 122; 156; 180; 16; 255; 97; 242; 0; 21; 173].
Proof. apply C123_standard; [repeat constructor|reflexivity|symmetry; exact sha256_abc]. Qed.
Example C123_ex_constants : root_bits 2 2 1779033703 /\ root_bits 3 2 1116352408 /\ ~ root_bits 3 2 1116352409.
Proof.
  assert (H : root_bits 3 2 1116352408) by (exact (sha_k_root 0 (le_n_S _ _ (le_0_n _)))).
  split; [exact (sha_iv_root 0 (le_n_S _ _ (le_0_n _)))|]. split; [exact H|]. intros X. pose proof (root_bits_det 3 2 _ _ ltac:(discriminate) H X) as Y. discriminate Y.
Qed.
(* the compression function has inputs and outputs *)
Example C123_ex_follows : exists H M X, chaining H /\ sha_block M /\ follows H M X /\ chaining X.
Proof.
  exists (lst sha_init), (words (repeat 0 64)), (lst (compress sha_init (repeat 0 64))).
  assert (B : sha_block (words (repeat 0 64))) by (apply words_block; [reflexivity|apply repeat_ok]).
  split; [split; [reflexivity|exact init_words]|]. split; [exact B|]. split; [exact (compress_follows _ _ init_words B)|]. split; [reflexivity|apply compress_words].
Qed.

