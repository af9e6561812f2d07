(** Notions used in the theorems about which byte strings parsers accept.  Definitions only. *)
From Verif Require Import Base Transaction Block Spec.

(** [e] is a length byte followed by that many bytes (at most 32), big-endian for [v]; leading zeros are allowed. *)
Definition u256_code (e : bytes) (v : N) : Prop :=
  exists s, e = N.of_nat (length s) :: s /\ (length s <= 32)%nat /\ bytes_ok s /\ be_val s = v.
(** The same with no leading zeros. *)
Definition u256_minimal (e : bytes) (v : N) : Prop :=
  exists s, e = N.of_nat (length s) :: s /\ (length s <= 32)%nat /\ minimal_be v s.

(** [d] is laid out as transaction [t], the amount as [e]. *)
Definition tx_layout (d e : bytes) (t : transaction) : Prop :=
  d = tx_sender t ++ tx_receiver t ++ to_be 8 (tx_timestamp t) ++ tx_signature t ++ e ++ match tx_data t with Some x => x | None => [] end.
(** Header of a block, the height as [e]. *)
Definition info_layout (e : bytes) (i : basic_info) : bytes :=
  to_be 8 (bi_timestamp i) ++ bi_previous_hash i ++ bi_pow i ++ bi_difficulty i ++ bi_founder i ++ e.
(** Number of bytes that the parser of transaction blocks takes the code of height [h] to have: that of the minimal code, for zero one more. *)
Definition assumed_size (h : N) (k : nat) : Prop := exists s, minimal_be h s /\ k = S (Nat.max 1 (length s)).
