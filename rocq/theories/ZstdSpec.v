(** What is asked of a codec.  Definitions only. *)
From Verif Require Import Base Zstd.

(** What was encoded is decoded again. *)
Definition codec_ok (Z : zstd) : Prop := forall d, bytes_ok d -> z_decode Z (z_encode Z d) = Some d.
(** Encodings cut short are not decoded. *)
Definition cut_refused (Z : zstd) : Prop :=
  forall d n, bytes_ok d -> (n < length (z_encode Z d))%nat -> z_decode Z (firstn n (z_encode Z d)) = None.

(** A codec with both properties: a 1 before every byte, a 0 at the end. *)
Fixpoint toy_encode (d : bytes) : bytes := match d with [] => [0] | b :: d => 1 :: b :: toy_encode d end.
Fixpoint toy_decode (c : bytes) : option bytes :=
  match c with
  | [0] => Some []
  | 1 :: b :: c => match toy_decode c with Some d => Some (b :: d) | None => None end
  | _ => None
  end.
Definition toy_codec : zstd := MkZstd toy_encode toy_decode.
