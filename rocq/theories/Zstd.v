(** Model of [compress_to_file] and [decompress_from_file] (src/tools.rs:148-187).  The codec of crate zstd is external: a pair of
    functions about which nothing is assumed except in theorems that say so.  Every file operation can fail (Io.v's faults): creating the file may
    have emptied it before failing, a failing write has written some prefix.
    Simplifications: the encoder writes the encoding to the file in pieces of its own choice, the list [pieces]; which of them come from [write_all]
    (:157-159) and which from [finish] (:161-163) does not matter, as both report errors alike; an encoder dropped without [finish] writes nothing more.
    Model file: definitions only. *)
From Verif Require Import Base Sled Io.

Record zstd := MkZstd {
  z_encode : bytes -> bytes;         (* zstd::Encoder at level 1 *)
  z_decode : bytes -> option bytes   (* zstd::Decoder: [read_to_end], [None]: an error *)
}.

(** errors.rs: [ToolsError::Zstd(CompressingFile)], [ToolsError::Zstd(DecompressingFile)] *)
Inductive zerror := ZCompressing | ZDecompressing.
Inductive zout (A : Type) := ZOk (a : A) | ZErr (e : zerror).
Arguments ZOk {A} a.
Arguments ZErr {A} e.

(** tools.rs:157-163: the writes of the encoder; the first failure ends the call. *)
Fixpoint write_pieces (pieces : list bytes) (fs : list fault) (f : file) : file * zout unit :=
  match pieces with
  | [] => (f, ZOk tt)
  | d :: pieces =>
      match next_fault fs with
      | Fails k => (file_append (firstn k d) f, ZErr ZCompressing)
      | Fine => write_pieces pieces (tl fs) (file_append d f)
      end
  end.
(** tools.rs:148-166 [compress_to_file]: create or empty the file, make an encoder, write. *)
Definition compress_to_file (pieces : list bytes) (fs : list fault) (f : file) : file * zout unit :=
  match next_fault fs with
  | Fails O => (f, ZErr ZCompressing)
  | Fails (S _) => (file_truncate f, ZErr ZCompressing)
  | Fine =>
      match next_fault (tl fs) with
      | Fails _ => (file_truncate f, ZErr ZCompressing)
      | Fine => write_pieces pieces (tl (tl fs)) (file_truncate f)
      end
  end.
(** tools.rs:168-187 [decompress_from_file]: open, make a decoder, read. *)
Definition decompress_from_file (Z : zstd) (fs : list fault) (f : file) : zout bytes :=
  match nth 0 fs Fine, nth 1 fs Fine, nth 2 fs Fine, file_cur f with
  | Fine, Fine, Fine, Some c => match z_decode Z c with Some d => ZOk d | None => ZErr ZDecompressing end
  | _, _, _, _ => ZErr ZDecompressing
  end.
