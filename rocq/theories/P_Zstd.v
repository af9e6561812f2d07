(** Property C108: compressed files.
    Only theorem statements (closed by [exact]), examples showing that their
    premises are met, and the assumptions of each theorem. *)
From Coq Require Import Lia ZifyBool ZifyNat ZifyN.
From Verif Require Import Base Sled Io Zstd ZstdSpec SledFacts.
From Verif Require Import ZstdProps.

(** What was compressed is decompressed again, when nothing fails. *)
Theorem C108_roundtrip : forall Z data pieces f, codec_ok Z -> bytes_ok data -> concat pieces = z_encode Z data ->
  exists f', compress_to_file pieces [] f = (f', ZOk tt) /\ decompress_from_file Z [] f' = ZOk data.
Proof. exact p_C108_roundtrip. Qed.
Print Assumptions C108_roundtrip.

(** Whatever operations fail: when compressing reports success the file holds the whole encoding, and decompressing it gives the data or an error. *)
Theorem C108_success : forall Z data pieces fs f f', codec_ok Z -> bytes_ok data -> concat pieces = z_encode Z data ->
  compress_to_file pieces fs f = (f', ZOk tt) ->
  file_cur f' = Some (z_encode Z data) /\
  forall fs', decompress_from_file Z fs' f' = ZOk data \/ decompress_from_file Z fs' f' = ZErr ZDecompressing.
Proof. exact p_C108_success. Qed.
Print Assumptions C108_success.

(** Decompressing succeeds exactly when opening, making the decoder and reading all succeed and the codec decodes the content. *)
Theorem C108_decompress : forall Z fs f d, decompress_from_file Z fs f = ZOk d <->
  nth 0 fs Fine = Fine /\ nth 1 fs Fine = Fine /\ nth 2 fs Fine = Fine /\ exists c, file_cur f = Some c /\ z_decode Z c = Some d.
Proof. exact p_C108_decompress. Qed.
Print Assumptions C108_decompress.

(** With a codec that refuses encodings cut short: whatever operations fail, and whenever the machine stops afterwards with part of the writes on
    disk, decompressing gives the new data, what one of the earlier contents of the file gives, or an error - never anything else. *)
Theorem C108_never_wrong : forall Z data pieces fs f n fs', codec_ok Z -> cut_refused Z -> bytes_ok data -> concat pieces = z_encode Z data ->
  let g := file_crash n (fst (compress_to_file pieces fs f)) in
  decompress_from_file Z fs' g = ZOk data \/ decompress_from_file Z fs' g = ZErr ZDecompressing \/
  exists c, In (Some c) (f_dur f :: f_pend f) /\ file_cur g = Some c.
Proof. exact p_C108_never_wrong. Qed.
Print Assumptions C108_never_wrong.

(** Refuted: "a failed compression leaves the earlier file readable".  The file is emptied before anything is written to it. *)
Theorem C108_earlier_lost_refuted : ~ forall Z d0 data pieces pieces' fs f f', codec_ok Z -> cut_refused Z -> bytes_ok d0 -> bytes_ok data ->
  concat pieces' = z_encode Z d0 -> concat pieces = z_encode Z data -> compress_to_file pieces' [] f = (f', ZOk tt) ->
  snd (compress_to_file pieces fs f') = ZErr ZCompressing -> decompress_from_file Z [] (fst (compress_to_file pieces fs f')) = ZOk d0.
Proof. exact p_C108_earlier_lost_refuted. Qed.
Print Assumptions C108_earlier_lost_refuted.

(** Refuted: "decompressing gives the data that was compressed last": without the second property of the codec a crash can leave a part that is decoded. *)
Theorem C108_cut_refuted : ~ forall Z data pieces fs f n, codec_ok Z -> bytes_ok data -> concat pieces = z_encode Z data -> f = file_absent ->
  let g := file_crash n (fst (compress_to_file pieces fs f)) in
  decompress_from_file Z [] g = ZOk data \/ decompress_from_file Z [] g = ZErr ZDecompressing.
Proof. exact p_C108_cut_refuted. Qed.
Print Assumptions C108_cut_refuted.

(** The codec that puts a 1 before every byte and a 0 at the end has both properties.  Written in two pieces it is read back; cut by a failing write or by a
    crash it is refused. *)
Example C108_ex : codec_ok toy_codec /\ cut_refused toy_codec /\
  let f := fst (compress_to_file [[1; 7; 1]; [8; 0]] [] file_absent) in
  decompress_from_file toy_codec [] f = ZOk [7; 8] /\
  decompress_from_file toy_codec [] (fst (compress_to_file [[1; 7; 1]; [8; 0]] [Fine; Fine; Fine; Fails 1] file_absent)) = ZErr ZDecompressing /\
  decompress_from_file toy_codec [] (file_crash 2 f) = ZErr ZDecompressing /\ decompress_from_file toy_codec [] (file_crash 3 f) = ZOk [7; 8].
Proof. split; [exact toy_ok|]. split; [exact toy_cut|]. repeat split; vm_compute; reflexivity. Qed.

