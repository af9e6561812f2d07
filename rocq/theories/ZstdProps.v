(** The compressed files. *)
From Coq Require Import Lia ZifyBool ZifyNat ZifyN.
From Verif Require Import Base Sled Io Zstd ZstdSpec SledFacts.

Lemma toy_ok : codec_ok toy_codec.
Proof. intros d _. induction d as [|b d IH]; [reflexivity|]. cbn in *. rewrite IH. reflexivity. Qed.
Lemma toy_cut : cut_refused toy_codec.
Proof.
  intros d n _. cbn. revert n. induction d as [|b d IH]; intros n Hn; cbn in *.
  - assert (n = 0%nat) by lia. subst. reflexivity.
  - destruct n as [|[|n]]; [reflexivity|reflexivity|]. cbn. rewrite IH by lia. reflexivity.
Qed.

Lemma cur_append d f : file_cur (file_append d f) = Some (match file_cur f with Some c => c | None => [] end ++ d).
Proof. unfold file_cur at 1. cbn [file_append f_pend f_dur]. apply last_last. Qed.
Lemma cur_truncate f : file_cur (file_truncate f) = Some [].
Proof. unfold file_cur. cbn [file_truncate f_pend f_dur]. apply last_last. Qed.
Lemma write_ok pieces : forall fs f c f', file_cur f = Some c -> write_pieces pieces fs f = (f', ZOk tt) -> file_cur f' = Some (c ++ concat pieces).
Proof.
  induction pieces as [|d pieces IH]; intros fs f c f' Hc E; cbn [write_pieces concat] in *.
  - injection E as <-. rewrite app_nil_r. exact Hc.
  - destruct (next_fault fs); [|discriminate E]. eapply IH in E; [|rewrite cur_append, Hc; reflexivity]. rewrite <- app_assoc in E. exact E.
Qed.
Lemma write_fine pieces : forall f, snd (write_pieces pieces [] f) = ZOk tt.
Proof. induction pieces as [|d pieces IH]; intros f; cbn [write_pieces next_fault tl]; [reflexivity|apply IH]. Qed.

(** Every content the file can have: as before, or a prefix of the encoding. *)
Definition prefix (x w : bytes) : Prop := exists n, x = firstn n w.
Lemma prefix_app x y : prefix x (x ++ y).
Proof. exists (length x). rewrite firstn_app, Nat.sub_diag, firstn_all. cbn. rewrite app_nil_r. reflexivity. Qed.
Lemma prefix_more x y k : prefix (x ++ firstn k y) (x ++ y).
Proof. exists (length x + k)%nat. rewrite firstn_app_2. reflexivity. Qed.
Definition within (old : list (option bytes)) (w : bytes) (o : option bytes) : Prop := In o old \/ exists x, o = Some x /\ prefix x w.
Definition contents (f : file) : list (option bytes) := f_dur f :: f_pend f.
Lemma within_append old w f c d : (forall o, In o (contents f) -> within old w o) -> file_cur f = Some c -> prefix (c ++ d) w ->
  forall o, In o (contents (file_append d f)) -> within old w o.
Proof.
  intros H Hc Hp o Ho. unfold contents in Ho. cbn [file_append f_dur f_pend] in Ho. rewrite Hc in Ho. destruct Ho as [<-|Ho]; [apply H; left; reflexivity|].
  apply in_app_or in Ho as [Ho|[<-|[]]]; [apply H; right; exact Ho|]. right. eexists. split; [reflexivity|exact Hp].
Qed.
Lemma firstn_app_le {A} n (a b : list A) : (n <= length a)%nat -> firstn n (a ++ b) = firstn n a.
Proof. intros H. rewrite firstn_app. replace (n - length a)%nat with 0%nat by lia. cbn. apply app_nil_r. Qed.
Lemma firstn_min {A} k (d : list A) : firstn k d = firstn (Nat.min k (length d)) d.
Proof. destruct (Nat.le_ge_cases k (length d)); [rewrite Nat.min_l by lia; reflexivity|]. rewrite Nat.min_r by lia. rewrite firstn_all. apply firstn_all2. lia. Qed.
Lemma write_within pieces : forall fs f c w old, (forall o, In o (contents f) -> within old w o) -> file_cur f = Some c -> c ++ concat pieces = w ->
  forall o, In o (contents (fst (write_pieces pieces fs f))) -> within old w o.
Proof.
  induction pieces as [|d pieces IH]; intros fs f c w old H Hc Ew o; cbn [write_pieces concat] in *; [apply H|].
  destruct (next_fault fs) as [|k].
  - intros Ho. eapply IH; [|rewrite cur_append, Hc; reflexivity|rewrite <- app_assoc; exact Ew|exact Ho].
    apply (within_append _ _ _ c); [exact H|exact Hc|]. rewrite <- Ew, app_assoc. apply prefix_app.
  - cbn [fst]. revert o. apply (within_append _ _ _ c); [exact H|exact Hc|]. rewrite <- Ew.
    exists (length c + Nat.min k (length d))%nat. rewrite firstn_app_2. f_equal. rewrite firstn_app_le by lia. apply firstn_min.
Qed.
Lemma compress_within pieces fs f o : In o (contents (fst (compress_to_file pieces fs f))) -> within (contents f) (concat pieces) o.
Proof.
  assert (H0 : forall o, In o (contents f) -> within (contents f) (concat pieces) o) by (intros; left; assumption).
  assert (Ht : forall o, In o (contents (file_truncate f)) -> within (contents f) (concat pieces) o).
  { intros x Hx. unfold contents in Hx. cbn [file_truncate f_dur f_pend] in Hx. destruct Hx as [<-|Hx]; [left; left; reflexivity|].
    apply in_app_or in Hx as [Hx|[<-|[]]]; [left; right; exact Hx|]. right. exists []. split; [reflexivity|]. exists 0%nat. reflexivity. }
  unfold compress_to_file. destruct (next_fault fs) as [|[|k]]; [|apply H0|apply Ht]. destruct (next_fault (tl fs)); [|apply Ht].
  revert o. apply write_within with (c := []); [exact Ht|apply cur_truncate|reflexivity].
Qed.
Lemma last_in {A} (C : A -> Prop) l d : C d -> Forall C l -> C (last l d).
Proof. intros Hd H. induction H as [|x l Hx Hl IH]; [exact Hd|]. destruct l; [exact Hx|]. exact IH. Qed.
Lemma crash_in n f : In (file_cur (file_crash n f)) (contents f).
Proof.
  unfold file_crash, file_cur. cbn [f_pend f_dur last]. apply (last_in (fun o => In o (contents f))); [left; reflexivity|].
  apply Forall_forall. intros x Hx. right. rewrite <- (firstn_skipn n (f_pend f)). apply in_or_app. left. exact Hx.
Qed.

(*@T What was compressed is decompressed again, when nothing fails. *)
Lemma p_C108_roundtrip : forall Z data pieces f, codec_ok Z -> bytes_ok data -> concat pieces = z_encode Z data ->
  exists f', compress_to_file pieces [] f = (f', ZOk tt) /\ decompress_from_file Z [] f' = ZOk data.
Proof.
  intros Z data pieces f HZ Hd Hp. unfold compress_to_file. cbn [next_fault tl]. pose proof (write_fine pieces (file_truncate f)) as Hw.
  destruct (write_pieces pieces [] (file_truncate f)) as [f' r] eqn:E. cbn [snd] in Hw. subst r. exists f'. split; [reflexivity|].
  apply (write_ok _ _ _ []) in E; [|apply cur_truncate]. unfold decompress_from_file. cbn [nth]. rewrite E, app_nil_l, Hp, HZ by exact Hd. reflexivity.
Qed.
(*@T Whatever operations fail: when compressing reports success the file holds the whole encoding, and decompressing it gives the data or an error. *)
Lemma p_C108_success : forall Z data pieces fs f f', codec_ok Z -> bytes_ok data -> concat pieces = z_encode Z data ->
  compress_to_file pieces fs f = (f', ZOk tt) ->
  file_cur f' = Some (z_encode Z data) /\
  forall fs', decompress_from_file Z fs' f' = ZOk data \/ decompress_from_file Z fs' f' = ZErr ZDecompressing.
Proof.
  intros Z data pieces fs f f' HZ Hd Hp E. unfold compress_to_file in E. destruct (next_fault fs) as [|[|k]]; [|discriminate E|discriminate E].
  destruct (next_fault (tl fs)); [|discriminate E]. apply (write_ok _ _ _ []) in E; [|apply cur_truncate]. rewrite app_nil_l, Hp in E. split; [exact E|].
  intros fs'. unfold decompress_from_file. rewrite E, HZ by exact Hd. destruct (nth 0 fs' Fine), (nth 1 fs' Fine), (nth 2 fs' Fine); auto.
Qed.
(*@T Decompressing succeeds exactly when opening, making the decoder and reading all succeed and the codec decodes the content. *)
Lemma p_C108_decompress : forall Z fs f d, decompress_from_file Z fs f = ZOk d <->
  nth 0 fs Fine = Fine /\ nth 1 fs Fine = Fine /\ nth 2 fs Fine = Fine /\ exists c, file_cur f = Some c /\ z_decode Z c = Some d.
Proof.
  intros Z fs f d. unfold decompress_from_file. split.
  - destruct (nth 0 fs Fine), (nth 1 fs Fine), (nth 2 fs Fine), (file_cur f) as [c|]; try discriminate. destruct (z_decode Z c) as [x|] eqn:E; [|discriminate].
    intros [= <-]. repeat split. exists c. auto.
  - intros (-> & -> & -> & c & -> & ->). reflexivity.
Qed.
(*@T With a codec that refuses encodings cut short: whatever operations fail, and whenever the machine stops afterwards with part of the writes on
    disk, decompressing gives the new data, what one of the earlier contents of the file gives, or an error - never anything else. *)
Lemma p_C108_never_wrong : forall Z data pieces fs f n fs', codec_ok Z -> cut_refused Z -> bytes_ok data -> concat pieces = z_encode Z data ->
  let g := file_crash n (fst (compress_to_file pieces fs f)) in
  decompress_from_file Z fs' g = ZOk data \/ decompress_from_file Z fs' g = ZErr ZDecompressing \/
  exists c, In (Some c) (f_dur f :: f_pend f) /\ file_cur g = Some c.
Proof.
  intros Z data pieces fs f n fs' HZ HC Hd Hp g. pose proof (compress_within pieces fs f _ (crash_in n (fst (compress_to_file pieces fs f)))) as H. fold g in H.
  unfold decompress_from_file. destruct (file_cur g) as [c|]; [|right; left; destruct (nth 0 fs' Fine), (nth 1 fs' Fine), (nth 2 fs' Fine); reflexivity].
  destruct H as [H|(x & Hx & k & Hk)]; [right; right; exists c; split; [exact H|reflexivity]|]. injection Hx as <-. rewrite Hp in Hk.
  destruct (Nat.lt_ge_cases k (length (z_encode Z data))) as [Hl|Hl].
  - right. left. rewrite Hk, HC by assumption. destruct (nth 0 fs' Fine), (nth 1 fs' Fine), (nth 2 fs' Fine); reflexivity.
  - rewrite firstn_all2 in Hk by lia. subst c. rewrite HZ by exact Hd. destruct (nth 0 fs' Fine), (nth 1 fs' Fine), (nth 2 fs' Fine); auto.
Qed.
(*@T Refuted: "a failed compression leaves the earlier file readable".  The file is emptied before anything is written to it. *)
Lemma p_C108_earlier_lost_refuted : ~ forall Z d0 data pieces pieces' fs f f', codec_ok Z -> cut_refused Z -> bytes_ok d0 -> bytes_ok data ->
  concat pieces' = z_encode Z d0 -> concat pieces = z_encode Z data -> compress_to_file pieces' [] f = (f', ZOk tt) ->
  snd (compress_to_file pieces fs f') = ZErr ZCompressing -> decompress_from_file Z [] (fst (compress_to_file pieces fs f')) = ZOk d0.
Proof.
  intros H. specialize (H toy_codec [7] [8] [[1; 8; 0]] [[1; 7; 0]] [Fine; Fine; Fails 1] file_absent (fst (compress_to_file [[1; 7; 0]] [] file_absent)) toy_ok toy_cut).
  assert (B : forall x, x < 256 -> bytes_ok [x]) by (intros x Hx; repeat constructor; exact Hx).
  specialize (H (B 7 ltac:(lia)) (B 8 ltac:(lia)) eq_refl eq_refl eq_refl eq_refl). discriminate H.
Qed.
(*@T Refuted: "decompressing gives the data that was compressed last": without the second property of the codec a crash can leave a part that is decoded. *)
Lemma p_C108_cut_refuted : ~ forall Z data pieces fs f n, codec_ok Z -> bytes_ok data -> concat pieces = z_encode Z data -> f = file_absent ->
  let g := file_crash n (fst (compress_to_file pieces fs f)) in
  decompress_from_file Z [] g = ZOk data \/ decompress_from_file Z [] g = ZErr ZDecompressing.
Proof.
  intros H. specialize (H (MkZstd (fun d => d) Some) [7] [[7]] [] file_absent 1%nat (fun d _ => eq_refl)).
  assert (B : bytes_ok [7]) by (repeat constructor; lia). specialize (H B eq_refl eq_refl). destruct H as [H|H]; discriminate H.
Qed.
(*@E
(** The codec that puts a 1 before every byte and a 0 at the end has both properties.  Written in two pieces it is read back; cut by a failing write or by a
    crash it is refused. *)
Example C108_ex : codec_ok toy_codec /\ cut_refused toy_codec /\
  let f := fst (compress_to_file [[1; 7; 1]; [8; 0]] [] file_absent) in
  decompress_from_file toy_codec [] f = ZOk [7; 8] /\
  decompress_from_file toy_codec [] (fst (compress_to_file [[1; 7; 1]; [8; 0]] [Fine; Fine; Fine; Fails 1] file_absent)) = ZErr ZDecompressing /\
  decompress_from_file toy_codec [] (file_crash 2 f) = ZErr ZDecompressing /\ decompress_from_file toy_codec [] (file_crash 3 f) = ZOk [7; 8].
Proof. split; [exact toy_ok|]. split; [exact toy_cut|]. repeat split; vm_compute; reflexivity. Qed.
@*)
