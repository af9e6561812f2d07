(** Which byte strings the parsers accept: proofs. *)
From Coq Require Import Lia ZifyBool ZifyNat ZifyN.
From Verif Require Import Base Sha256 Tools Transaction Block Spec CanonSpec Demo.
From Verif Require Import BaseFacts ToolsFacts CodecFacts.

Lemma code_len e v : u256_code e v -> (1 <= length e <= 33)%nat.
Proof. intros (s & -> & H & _). cbn [length]. lia. Qed.
Lemma code_ok e v : u256_code e v -> bytes_ok e.
Proof. intros (s & -> & H & H1 & _). constructor; [unfold byte_ok; lia|exact H1]. Qed.
Lemma code_value e v : u256_code e v -> u256_ok v.
Proof. intros (s & -> & H & H1 & <-). rewrite be_val_from_be. apply from_be_u256; assumption. Qed.
Lemma load_code e v s : u256_code e v -> load_u256 (e ++ s) = Ok (v, (length e - 1)%nat).
Proof.
  intros (l & -> & Hl & Hok & <-). rewrite be_val_from_be. unfold load_u256. cbn [app index nth_error bind]. rewrite Nat2N.id.
  destruct (Nat.ltb_spec 32 (length l)) as [Hc|_]; [lia|]. cbn [length]. rewrite app_length.
  destruct (Nat.ltb_spec (S (length l + length s)) (length l)) as [Hc|_]; [lia|].
  change (N.of_nat (length l) :: l ++ s) with ([N.of_nat (length l)] ++ l ++ s).
  rewrite slice_app3 by reflexivity. cbn [bind]. do 2 f_equal. lia.
Qed.
Lemma load_inv d x n : bytes_ok d -> load_u256 d = Ok (x, n) -> exists e s, d = e ++ s /\ u256_code e x /\ length e = S n.
Proof.
  intros Hok H. apply load_u256_ok in H as (b & t & -> & -> & H1 & H2 & ->). inversion Hok as [|? ? Hb Ht]; subst.
  exists (b :: firstn (N.to_nat b) t), (skipn (N.to_nat b) t). cbn [app length]. rewrite firstn_skipn, firstn_length. split; [reflexivity|]. split; [|lia].
  exists (firstn (N.to_nat b) t). rewrite firstn_length. split; [f_equal; lia|]. split; [lia|]. split; [apply bytes_ok_firstn, Ht|apply be_val_from_be].
Qed.
Lemma code_enc v : u256_ok v -> u256_code (enc v) v.
Proof. intros H. exists (payload v). split; [reflexivity|]. split; [apply payload_length|]. split; [apply payload_ok|]. rewrite be_val_from_be. apply payload_value, H. Qed.

Lemma strip_id l : hd_error l <> Some 0 -> strip l = l.
Proof. destruct l as [|b l]; [reflexivity|]. cbn. destruct (N.eqb_spec b 0) as [->|]; [intros H; contradiction H; reflexivity|reflexivity]. Qed.
(** Every code is the minimal one with zeros in front. *)
Lemma be_pad l : bytes_ok l -> exists k, l = repeat 0 k ++ strip l.
Proof.
  induction l as [|b l IH]; intros H; [exists 0%nat; reflexivity|]. inversion H; subst. cbn [strip]. destruct (N.eqb_spec b 0) as [->|]; [|exists 0%nat; reflexivity].
  destruct (IH ltac:(assumption)) as (k & E). exists (S k). cbn [repeat app]. f_equal. exact E.
Qed.
Lemma minimal_unique v s s' : minimal_be v s -> minimal_be v s' -> s = s'.
Proof.
  intros H H'. destruct (N.eq_dec v 0) as [->|Hv].
  - assert (Z : forall l, minimal_be 0 l -> l = []).
    { intros [|b l] (H1 & H2 & H3); [reflexivity|]. exfalso. cbn [be_val] in H2. apply H3. cbn. f_equal. nia. }
    rewrite (Z s H), (Z s' H'). reflexivity.
  - pose proof (minimal_length _ _ H Hv) as L. pose proof (minimal_length _ _ H' Hv) as L'. destruct H as (H1 & H2 & _), H' as (H1' & H2' & _). rewrite be_val_from_be in H2, H2'.
    apply from_be_inj; try assumption; [|congruence].
    assert (forall a b : N, 256 ^ (a - 1) <= v -> v < 256 ^ b -> a <= b).
    { intros a b Ha Hb. destruct (N.le_gt_cases a b) as [|C]; [assumption|]. exfalso. assert (256 ^ b <= 256 ^ (a - 1)) by (apply N.pow_le_mono_r; lia). lia. }
    pose proof (H _ _ (proj1 L) (proj2 L')). pose proof (H _ _ (proj1 L') (proj2 L)). lia.
Qed.
Lemma strip_minimal l : bytes_ok l -> minimal_be (be_val l) (strip l).
Proof. intros H. split; [apply strip_ok, H|]. split; [rewrite !be_val_from_be; apply strip_value|apply strip_hd]. Qed.
Lemma code_pad e v : u256_code e v -> exists k, e = N.of_nat (k + length (payload v)) :: repeat 0 k ++ payload v /\ (k + length (payload v) <= 32)%nat.
Proof.
  intros C. pose proof (code_value _ _ C) as Hv. destruct C as (s & -> & Hl & Hok & E). destruct (be_pad s Hok) as (k & Hk). exists k.
  assert (Hp : strip s = payload v) by (apply (minimal_unique v); [rewrite <- E; apply strip_minimal, Hok|apply payload_minimal, Hv]).
  rewrite Hp in Hk. assert (Hs : length s = (k + length (payload v))%nat) by (rewrite Hk, app_length, repeat_length; reflexivity).
  rewrite <- Hs. split; [f_equal; exact Hk|exact Hl].
Qed.
Lemma code_shortest e v : u256_code e v -> (length (enc v) <= length e)%nat /\ (length e = length (enc v) -> e = enc v).
Proof.
  intros C. destruct (code_pad e v C) as (k & -> & H). cbn [length enc]. rewrite app_length, repeat_length. split; [lia|]. intros E. destruct k; [reflexivity|]. lia.
Qed.
Lemma code_same_length e e' v : u256_code e v -> u256_code e' v -> length e = length e' -> e = e'.
Proof.
  intros C C' H. destruct (code_pad e v C) as (k & -> & _), (code_pad e' v C') as (k' & -> & _). cbn [length] in H. rewrite !app_length, !repeat_length in H. replace k' with k by lia. reflexivity.
Qed.
Lemma code_minimal e v : u256_minimal e v <-> u256_code e v /\ length e = length (enc v).
Proof.
  split.
  - intros (s & -> & H & M). pose proof M as (M1 & M2 & M3). assert (C : u256_code (N.of_nat (length s) :: s) v) by (exists s; auto).
    split; [exact C|]. cbn [length enc]. f_equal. f_equal. apply (minimal_unique v); [exact M|apply payload_minimal, (code_value _ _ C)].
  - intros [C H]. rewrite (proj2 (code_shortest _ _ C) H). exists (payload v). split; [reflexivity|]. split; [apply payload_length|apply payload_minimal, (code_value _ _ C)].
Qed.

Lemma parts (d : bytes) a b : (a <= b)%nat -> skipn a d = firstn (b - a) (skipn a d) ++ skipn b d.
Proof. intros H. rewrite <- (firstn_skipn (b - a) (skipn a d)) at 1. f_equal. clear -H. revert a b H. induction d as [|x d IH]; intros a b H; [rewrite !skipn_nil; reflexivity|]. destruct a; [rewrite Nat.sub_0_r; reflexivity|]. destruct b; [lia|]. apply (IH a b). lia. Qed.

(** ** Transactions *)
Lemma tx_parse_code s r ts sg amt e data :
  is_array 33 s -> is_array 33 r -> u64_ok ts -> is_array 64 sg -> u256_code e amt ->
  tx_parse (s ++ r ++ to_be 8 ts ++ sg ++ e ++ data) = Ok (tx_new_signed s r ts amt (norm_data (Some data)) sg).
Proof.
  intros (Hs & _) (Hr & _) Hts (Hsg & _) Ha. pose proof (code_len _ _ Ha) as He.
  set (D := s ++ r ++ to_be 8 ts ++ sg ++ e ++ data).
  assert (HlD : length D = (138 + length e + length data)%nat) by (unfold D; rewrite !app_length, to_be_length; lia).
  unfold tx_parse.
  destruct (Nat.ltb_spec (length D) 139) as [Hc|_]; [lia|].
  rewrite (slice_at D [] s (r ++ to_be 8 ts ++ sg ++ e ++ data)) by (try reflexivity; cbn; lia). cbn [bind].
  rewrite (slice_at D s r (to_be 8 ts ++ sg ++ e ++ data)) by (try reflexivity; lia). cbn [bind].
  rewrite (slice_at D (s ++ r) (to_be 8 ts) (sg ++ e ++ data)) by (rewrite ?app_length, ?to_be_length; try lia; unfold D; rewrite <- ?app_assoc; reflexivity). cbn [bind].
  rewrite (slice_at D (s ++ r ++ to_be 8 ts) sg (e ++ data)) by (rewrite ?app_length, ?to_be_length; try lia; unfold D; rewrite <- ?app_assoc; reflexivity). cbn [bind].
  rewrite (slice_from_at D (s ++ r ++ to_be 8 ts ++ sg) (e ++ data)) by (rewrite ?app_length, ?to_be_length; try lia; unfold D; rewrite <- ?app_assoc; reflexivity). cbn [bind].
  rewrite (load_code e amt) by exact Ha. cbn [change_context bind]. rewrite from_to_be_small by exact Hts.
  destruct (Nat.eqb_spec (138 + (length e - 1 + 1)) (length D)) as [E|E].
  - destruct data as [|b data]; [reflexivity|]. cbn [length] in HlD. lia.
  - rewrite (slice_from_at D (s ++ r ++ to_be 8 ts ++ sg ++ e) data) by (rewrite ?app_length, ?to_be_length; try lia; unfold D; rewrite <- ?app_assoc; reflexivity). cbn [bind].
    destruct (Nat.eqb_spec (138 + (length e - 1 + 1) + length data) (length D)) as [_|Hc]; [|lia].
    cbn [negb]. destruct data as [|b data]; [cbn [length] in HlD; lia|]. reflexivity.
Qed.
Lemma tx_parse_inv d t : bytes_ok d -> tx_parse d = Ok t -> exists e, u256_code e (tx_amount t) /\ tx_layout d e t.
Proof.
  intros Hok H. pose proof H as H0. unfold tx_parse in H. destruct (Nat.ltb_spec (length d) 139) as [|Hl]; [discriminate H|].
  rewrite !slice_in, slice_from_in in H by lia. cbn [bind] in H. apply bind_ok in H as ((amt & n) & HL & H). apply change_context_ok in HL.
  apply load_inv in HL as (e & s & Es & C & He); [|apply bytes_ok_skipn, Hok]. exists e.
  assert (Ed : d = firstn (33 - 0) (skipn 0 d) ++ firstn (66 - 33) (skipn 33 d) ++ firstn (74 - 66) (skipn 66 d) ++ firstn (138 - 74) (skipn 74 d) ++ e ++ s).
  { rewrite <- Es, <- (parts d 74 138), <- (parts d 66 74), <- (parts d 33 66), <- (parts d 0 33) by lia. reflexivity. }
  assert (Ht : to_be 8 (from_be (firstn (74 - 66) (skipn 66 d))) = firstn (74 - 66) (skipn 66 d)).
  { rewrite <- (to_from_be (firstn (74 - 66) (skipn 66 d))) at 2 by (apply bytes_ok_firstn, bytes_ok_skipn, Hok). f_equal. rewrite firstn_length, skipn_length. lia. }
  assert (Hd : skipn (138 + (n + 1)) d = s).
  { replace (138 + (n + 1))%nat with (138 + length e)%nat by lia. pose proof (parts d 138 (138 + length e) ltac:(lia)) as P. rewrite Es in P. replace (138 + length e - 138)%nat with (length e) in P by lia.
    rewrite (firstn_app_exact e s) in P by reflexivity. apply app_inv_head in P. symmetry. exact P. }
  assert (Hlen : length d = (138 + length e + length s)%nat) by (pose proof (f_equal (@length N) Es) as Q; rewrite skipn_length, app_length in Q; lia).
  set (s1 := firstn (33 - 0) (skipn 0 d)) in *. set (s2 := firstn (66 - 33) (skipn 33 d)) in *. set (s3 := firstn (74 - 66) (skipn 66 d)) in *. set (s4 := firstn (138 - 74) (skipn 74 d)) in *. clearbody s1 s2 s3 s4.
  destruct (Nat.eqb_spec (138 + (n + 1)) (length d)) as [E|E].
  - injection H as <-. split; [exact C|]. unfold tx_layout. cbn [tx_new_signed tx_sender tx_receiver tx_timestamp tx_signature tx_data]. rewrite Ht.
    assert (s = []) as -> by (destruct s; [reflexivity|cbn [length] in Hlen; lia]). exact Ed.
  - rewrite slice_from_in in H by lia. cbn [bind] in H. rewrite Hd in H. destruct (negb _); [discriminate H|]. injection H as <-. split; [exact C|].
    unfold tx_layout. cbn [tx_new_signed tx_sender tx_receiver tx_timestamp tx_signature tx_data]. rewrite Ht. exact Ed.
Qed.

(*@T C96.  A byte string is accepted as a transaction exactly when it is laid out as one, with the amount in some code of at most 32 bytes after the length byte; what is
   read is that transaction, with its hash recomputed. *)
Lemma p_C96_tx_accepted : forall d t, bytes_ok d ->
  (tx_parse d = Ok t <-> tx_wf t /\ tx_hash t = sha256 (tx_dump t) /\ tx_data t <> Some [] /\ exists e, u256_code e (tx_amount t) /\ tx_layout d e t).
Proof.
  intros d t Hok. split.
  - intros H. pose proof (tx_parse_cases d Hok) as P. rewrite H in P. destruct P as ([P1 P2] & P3 & _). split; [exact P1|]. split; [exact P2|]. split; [exact P3|]. apply tx_parse_inv; assumption.
  - intros (W & Hh & Hd & e & C & ->). pose proof W as (W1 & W2 & W3 & W4 & W5 & W6).
    rewrite (tx_parse_code _ _ _ _ (tx_amount t) e) by assumption. f_equal. rewrite (tx_eta t Hh) at 7. unfold tx_new_of. f_equal.
    destruct (tx_data t) as [[|b x]|]; [contradiction Hd; reflexivity|reflexivity|reflexivity].
Qed.
(*@E
(* The amount 300 with a zero in front, and two bytes of data. *)
Example C96_tx_accepted_ex :
  let d := addrA ++ addrB ++ to_be 8 77 ++ repeat 9 64 ++ [3; 0; 1; 44] ++ [8; 9] in
  bytes_ok d /\ tx_parse d = Ok (tx_new_signed addrA addrB 77 300 (Some [8; 9]) (repeat 9 64)).
Proof. split; [repeat constructor|vm_compute; reflexivity]. Qed.
@*)
(*@T C96.  The dump of a transaction is the shortest byte string that is read as it, and the only one of its length; two byte strings of the same length that are
   read as the same transaction are equal. *)
Lemma p_C96_tx_shortest : forall d t, bytes_ok d -> tx_parse d = Ok t ->
  (length (tx_dump t) <= S (length d))%nat /\ (length (tx_dump t) = S (length d) -> tx_dump t = 0 :: d) /\
  forall d', bytes_ok d' -> tx_parse d' = Ok t -> length d' = length d -> d' = d.
Proof.
  intros d t Hok H. apply (p_C96_tx_accepted d t Hok) in H as (W & Hh & Hd & e & C & L). pose proof W as ((W1 & _) & (W2 & _) & W3 & (W4 & _) & _).
  destruct (code_shortest e _ C) as [S1 S2]. change (d = tx_sender t ++ tx_receiver t ++ to_be 8 (tx_timestamp t) ++ tx_signature t ++ e ++ data_or_empty (tx_data t)) in L.
  assert (Hd' : length d = (138 + length e + length (data_or_empty (tx_data t)))%nat) by (rewrite L, !app_length, to_be_length; lia).
  assert (Hdump : length (tx_dump t) = S (138 + length (enc (tx_amount t)) + length (data_or_empty (tx_data t)))%nat).
  { rewrite tx_dump_eq. cbn [length]. rewrite !app_length, to_be_length. lia. }
  split; [rewrite Hdump; lia|]. split.
  - intros E. rewrite Hdump in E. rewrite L, S2, tx_dump_eq by lia. reflexivity.
  - intros d' Hok' H' El. apply (p_C96_tx_accepted d' t Hok') in H' as (_ & _ & _ & e' & C' & L'). change (d' = tx_sender t ++ tx_receiver t ++ to_be 8 (tx_timestamp t) ++ tx_signature t ++ e' ++ data_or_empty (tx_data t)) in L'.
    assert (Hd2 : length d' = (138 + length e' + length (data_or_empty (tx_data t)))%nat) by (rewrite L', !app_length, to_be_length; lia).
    rewrite L, L', (code_same_length e e' _ C C') by lia. reflexivity.
Qed.
(*@E
Example C96_tx_shortest_ex :
  let t := tx_new_signed addrA addrB 77 300 None (repeat 9 64) in
  let d := addrA ++ addrB ++ to_be 8 77 ++ repeat 9 64 ++ [3; 0; 1; 44] in
  tx_parse d = Ok t /\ length (tx_dump t) = length d /\ tx_parse (tl (tx_dump t)) = Ok t.
Proof. split; [vm_compute; reflexivity|]. split; vm_compute; reflexivity. Qed.
@*)
Lemma zeros_value j : from_be (repeat 0 j) = 0.
Proof. induction j as [|j IH]; [reflexivity|]. cbn [repeat]. rewrite from_be_cons, IH. reflexivity. Qed.
(*@T C96.  Every transaction has one byte string for each length of its amount field from the shortest one to 32. *)
Lemma p_C96_tx_encodings : forall t s k, tx_wf t -> tx_hash t = sha256 (tx_dump t) -> tx_data t <> Some [] -> minimal_be (tx_amount t) s -> (length s <= k <= 32)%nat ->
  exists d, bytes_ok d /\ tx_parse d = Ok t /\ nth_error d 138 = Some (N.of_nat k).
Proof.
  intros t s k W Hh Hd Hs Hk. set (x := repeat 0 (k - length s) ++ s).
  assert (Hx : length x = k) by (unfold x; rewrite app_length, repeat_length; lia). pose proof Hs as (S1 & S2 & _).
  assert (Hok : bytes_ok x) by (unfold x; apply bytes_ok_app; split; [apply bytes_ok_repeat; reflexivity|exact S1]).
  assert (Hv : be_val x = tx_amount t).
  { unfold x. rewrite be_val_from_be, from_be_app, <- (be_val_from_be s), S2. rewrite zeros_value. reflexivity. }
  assert (C : u256_code (N.of_nat (length x) :: x) (tx_amount t)) by (exists x; split; [reflexivity|]; split; [lia|]; split; assumption).
  pose proof W as (W1 & W2 & W3 & W4 & W5 & W6).
  exists (tx_sender t ++ tx_receiver t ++ to_be 8 (tx_timestamp t) ++ tx_signature t ++ (N.of_nat (length x) :: x) ++ match tx_data t with Some y => y | None => [] end).
  assert (Hb : bytes_ok (tx_sender t ++ tx_receiver t ++ to_be 8 (tx_timestamp t) ++ tx_signature t ++ (N.of_nat (length x) :: x) ++ match tx_data t with Some y => y | None => [] end)).
  { rewrite !bytes_ok_app. split; [apply W1|]. split; [apply W2|]. split; [apply to_be_ok|]. split; [apply W4|]. split; [exact (code_ok _ _ C)|]. destruct (tx_data t); [exact W6|constructor]. }
  split; [exact Hb|]. split.
  - apply p_C96_tx_accepted; [exact Hb|]. split; [exact W|]. split; [exact Hh|]. split; [exact Hd|]. eexists. split; [exact C|reflexivity].
  - rewrite nth_error_app2 by (rewrite (proj1 W1); lia). rewrite nth_error_app2 by (rewrite (proj1 W1), (proj1 W2); lia).
    rewrite nth_error_app2 by (rewrite (proj1 W1), (proj1 W2), to_be_length; lia). rewrite nth_error_app2 by (rewrite (proj1 W1), (proj1 W2), to_be_length, (proj1 W4); lia).
    rewrite (proj1 W1), (proj1 W2), to_be_length, (proj1 W4), Hx. reflexivity.
Qed.
(*@E
Example C96_tx_encodings_ex : let t := tx_new_signed addrA addrB 77 300 None (repeat 9 64) in
  tx_hash t = sha256 (tx_dump t) /\ minimal_be (tx_amount t) [1; 44].
Proof. split; [apply tx_new_signed_hash|]. split; [repeat constructor|]. split; [reflexivity|discriminate]. Qed.
@*)
(*@T C96, refuted.  That what is read determines the bytes: there are byte strings that are read as a transaction and are not its dump. *)
Lemma p_C96_tx_canonical_refuted : ~ (forall d t, bytes_ok d -> tx_parse d = Ok t -> tx_dump t = 0 :: d).
Proof.
  intros H. set (t := tx_new_signed addrA addrB 0 1 None (repeat 0 64)).
  destruct (p_C96_tx_encodings t [1] 2%nat) as (d & Hok & Hp & Hn).
  - repeat split; try reflexivity; repeat (constructor; [reflexivity|]); try constructor.
  - apply tx_new_signed_hash.
  - discriminate.
  - split; [repeat constructor|]. split; [reflexivity|discriminate].
  - cbn [length]. lia.
  - pose proof (H d t Hok Hp) as E. assert (E1 : nth_error (tx_dump t) 139 = Some 1) by (vm_compute; reflexivity). rewrite E in E1. cbn [nth_error] in E1. change (nth_error d 138 = Some 1) in E1. rewrite Hn in E1. discriminate E1.
Qed.

(** ** Blocks *)
Lemma info_parse_code i e rest : info_wf i -> u256_code e (bi_height i) -> info_parse (info_layout e i ++ rest) = Ok i.
Proof.
  intros (H1 & (H2 & _) & (H3 & _) & H4 & (H5 & _) & (H6 & _)) C. pose proof (code_len _ _ C) as He.
  unfold info_layout. rewrite <- !app_assoc. set (D := _ ++ _).
  assert (HlD : length D = (137 + length e + length rest)%nat) by (unfold D; rewrite !app_length, to_be_length; lia).
  unfold info_parse. destruct (Nat.leb_spec (length D) 105) as [Hc|_]; [lia|].
  rewrite (slice_at D [] (to_be 8 (bi_timestamp i)) (bi_previous_hash i ++ bi_pow i ++ bi_difficulty i ++ bi_founder i ++ e ++ rest)) by (try reflexivity; rewrite ?to_be_length; cbn; lia). cbn [bind].
  rewrite (slice_at D (to_be 8 (bi_timestamp i)) (bi_previous_hash i) (bi_pow i ++ bi_difficulty i ++ bi_founder i ++ e ++ rest)) by (try reflexivity; rewrite ?to_be_length; lia). cbn [bind].
  rewrite (slice_at D (to_be 8 (bi_timestamp i) ++ bi_previous_hash i) (bi_pow i) (bi_difficulty i ++ bi_founder i ++ e ++ rest)) by (rewrite ?app_length, ?to_be_length; try lia; unfold D; rewrite <- ?app_assoc; reflexivity). cbn [bind].
  rewrite (slice_at D (to_be 8 (bi_timestamp i) ++ bi_previous_hash i ++ bi_pow i) (bi_difficulty i) (bi_founder i ++ e ++ rest)) by (rewrite ?app_length, ?to_be_length; try lia; unfold D; rewrite <- ?app_assoc; reflexivity). cbn [bind].
  rewrite (slice_at D (to_be 8 (bi_timestamp i) ++ bi_previous_hash i ++ bi_pow i ++ bi_difficulty i) (bi_founder i) (e ++ rest)) by (rewrite ?app_length, ?to_be_length; try lia; unfold D; rewrite <- ?app_assoc; reflexivity). cbn [bind].
  rewrite (slice_from_at D (to_be 8 (bi_timestamp i) ++ bi_previous_hash i ++ bi_pow i ++ bi_difficulty i ++ bi_founder i) (e ++ rest)) by (rewrite ?app_length, ?to_be_length; try lia; unfold D; rewrite <- ?app_assoc; reflexivity). cbn [bind].
  rewrite (load_code e (bi_height i)) by exact C. cbn [change_context bind]. rewrite from_to_be_small by exact H1. destruct i; reflexivity.
Qed.
Lemma info_parse_inv d i : bytes_ok d -> info_parse d = Ok i -> info_wf i /\ exists e rest, u256_code e (bi_height i) /\ d = info_layout e i ++ rest.
Proof.
  intros Hok H. pose proof (info_parse_cases d Hok) as P. rewrite H in P. destruct P as [P1 P2]. split; [exact P1|].
  unfold info_parse in H. destruct (Nat.leb_spec (length d) 105) as [|_]; [discriminate H|].
  rewrite !slice_in, slice_from_in in H by lia. cbn [bind] in H. apply bind_ok in H as ((h & n) & HL & H). apply change_context_ok in HL.
  apply load_inv in HL as (e & s & Es & C & He); [|apply bytes_ok_skipn, Hok]. exists e, s.
  assert (Ed : d = firstn (8 - 0) (skipn 0 d) ++ firstn (40 - 8) (skipn 8 d) ++ firstn (72 - 40) (skipn 40 d) ++ firstn (104 - 72) (skipn 72 d) ++ firstn (137 - 104) (skipn 104 d) ++ e ++ s).
  { rewrite <- Es, <- (parts d 104 137), <- (parts d 72 104), <- (parts d 40 72), <- (parts d 8 40), <- (parts d 0 8) by lia. reflexivity. }
  assert (Ht : to_be 8 (from_be (firstn (8 - 0) (skipn 0 d))) = firstn (8 - 0) (skipn 0 d)).
  { rewrite <- (to_from_be (firstn (8 - 0) (skipn 0 d))) at 2 by (apply bytes_ok_firstn, bytes_ok_skipn, Hok). f_equal. rewrite firstn_length, skipn_length. lia. }
  set (s1 := firstn (8 - 0) (skipn 0 d)) in *. set (s2 := firstn (40 - 8) (skipn 8 d)) in *. set (s3 := firstn (72 - 40) (skipn 40 d)) in *. set (s4 := firstn (104 - 72) (skipn 72 d)) in *. set (s5 := firstn (137 - 104) (skipn 104 d)) in *. clearbody s1 s2 s3 s4 s5.
  injection H as <-. cbn [bi_height]. split; [exact C|]. unfold info_layout. cbn [bi_timestamp bi_previous_hash bi_pow bi_difficulty bi_founder]. rewrite Ht, <- !app_assoc. exact Ed.
Qed.
Lemma layout_length e i : info_wf i -> length (info_layout e i) = (137 + length e)%nat.
Proof. intros (H1 & (H2 & _) & (H3 & _) & H4 & (H5 & _) & (H6 & _)). unfold info_layout. rewrite !app_length, to_be_length. lia. Qed.
(*@T C96.  A byte string is accepted as a derivative block exactly when it starts with a header's layout; whatever comes after it is ignored. *)
Lemma p_C96_deriv_accepted : forall d b, bytes_ok d ->
  (deriv_block_parse d = Ok b <-> exists i e rest, b = DerivBlock i /\ info_wf i /\ u256_code e (bi_height i) /\ d = info_layout e i ++ rest).
Proof.
  intros d b Hok. unfold deriv_block_parse. split.
  - destruct (Nat.ltb_spec (length d) 32); [discriminate|]. intros H1. apply bind_ok in H1 as (i & H1 & H2). injection H2 as <-.
    destruct (info_parse_inv d i Hok H1) as (W & e & rest & C & E). exists i, e, rest. auto.
  - intros (i & e & rest & -> & W & C & ->). destruct (Nat.ltb_spec (length (info_layout e i ++ rest)) 32) as [Hc|_]; [rewrite app_length, layout_length in Hc by exact W; lia|].
    rewrite info_parse_code by assumption. reflexivity.
Qed.
(*@E
Example C96_deriv_accepted_ex : let i := MkInfo 5 (repeat 1 32) (repeat 2 32) 9 (repeat 3 32) addrA in
  deriv_block_parse (info_layout [2; 0; 9] i ++ [1; 2; 3]) = Ok (DerivBlock i).
Proof. vm_compute. reflexivity. Qed.
@*)
Lemma assumed h k : u256_ok h -> (assumed_size h k <-> k = u256_size h).
Proof.
  intros Hh. assert (E : u256_size h = S (Nat.max 1 (length (payload h)))).
  { destruct (N.eq_dec h 0) as [->|Hn]; [reflexivity|]. rewrite u256_size_nonzero by assumption. cbn [enc length]. f_equal.
    pose proof (minimal_length _ _ (payload_minimal h Hh) Hn) as [_ L]. destruct (length (payload h)) as [|n]; [cbn in L; lia|lia]. }
  split.
  - intros (s & M & ->). rewrite (minimal_unique h s (payload h)), E; [reflexivity|exact M|apply payload_minimal, Hh].
  - intros ->. exists (payload h). split; [apply payload_minimal, Hh|exact E].
Qed.
Lemma skipn_in_app {A} (a b : list A) n m : length a = n -> skipn (n + m) (a ++ b) = skipn m b.
Proof. intros <-. rewrite skipn_app, skipn_all2 by lia. cbn [app]. f_equal. lia. Qed.
Definition fields (i : basic_info) : bytes := to_be 8 (bi_timestamp i) ++ bi_previous_hash i ++ bi_pow i ++ bi_difficulty i ++ bi_founder i.
Lemma layout_fields e i : info_layout e i = fields i ++ e.
Proof. unfold info_layout, fields. rewrite <- !app_assoc. reflexivity. Qed.
Lemma fields_length i : info_wf i -> length (fields i) = 137%nat.
Proof. intros W. pose proof (layout_length [] i W) as H. rewrite layout_fields, app_length in H. cbn [length] in H. lia. Qed.
Lemma skip_fields root i e rest k : length root = 32%nat -> info_wf i -> skipn (32 + (137 + k)) (root ++ info_layout e i ++ rest) = skipn k (e ++ rest).
Proof.
  intros Hr W. rewrite skipn_in_app by exact Hr. rewrite layout_fields, <- app_assoc. apply skipn_in_app, fields_length, W.
Qed.
Lemma info_size_eq i : info_get_dump_size i = (137 + u256_size (bi_height i))%nat.
Proof. unfold info_get_dump_size. lia. Qed.

Lemma ok_eq {A} (a b : A) : Ok a = Ok b -> a = b.
Proof. congruence. Qed.
Lemma tx_block_inv d b : bytes_ok d -> tx_block_parse d = Ok b ->
  exists fee root i txs e rest e', b = TxBlock fee root i txs /\ block_wf b /\ u256_code e (bi_height i) /\ u256_code e' fee /\
    d = root ++ info_layout e i ++ rest /\ skipn (u256_size (bi_height i)) (e ++ rest) = e' ++ concat txs.
Proof.
  intros Hok H. unfold tx_block_parse in H. apply bind_ok in H as (root & H1 & H). apply slice_ok in H1 as ((_ & L1) & -> & L2). rewrite slice_from_in in H by lia. cbn [bind] in H.
  apply bind_ok in H as (i & H1 & H). apply change_context_ok in H1. apply info_parse_inv in H1 as (W & e & rest & C & E1); [|apply bytes_ok_skipn, Hok].
  change (skipn 0 d) with d in *. change (32 - 0)%nat with 32%nat in *. set (root := firstn 32 d) in *.
  assert (Ed : d = root ++ info_layout e i ++ rest) by (rewrite <- E1; symmetry; apply firstn_skipn).
  apply bind_ok in H as (d2 & H1 & H). unfold slice_from in H1. destruct (Nat.leb_spec (32 + info_get_dump_size i) (length d)) as [L3|]; [|discriminate H1]. apply ok_eq in H1. subst d2.
  apply bind_ok in H as ((fee & n) & H1 & H). apply change_context_ok in H1. apply load_inv in H1 as (e' & s & E2 & C' & L4); [|apply bytes_ok_skipn, Hok].
  assert (Es : skipn (32 + info_get_dump_size i + (n + 1)) d = s).
  { pose proof (parts d (32 + info_get_dump_size i) (32 + info_get_dump_size i + (n + 1)) ltac:(lia)) as P. rewrite E2 in P.
    replace (32 + info_get_dump_size i + (n + 1) - (32 + info_get_dump_size i))%nat with (length e') in P by lia. rewrite firstn_app_exact in P by reflexivity. apply app_inv_head in P. symmetry. exact P. }
  assert (Hl : length s = (length d - (32 + info_get_dump_size i + (n + 1)))%nat) by (rewrite <- Es; apply skipn_length).
  rewrite Es, <- Hl in H. destruct (Nat.eqb_spec (length s mod 32) 0) as [Hm|]; [|discriminate H]. cbn [negb] in H.
  assert (Hs : bytes_ok s) by (rewrite <- Es; apply bytes_ok_skipn, Hok).
  destruct (chunks32_ok (length d) s Hm ltac:(lia) Hs) as (txs & Hc & Ht & Hj). rewrite Hc in H. cbn [bind] in H. injection H as <-.
  exists fee, root, i, txs, e, rest, e'. split; [reflexivity|]. split.
  - split; [exact (code_value _ _ C')|]. split; [split; [exact L2|apply bytes_ok_firstn, Hok]|]. split; [exact W|exact Ht].
  - split; [exact C|]. split; [exact C'|]. split; [exact Ed|]. rewrite Hj, <- E2, info_size_eq. rewrite Ed at 1. symmetry. apply skip_fields; [exact L2|exact W].
Qed.
Lemma tx_block_code fee root i txs e rest e' : block_wf (TxBlock fee root i txs) -> u256_code e (bi_height i) -> u256_code e' fee ->
  skipn (u256_size (bi_height i)) (e ++ rest) = e' ++ concat txs -> tx_block_parse (root ++ info_layout e i ++ rest) = Ok (TxBlock fee root i txs).
Proof.
  intros (Wf & (Wr & _) & Wi & Wt) C C' E. set (D := root ++ info_layout e i ++ rest). pose proof (code_len _ _ C') as Hl'.
  pose proof (skip_fields root i e rest (u256_size (bi_height i)) Wr Wi) as Sk. fold D in Sk. rewrite E, <- info_size_eq in Sk.
  assert (Hlen : (length D - (32 + info_get_dump_size i))%nat = (length e' + 32 * length txs)%nat).
  { pose proof (f_equal (@length N) Sk) as Q. rewrite skipn_length, app_length, concat_len in Q by exact Wt. exact Q. }
  unfold tx_block_parse. rewrite (slice_at D [] root (info_layout e i ++ rest)) by (try reflexivity; cbn; lia). cbn [bind].
  rewrite (slice_from_at D root (info_layout e i ++ rest)) by (try reflexivity; lia). cbn [bind]. rewrite info_parse_code by assumption. cbn [change_context bind].
  rewrite slice_from_in by lia. cbn [bind]. rewrite Sk, (load_code e' fee) by exact C'. cbn [change_context bind].
  replace (length D - (32 + info_get_dump_size i + (length e' - 1 + 1)))%nat with (0 + length txs * 32)%nat by lia. rewrite Nat.mod_add by lia. change (Nat.eqb (0 mod 32) 0) with true. cbn [negb].
  replace (skipn (32 + info_get_dump_size i + (length e' - 1 + 1)) D) with (concat txs).
  - rewrite chunks32_concat by (try assumption; lia). reflexivity.
  - pose proof (parts D (32 + info_get_dump_size i) (32 + info_get_dump_size i + (length e' - 1 + 1)) ltac:(lia)) as P. rewrite Sk in P.
    replace (32 + info_get_dump_size i + (length e' - 1 + 1) - (32 + info_get_dump_size i))%nat with (length e') in P by lia. rewrite firstn_app_exact in P by reflexivity. apply app_inv_head in P. exact P.
Qed.

(*@T C96.  What is accepted as a block of the main chain, exactly.  A summary block: header byte 4, the merkle root and a header's layout; what comes after is
   ignored.  A transaction block: header byte 2, root, a header's layout with the height in some code, and then, counted from where the height's code would end if it were the minimal one
   (two bytes for zero), the code of the fee and the 32-byte hashes of the transactions. *)
Lemma p_C96_main_accepted : forall d b, bytes_ok d ->
  (deserialize_main_chain_block d = Ok b <->
   block_wf b /\
   match b with
   | TxBlock fee root i txs => exists e rest k e', u256_code e (bi_height i) /\ d = 2 :: root ++ info_layout e i ++ rest /\
       assumed_size (bi_height i) k /\ u256_code e' fee /\ skipn k (e ++ rest) = e' ++ concat txs
   | SummBlock i root => exists e rest, u256_code e (bi_height i) /\ d = 4 :: root ++ info_layout e i ++ rest
   | DerivBlock _ => False
   end).
Proof.
  intros d b Hok. split.
  - intros H. unfold deserialize_main_chain_block in H. destruct d as [|h rest]; [discriminate H|]. inversion Hok as [|? ? Hh Hrest]; subst.
    apply bind_ok in H as (hd & H1 & H). apply change_context_ok in H1. unfold header_from_u8 in H1.
    destruct (N.eqb_spec h 0) as [_|_]; [injection H1 as <-; discriminate H|]. destruct (N.eqb_spec h 1) as [_|_]; [injection H1 as <-; discriminate H|].
    destruct (N.eqb_spec h 2) as [->|_].
    + injection H1 as <-. apply tx_block_inv in H as (fee & root & i & txs & e & r & e' & -> & W & C & C' & -> & E); [|exact Hrest]. split; [exact W|].
      exists e, r, (u256_size (bi_height i)), e'. split; [exact C|]. split; [reflexivity|]. split; [apply assumed; [exact (code_value _ _ C)|reflexivity]|]. split; assumption.
    + destruct (N.eqb_spec h 3) as [_|_]; [injection H1 as <-; discriminate H|]. destruct (N.eqb_spec h 4) as [->|_]; [|discriminate H1]. injection H1 as <-.
      unfold summ_block_parse in H. destruct (Nat.leb_spec (length rest) 32) as [|L]; [discriminate H|]. rewrite slice_in, slice_from_in in H by lia. cbn [bind] in H.
      apply bind_ok in H as (i & H1 & H). apply change_context_ok in H1. apply info_parse_inv in H1 as (W & e & r & C & E1); [|apply bytes_ok_skipn, Hrest].
      change (skipn 0 rest) with rest in *. change (32 - 0)%nat with 32%nat in *. apply ok_eq in H. subst b. split.
      * split; [exact W|]. split; [rewrite firstn_length; lia|apply bytes_ok_firstn, Hrest].
      * exists e, r. split; [exact C|]. rewrite <- E1, firstn_skipn. reflexivity.
  - intros (W & H). destruct b as [fee root i txs|i|i root]; [|destruct H|].
    + destruct H as (e & r & k & e' & C & -> & A & C' & E). apply assumed in A; [|exact (code_value _ _ C)]. subst k.
      unfold deserialize_main_chain_block. cbn [header_from_u8 N.eqb Pos.eqb change_context bind]. apply (tx_block_code fee root i txs e r e'); assumption.
    + destruct H as (e & r & C & ->). destruct W as (Wi & Wr). unfold deserialize_main_chain_block. cbn [header_from_u8 N.eqb Pos.eqb change_context bind]. unfold summ_block_parse.
      set (D := root ++ info_layout e i ++ r). assert (HlD : length D = (32 + (137 + length e) + length r)%nat) by (unfold D; rewrite !app_length, layout_length, (proj1 Wr) by exact Wi; lia).
      destruct (Nat.leb_spec (length D) 32) as [Hc|_]; [lia|].
      rewrite (slice_at D [] root (info_layout e i ++ r)) by (try reflexivity; cbn; rewrite (proj1 Wr); lia). cbn [bind].
      rewrite (slice_from_at D root (info_layout e i ++ r)) by (try reflexivity; apply (proj1 Wr)). cbn [bind]. rewrite info_parse_code by assumption. reflexivity.
Qed.
(*@E
Example C96_main_accepted_ex : let i := MkInfo 5 (repeat 1 32) (repeat 2 32) 9 (repeat 3 32) addrA in
  deserialize_main_chain_block (4 :: repeat 7 32 ++ info_layout [2; 0; 9] i ++ [1; 2; 3]) = Ok (SummBlock i (repeat 7 32)) /\
  deserialize_main_chain_block (2 :: repeat 7 32 ++ info_layout [1; 9] i ++ [2; 0; 6] ++ repeat 8 32) = Ok (TxBlock 6 (repeat 7 32) i [repeat 8 32]).
Proof. split; vm_compute; reflexivity. Qed.
@*)
(*@T C96.  If the height has its minimal code and is not zero, a transaction block is read as it is laid out: the fee, the transactions and nothing else. *)
Lemma p_C96_main_minimal : forall root i e rest fee root' i' txs, is_array 32 root -> info_wf i -> bi_height i <> 0 -> u256_minimal e (bi_height i) -> bytes_ok rest ->
  deserialize_main_chain_block (2 :: root ++ info_layout e i ++ rest) = Ok (TxBlock fee root' i' txs) ->
  root' = root /\ i' = i /\ exists e', u256_code e' fee /\ rest = e' ++ concat txs.
Proof.
  intros root i e rest fee root' i' txs Hr W Hn M Hrest H. apply code_minimal in M as [C L].
  assert (Hok : bytes_ok (2 :: root ++ info_layout e i ++ rest)).
  { constructor; [reflexivity|]. rewrite !bytes_ok_app. split; [apply Hr|]. split; [|exact Hrest]. unfold info_layout. pose proof W as (_ & (_ & H2) & (_ & H3) & _ & (_ & H5) & (_ & H6)). rewrite !bytes_ok_app. repeat split; auto using to_be_ok. exact (code_ok _ _ C). }
  cbn [deserialize_main_chain_block] in H. cbn [header_from_u8 N.eqb Pos.eqb change_context bind] in H.
  assert (Hi : i' = i /\ root' = root /\ exists e', u256_code e' fee /\ skipn (u256_size (bi_height i)) (e ++ rest) = e' ++ concat txs).
  { unfold tx_block_parse in H. set (D := root ++ info_layout e i ++ rest) in *. pose proof H as H0. fold (tx_block_parse D) in H0.
    apply tx_block_inv in H0 as (fee0 & root0 & i0 & txs0 & e0 & rest0 & e1 & E0 & W0 & C0 & C1 & ED & ES); [|inversion Hok; assumption]. injection E0 as <- <- <- <-. destruct W0 as (_ & (Wr0 & _) & Wi0 & _).
    unfold D in ED. apply app_inj_len in ED as [<- ED]; [|rewrite Wr0; apply Hr].
    assert (i' = i) as ->. { pose proof (info_parse_code i e rest W C) as P1. rewrite ED, (info_parse_code i' e0 rest0 Wi0 C0) in P1. congruence. }
    split; [reflexivity|]. split; [reflexivity|]. exists e1. split; [exact C1|].
    rewrite !layout_fields, <- !app_assoc in ED. apply app_inv_head in ED. rewrite ED. exact ES. }
  destruct Hi as (-> & -> & e' & C' & E). split; [reflexivity|]. split; [reflexivity|]. exists e'. split; [exact C'|].
  rewrite u256_size_nonzero, <- L in E by (try exact Hn; exact (code_value _ _ C)). rewrite skipn_app_exact in E by reflexivity. exact E.
Qed.
(*@E
Example C96_main_minimal_ex : u256_minimal [1; 9] 9 /\ ~ u256_minimal [2; 0; 9] 9.
Proof.
  split; [exists [9]; split; [reflexivity|]; split; [cbn; lia|]; split; [repeat constructor|]; split; [reflexivity|discriminate]|].
  intros (s & E & _ & _ & _ & H). injection E as _ <-. apply H. reflexivity.
Qed.
@*)
(*@T C96, refuted.  That a transaction block is read as it is laid out, whatever the code of its height: with one zero in front of the height, a block without transactions is read
   as one with another fee and a transaction. *)
Lemma p_C96_main_layout_refuted : ~ (forall fee root i txs e e' b, block_wf (TxBlock fee root i txs) -> bi_height i <> 0 -> u256_code e (bi_height i) -> u256_code e' fee ->
  deserialize_main_chain_block (2 :: root ++ info_layout e i ++ e' ++ concat txs) = Ok b -> b = TxBlock fee root i txs).
Proof.
  intros H. set (z := repeat 0 32). set (i := MkInfo 0 z z 1 z (repeat 0 33)). set (v := repeat 1 32).
  assert (Hz : is_array 32 z) by (split; [reflexivity|repeat constructor]). assert (Hv : bytes_ok v) by (repeat constructor).
  assert (C : u256_code [2; 0; 1] 1) by (exists [0; 1]; split; [reflexivity|]; split; [cbn; lia|]; split; [repeat constructor|reflexivity]).
  assert (C' : u256_code (32 :: v) (be_val v)) by (exists v; split; [reflexivity|]; split; [cbn; lia|]; split; [exact Hv|reflexivity]).
  assert (W : block_wf (TxBlock (be_val v) z i [])).
  { split; [exact (code_value _ _ C')|]. split; [exact Hz|]. split; [|constructor]. repeat split; try apply Hz; try reflexivity; repeat constructor. }
  specialize (H (be_val v) z i [] [2; 0; 1] (32 :: v) (TxBlock 32 z i [v]) W ltac:(discriminate) C C').
  assert (E : deserialize_main_chain_block (2 :: z ++ info_layout [2; 0; 1] i ++ (32 :: v) ++ concat []) = Ok (TxBlock 32 z i [v])) by (vm_compute; reflexivity).
  specialize (H E). discriminate H.
Qed.
(*@T C96.  The dump of a block is the shortest byte string that is read as it by the main chain, unless the block is a transaction block at height zero. *)
Lemma p_C96_main_shortest : forall d b, bytes_ok d -> deserialize_main_chain_block d = Ok b -> (forall fee root i txs, b = TxBlock fee root i txs -> bi_height i <> 0) ->
  (length (block_dump b) <= length d)%nat.
Proof.
  intros d b Hok H Hn. apply p_C96_main_accepted in H as [W H]; [|exact Hok]. rewrite block_dump_eq. destruct b as [fee root i txs|i|i root]; [|destruct H|].
  - destruct H as (e & r & k & e' & C & -> & A & C' & E). destruct W as (Wf & (Wr & _) & Wi & Wt). apply assumed in A; [|exact (code_value _ _ C)].
    rewrite u256_size_nonzero in A by (try exact (code_value _ _ C); exact (Hn _ _ _ _ eq_refl)). subst k.
    apply (f_equal (@length N)) in E. rewrite skipn_length, !app_length in E. pose proof (proj1 (code_shortest _ _ C')) as S'. pose proof (code_len _ _ C') as L'.
    cbn [length]. rewrite !app_length, layout_length by exact Wi. unfold info_enc. change (length (info_layout (enc (bi_height i)) i)) with (length (info_enc i)). 
    pose proof (info_enc_length i Wi) as L. unfold info_enc in L. rewrite L. lia.
  - destruct H as (e & r & C & ->). destruct W as (Wi & Wr & _). pose proof (proj1 (code_shortest _ _ C)) as S'. cbn [length]. rewrite !app_length, layout_length, info_enc_length by exact Wi. lia.
Qed.
(*@E
Example C96_main_shortest_ex : let i := MkInfo 5 (repeat 1 32) (repeat 2 32) 9 (repeat 3 32) addrA in
  let d := 2 :: repeat 7 32 ++ info_layout [1; 9] i ++ [2; 0; 6] ++ repeat 8 32 in
  match deserialize_main_chain_block d with Ok b => S (length (block_dump b)) = length d | _ => False end.
Proof. vm_compute. reflexivity. Qed.
@*)
