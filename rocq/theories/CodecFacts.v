(** Lemmas about Transaction.v and Block.v: encodings. *)
From Coq Require Import Lia ZifyBool ZifyNat ZifyN.
From Verif Require Import Base Sha256 Merkle Tools Transaction Block Spec BaseFacts ToolsFacts MerkleFacts.

Lemma slice_at (data l1 l2 l3 : bytes) i j :
  data = l1 ++ l2 ++ l3 -> length l1 = i -> (length l1 + length l2)%nat = j -> slice data i j = Ok l2.
Proof. intros ->. apply slice_app3. Qed.

Lemma slice_from_at (data l1 l2 : bytes) i : data = l1 ++ l2 -> length l1 = i -> slice_from data i = Ok l2.
Proof. intros ->. apply slice_from_app. Qed.

Lemma cons_inv {A} (a b : A) l m : a :: l = b :: m -> a = b /\ l = m.
Proof. intros E. split; [exact (f_equal (hd a) E)|exact (f_equal (@tl A) E)]. Qed.

(** ** Transactions *)

Lemma tx_dump_eq t : tx_dump t =
  0 :: tx_sender t ++ tx_receiver t ++ to_be 8 (tx_timestamp t) ++ tx_signature t ++
  enc (tx_amount t) ++ data_or_empty (tx_data t).
Proof.
  unfold tx_dump. rewrite dump_u256_eq. cbn [header_code app]. rewrite <- !app_assoc. reflexivity.
Qed.

Lemma signed_bytes_eq s r ts a d : signed_bytes s r ts a d =
  0 :: s ++ r ++ to_be 8 ts ++ enc a ++ data_or_empty d.
Proof.
  unfold signed_bytes. rewrite dump_u256_eq. cbn [header_code app]. rewrite <- !app_assoc. reflexivity.
Qed.

Lemma tx_dump_hash_irrel s r ts sg a d h h' : tx_dump (MkTx s r ts sg a d h) = tx_dump (MkTx s r ts sg a d h').
Proof. reflexivity. Qed.

Definition norm_data (d : option bytes) : option bytes :=
  match d with Some [] => None | x => x end.

Lemma tx_parse_layout s r ts sg amt data :
  is_array 33 s -> is_array 33 r -> u64_ok ts -> is_array 64 sg -> u256_ok amt ->
  tx_parse (s ++ r ++ to_be 8 ts ++ sg ++ enc amt ++ data) =
  Ok (tx_new_signed s r ts amt (norm_data (Some data)) sg).
Proof.
  intros (Hs & _) (Hr & _) Hts (Hsg & _) Ha.
  set (D := s ++ r ++ to_be 8 ts ++ sg ++ enc amt ++ data).
  assert (HlD : length D = (138 + S (length (payload amt)) + length data)%nat).
  { unfold D. rewrite !app_length, to_be_length, enc_length. lia. }
  unfold tx_parse.
  destruct (Nat.ltb_spec (length D) 139) as [Hc|_]; [lia|].
  rewrite (slice_at D [] s (r ++ to_be 8 ts ++ sg ++ enc amt ++ data)) by (try reflexivity; cbn; lia).
  cbn [bind].
  rewrite (slice_at D s r (to_be 8 ts ++ sg ++ enc amt ++ data)) by (try reflexivity; lia).
  cbn [bind].
  rewrite (slice_at D (s ++ r) (to_be 8 ts) (sg ++ enc amt ++ data))
    by (rewrite ?app_length, ?to_be_length; try lia; unfold D; rewrite <- ?app_assoc; reflexivity).
  cbn [bind].
  rewrite (slice_at D (s ++ r ++ to_be 8 ts) sg (enc amt ++ data))
    by (rewrite ?app_length, ?to_be_length; try lia; unfold D; rewrite <- ?app_assoc; reflexivity).
  cbn [bind].
  rewrite (slice_from_at D (s ++ r ++ to_be 8 ts ++ sg) (enc amt ++ data))
    by (rewrite ?app_length, ?to_be_length; try lia; unfold D; rewrite <- ?app_assoc; reflexivity).
  cbn [bind]. rewrite load_enc by exact Ha. cbn [change_context bind].
  rewrite from_to_be_small by (exact Hts).
  destruct (Nat.eqb_spec (138 + (length (payload amt) + 1)) (length D)) as [E|E].
  - destruct data as [|b data]; [reflexivity|]. cbn [length] in HlD. lia.
  - rewrite (slice_from_at D (s ++ r ++ to_be 8 ts ++ sg ++ enc amt) data)
      by (rewrite ?app_length, ?to_be_length, ?enc_length; try lia; unfold D; rewrite <- ?app_assoc; reflexivity).
    cbn [bind].
    destruct (Nat.eqb_spec (138 + (length (payload amt) + 1) + length data) (length D)) as [_|Hc]; [|lia].
    cbn [negb]. destruct data as [|b data]; [cbn [length] in HlD; lia|]. reflexivity.
Qed.

Definition tx_new_of (t : transaction) : transaction :=
  tx_new_signed (tx_sender t) (tx_receiver t) (tx_timestamp t) (tx_amount t) (tx_data t) (tx_signature t).

(** Transactions as every constructor makes them: the hash is that of the dump. *)
Definition tx_built (t : transaction) : Prop := tx_wf t /\ tx_hash t = sha256 (tx_dump t).

Lemma tx_new_signed_hash s r ts a d sg : tx_hash (tx_new_signed s r ts a d sg) =
  sha256 (tx_dump (tx_new_signed s r ts a d sg)).
Proof. reflexivity. Qed.

Lemma tx_new_signed_built s r ts a d sg :
  is_array 33 s -> is_array 33 r -> u64_ok ts -> is_array 64 sg -> u256_ok a ->
  match d with Some x => bytes_ok x | None => True end -> tx_built (tx_new_signed s r ts a d sg).
Proof. intros. split; [repeat split; cbn; try apply H; try apply H0; try apply H2; assumption|reflexivity]. Qed.

Lemma tx_parse_dump t : tx_wf t ->
  tx_parse (tl (tx_dump t)) =
  Ok (tx_new_signed (tx_sender t) (tx_receiver t) (tx_timestamp t) (tx_amount t)
        (norm_data (tx_data t)) (tx_signature t)).
Proof.
  intros (H1 & H2 & H3 & H4 & H5 & H6). rewrite tx_dump_eq. cbn [tl].
  rewrite tx_parse_layout by assumption. destruct (tx_data t) as [d|]; reflexivity.
Qed.

Lemma tx_eta t : tx_hash t = sha256 (tx_dump t) -> t = tx_new_of t.
Proof. destruct t as [s r ts sg a d h]. cbn. intros ->. reflexivity. Qed.

Lemma norm_data_dump d : data_or_empty (norm_data d) = data_or_empty d.
Proof. destruct d as [[|]|]; reflexivity. Qed.

Lemma tx_roundtrip t : tx_built t -> tx_data t <> Some [] -> tx_parse (tl (tx_dump t)) = Ok t.
Proof.
  intros [Hwf Hh] Hd. rewrite tx_parse_dump by exact Hwf. f_equal.
  transitivity (tx_new_of t); [|symmetry; apply tx_eta, Hh]. unfold tx_new_of. f_equal.
  destruct (tx_data t) as [[|]|] eqn:Ed; try reflexivity. contradiction Hd; reflexivity.
Qed.

Lemma tx_dump_length t : tx_wf t -> length (tx_dump t) =
  (139 + length (enc (tx_amount t)) + length (data_or_empty (tx_data t)))%nat.
Proof.
  intros ((H1 & _) & (H2 & _) & H3 & (H4 & _) & H5 & H6). rewrite tx_dump_eq. cbn [length].
  rewrite !app_length, to_be_length. lia.
Qed.

Lemma tx_dump_size t : tx_wf t ->
  tx_get_dump_size t = (length (tx_dump t) + if (tx_amount t =? 0)%N then 1 else 0)%nat.
Proof.
  intros H. rewrite tx_dump_length by exact H. unfold tx_get_dump_size.
  destruct H as (_ & _ & _ & _ & Ha & _).
  destruct (N.eqb_spec (tx_amount t) 0) as [E|E].
  - rewrite E, enc_0, u256_size_0. cbn [length]. lia.
  - rewrite u256_size_nonzero by assumption. lia.
Qed.

(** Exact behaviour of [parse]. *)
Lemma tx_parse_cases data : bytes_ok data ->
  match tx_parse data with
  | Ok t => tx_built t /\ tx_data t <> Some [] /\ (139 <= length data)%nat
  | Err e => e = ETxParse
  | Panic => exists b, nth_error data 138 = Some b /\ 1 <= b <= 32 /\ length data = (138 + N.to_nat b)%nat
  | UB => False
  end.
Proof.
  intros Hok. unfold tx_parse.
  destruct (Nat.ltb_spec (length data) 139) as [_|Hl]; [reflexivity|].
  rewrite !slice_in by lia. rewrite slice_from_in by lia. cbn [bind].
  assert (Hrok : bytes_ok (skipn 138 data)) by (apply bytes_ok_skipn, Hok).
  assert (Harr : forall i j, (i <= j)%nat -> (j <= length data)%nat -> is_array (j - i) (firstn (j - i) (skipn i data))).
  { intros i j H1 H2. split; [rewrite firstn_length, skipn_length; lia|apply bytes_ok_firstn, bytes_ok_skipn, Hok]. }
  assert (Hlen : length (skipn 138 data) = (length data - 138)%nat) by apply skipn_length.
  destruct (skipn 138 data) as [|b t] eqn:Esk; [cbn in Hlen; lia|]. cbn [length] in Hlen.
  rewrite load_u256_cases by exact Hrok.
  assert (Hnth : nth_error data 138 = Some b).
  { rewrite <- (firstn_skipn 138 data), Esk, nth_error_app2 by (rewrite firstn_length; lia).
    rewrite firstn_length. replace (138 - Nat.min 138 (length data))%nat with 0%nat by lia. reflexivity. }
  destruct (N.ltb_spec 32 b); [reflexivity|].
  destruct (N.ltb_spec (N.of_nat (length t) + 1) b); [reflexivity|].
  destruct (N.ltb_spec (N.of_nat (length t)) b).
  { cbn [change_context bind]. exists b. split; [exact Hnth|]. lia. }
  cbn [change_context bind].
  assert (Hamt : u256_ok (from_be (firstn (N.to_nat b) t))).
  { inversion Hrok; subst. apply from_be_u256; [apply bytes_ok_firstn; assumption|rewrite firstn_length; lia]. }
  assert (Hts : u64_ok (from_be (firstn (74 - 66) (skipn 66 data)))).
  { pose proof (from_be_bound (firstn (74 - 66) (skipn 66 data)) ltac:(apply (Harr 66%nat 74%nat); lia)) as Hb.
    replace (length (firstn (74 - 66) (skipn 66 data))) with 8%nat in Hb by (rewrite firstn_length, skipn_length; lia).
    exact Hb. }
  destruct (Nat.eqb_spec (138 + (N.to_nat b + 1)) (length data)) as [E|E].
  - split; [|split; [cbn; discriminate|lia]].
    apply tx_new_signed_built; try assumption; try exact I; apply Harr; lia.
  - rewrite slice_from_in by lia. cbn [bind].
    destruct (Nat.eqb_spec (138 + (N.to_nat b + 1) + length (skipn (138 + (N.to_nat b + 1)) data)) (length data)) as [_|Hc];
      [|rewrite skipn_length in Hc; lia]. cbn [negb].
    split; [|split; [|lia]].
    + apply tx_new_signed_built; try assumption; try (apply Harr; lia). apply bytes_ok_skipn, Hok.
    + cbn [tx_data tx_new_signed]. intros Hc.
      apply (f_equal (fun o => length (data_or_empty o))) in Hc. unfold data_or_empty in Hc.
      rewrite skipn_length in Hc. cbn [length] in Hc. lia.
Qed.

Lemma tx_parse_panic data b : nth_error data 138 = Some b -> 1 <= b <= 32 ->
  length data = (138 + N.to_nat b)%nat -> tx_parse data = Panic.
Proof.
  intros Hn Hb Hl. unfold tx_parse.
  destruct (Nat.ltb_spec (length data) 139) as [|_]; [lia|].
  rewrite !slice_in by lia. rewrite slice_from_in by lia. cbn [bind].
  assert (Hlen : length (skipn 138 data) = (length data - 138)%nat) by apply skipn_length.
  rewrite <- (firstn_skipn 138 data), nth_error_app2 in Hn by (rewrite firstn_length; lia).
  rewrite firstn_length in Hn. replace (138 - Nat.min 138 (length data))%nat with 0%nat in Hn by lia.
  destruct (skipn 138 data) as [|b' t]; [discriminate|]. injection Hn as ->.
  unfold load_u256. cbn [index nth_error bind].
  destruct (Nat.ltb_spec 32 (N.to_nat b)); [lia|].
  destruct (Nat.ltb_spec (length (b :: t)) (N.to_nat b)); [lia|].
  rewrite slice_panic by lia. reflexivity.
Qed.

(** The dump determines the fields (absent and empty data look alike). *)
Lemma tx_dump_inj t t' : tx_wf t -> tx_wf t' -> tx_dump t = tx_dump t' ->
  tx_sender t = tx_sender t' /\ tx_receiver t = tx_receiver t' /\ tx_timestamp t = tx_timestamp t' /\
  tx_signature t = tx_signature t' /\ tx_amount t = tx_amount t' /\
  data_or_empty (tx_data t) = data_or_empty (tx_data t').
Proof.
  intros ((H1 & _) & (H2 & _) & H3 & (H4 & _) & H5 & _) ((H1' & _) & (H2' & _) & H3' & (H4' & _) & H5' & _).
  rewrite !tx_dump_eq. intros E. apply (f_equal (@tl N)) in E. cbn [tl] in E.
  apply app_inj_len in E as [Es E]; [|congruence].
  apply app_inj_len in E as [Er E]; [|congruence].
  apply app_inj_len in E as [Et E]; [|rewrite !to_be_length; reflexivity].
  apply app_inj_len in E as [Eg E]; [|congruence].
  apply enc_inj_app in E as [Ea Ed]; [|assumption..].
  apply to_be_inj in Et; [|assumption..]. repeat split; assumption.
Qed.

Lemma signed_bytes_inj s r ts a d s' r' ts' a' d' :
  is_array 33 s -> is_array 33 r -> u64_ok ts -> u256_ok a ->
  is_array 33 s' -> is_array 33 r' -> u64_ok ts' -> u256_ok a' ->
  signed_bytes s r ts a d = signed_bytes s' r' ts' a' d' ->
  s = s' /\ r = r' /\ ts = ts' /\ a = a' /\ data_or_empty d = data_or_empty d'.
Proof.
  intros (H1 & _) (H2 & _) H3 H4 (H1' & _) (H2' & _) H3' H4'. rewrite !signed_bytes_eq. intros E. apply (f_equal (@tl N)) in E. cbn [tl] in E.
  apply app_inj_len in E as [Es E]; [|congruence].
  apply app_inj_len in E as [Er E]; [|congruence].
  apply app_inj_len in E as [Et E]; [|rewrite !to_be_length; reflexivity].
  apply enc_inj_app in E as [Ea Ed]; [|assumption..].
  apply to_be_inj in Et; [|assumption..]. repeat split; assumption.
Qed.

(** ** Block headers *)

Definition info_enc (i : basic_info) : bytes :=
  to_be 8 (bi_timestamp i) ++ bi_previous_hash i ++ bi_pow i ++ bi_difficulty i ++ bi_founder i ++ enc (bi_height i).

Lemma info_dump_eq i buf : info_dump i buf = buf ++ info_enc i.
Proof. unfold info_dump, info_enc. rewrite dump_u256_eq, <- !app_assoc. reflexivity. Qed.

Lemma info_enc_length i : info_wf i -> length (info_enc i) = (137 + length (enc (bi_height i)))%nat.
Proof.
  intros (_ & (H2 & _) & (H3 & _) & _ & (H5 & _) & (H6 & _)). unfold info_enc.
  rewrite !app_length, to_be_length. lia.
Qed.

Lemma info_size i : info_wf i ->
  info_get_dump_size i = (length (info_enc i) + if (bi_height i =? 0)%N then 1 else 0)%nat.
Proof.
  intros H. rewrite info_enc_length by exact H. unfold info_get_dump_size.
  destruct H as (_ & _ & _ & Hh & _).
  destruct (N.eqb_spec (bi_height i) 0) as [E|E].
  - rewrite E, enc_0, u256_size_0. cbn [length]. lia.
  - rewrite u256_size_nonzero by assumption. lia.
Qed.

Lemma info_roundtrip i s : info_wf i -> info_parse (info_enc i ++ s) = Ok i.
Proof.
  intros Hwf. pose proof (info_enc_length i Hwf) as Hle.
  destruct i as [ts pow prev h diff fo]. destruct Hwf as (H1 & (H2 & _) & (H3 & _) & H4 & (H5 & _) & (H6 & _)).
  cbn [bi_timestamp bi_pow bi_previous_hash bi_height bi_difficulty bi_founder] in *.
  set (D := info_enc _ ++ s) in *.
  assert (HlD : (138 <= length D)%nat) by (unfold D; rewrite app_length, Hle, enc_length; lia).
  assert (HD : D = to_be 8 ts ++ prev ++ pow ++ diff ++ fo ++ enc h ++ s).
  { unfold D, info_enc. cbn. rewrite <- !app_assoc. reflexivity. }
  unfold info_parse. destruct (Nat.leb_spec (length D) 105) as [|_]; [lia|].
  rewrite (slice_at D [] (to_be 8 ts) (prev ++ pow ++ diff ++ fo ++ enc h ++ s))
    by (rewrite ?to_be_length; try reflexivity; exact HD).
  cbn [bind].
  rewrite (slice_at D (to_be 8 ts) prev (pow ++ diff ++ fo ++ enc h ++ s))
    by (rewrite ?to_be_length; try lia; exact HD).
  cbn [bind].
  rewrite (slice_at D (to_be 8 ts ++ prev) pow (diff ++ fo ++ enc h ++ s))
    by (rewrite ?app_length, ?to_be_length; try lia; rewrite HD, <- ?app_assoc; reflexivity).
  cbn [bind].
  rewrite (slice_at D (to_be 8 ts ++ prev ++ pow) diff (fo ++ enc h ++ s))
    by (rewrite ?app_length, ?to_be_length; try lia; rewrite HD, <- ?app_assoc; reflexivity).
  cbn [bind].
  rewrite (slice_at D (to_be 8 ts ++ prev ++ pow ++ diff) fo (enc h ++ s))
    by (rewrite ?app_length, ?to_be_length; try lia; rewrite HD, <- ?app_assoc; reflexivity).
  cbn [bind].
  rewrite (slice_from_at D (to_be 8 ts ++ prev ++ pow ++ diff ++ fo) (enc h ++ s))
    by (rewrite ?app_length, ?to_be_length; try lia; rewrite HD, <- ?app_assoc; reflexivity).
  cbn [bind]. rewrite load_enc by exact H4. cbn [change_context bind].
  rewrite from_to_be_small by exact H1. reflexivity.
Qed.

Lemma info_enc_inj i i' s s' : info_wf i -> info_wf i' -> info_enc i ++ s = info_enc i' ++ s' -> i = i' /\ s = s'.
Proof.
  intros H H' E. assert (i = i') as ->.
  { pose proof (info_roundtrip i s H) as R. rewrite E, info_roundtrip in R by exact H'. congruence. }
  split; [reflexivity|]. apply app_inv_head in E. exact E.
Qed.

Lemma info_parse_cases data : bytes_ok data ->
  match info_parse data with
  | Ok i => info_wf i /\ (138 <= length data)%nat
  | Err e => e = EBasicInfoParse
  | Panic => (105 < length data < 138)%nat \/
             exists b, nth_error data 137 = Some b /\ 1 <= b <= 32 /\ length data = (137 + N.to_nat b)%nat
  | UB => False
  end.
Proof.
  intros Hok. unfold info_parse.
  destruct (Nat.leb_spec (length data) 105) as [_|Hl]; [reflexivity|].
  destruct (le_lt_dec 137 (length data)) as [Hl2|Hl2].
  2:{ rewrite (slice_panic data 104 137) by lia.
      rewrite (slice_in data 0 8), (slice_in data 8 40), (slice_in data 40 72), (slice_in data 72 104) by lia.
      cbn [bind]. left. lia. }
  rewrite !slice_in by lia. rewrite slice_from_in by lia. cbn [bind].
  assert (Hrok : bytes_ok (skipn 137 data)) by (apply bytes_ok_skipn, Hok).
  assert (Harr : forall i j, (i <= j)%nat -> (j <= length data)%nat -> is_array (j - i) (firstn (j - i) (skipn i data))).
  { intros i j H1 H2. split; [rewrite firstn_length, skipn_length; lia|apply bytes_ok_firstn, bytes_ok_skipn, Hok]. }
  assert (Hlen : length (skipn 137 data) = (length data - 137)%nat) by apply skipn_length.
  destruct (skipn 137 data) as [|b t] eqn:Esk.
  { cbn [length] in Hlen. cbn. left. lia. }
  cbn [length] in Hlen. rewrite load_u256_cases by exact Hrok.
  assert (Hnth : nth_error data 137 = Some b).
  { rewrite <- (firstn_skipn 137 data), Esk, nth_error_app2 by (rewrite firstn_length; lia).
    rewrite firstn_length. replace (137 - Nat.min 137 (length data))%nat with 0%nat by lia. reflexivity. }
  destruct (N.ltb_spec 32 b); [reflexivity|].
  destruct (N.ltb_spec (N.of_nat (length t) + 1) b); [reflexivity|].
  destruct (N.ltb_spec (N.of_nat (length t)) b).
  { cbn [change_context bind]. right. exists b. split; [exact Hnth|]. lia. }
  cbn [change_context bind]. split; [|lia].
  repeat split; cbn [bi_timestamp bi_pow bi_previous_hash bi_height bi_difficulty bi_founder];
    try (apply (Harr 40%nat 72%nat); lia); try (apply (Harr 8%nat 40%nat); lia);
    try (apply (Harr 72%nat 104%nat); lia); try (apply (Harr 104%nat 137%nat); lia).
  - pose proof (from_be_bound (firstn (8 - 0) (skipn 0 data)) ltac:(apply (Harr 0%nat 8%nat); lia)) as Hb.
    replace (length (firstn (8 - 0) (skipn 0 data))) with 8%nat in Hb by (rewrite firstn_length, skipn_length; lia).
    exact Hb.
  - inversion Hrok; subst. apply from_be_u256; [apply bytes_ok_firstn; assumption|rewrite firstn_length; lia].
Qed.

Lemma info_parse_panic data :
  (105 < length data < 138)%nat \/
  (exists b, nth_error data 137 = Some b /\ 1 <= b <= 32 /\ length data = (137 + N.to_nat b)%nat) ->
  info_parse data = Panic.
Proof.
  intros H. unfold info_parse.
  assert (Hl : (105 < length data)%nat) by (destruct H as [H|(b & _ & H)]; lia).
  destruct (Nat.leb_spec (length data) 105) as [|_]; [lia|].
  rewrite (slice_in data 0 8), (slice_in data 8 40), (slice_in data 40 72) by lia. cbn [bind].
  destruct (le_lt_dec 104 (length data)) as [Hl1|Hl1]; [|lia].
  rewrite (slice_in data 72 104) by lia. cbn [bind].
  destruct (le_lt_dec 137 (length data)) as [Hl2|Hl2]; [|rewrite (slice_panic data 104 137) by lia; reflexivity].
  rewrite slice_in by lia. rewrite slice_from_in by lia. cbn [bind].
  assert (Hlen : length (skipn 137 data) = (length data - 137)%nat) by apply skipn_length.
  destruct H as [H|(b & Hn & Hb & H)].
  - destruct (skipn 137 data); [reflexivity|cbn [length] in Hlen; lia].
  - rewrite <- (firstn_skipn 137 data), nth_error_app2 in Hn by (rewrite firstn_length; lia).
    rewrite firstn_length in Hn. replace (137 - Nat.min 137 (length data))%nat with 0%nat in Hn by lia.
    destruct (skipn 137 data) as [|b' t]; [discriminate|]. injection Hn as ->.
    unfold load_u256. cbn [index nth_error bind].
    destruct (Nat.ltb_spec 32 (N.to_nat b)); [lia|].
    destruct (Nat.ltb_spec (length (b :: t)) (N.to_nat b)); [lia|].
    rewrite slice_panic by lia. reflexivity.
Qed.

(** ** Blocks *)

Lemma block_dump_eq b : block_dump b =
  match b with
  | TxBlock fee root info txs => 2 :: root ++ info_enc info ++ enc fee ++ concat txs
  | DerivBlock info => 3 :: info_enc info
  | SummBlock info root => 4 :: root ++ info_enc info
  end.
Proof.
  destruct b as [fee root info txs|info|info root]; cbn [block_dump header_code];
    rewrite ?dump_u256_eq, info_dump_eq; cbn [app]; rewrite <- ?app_assoc; reflexivity.
Qed.

Lemma concat_len txs : Forall (is_array 32) txs -> length (concat txs) = (32 * length txs)%nat.
Proof.
  induction 1 as [|x l [Hx _] Hl IH]; cbn [concat length]; [reflexivity|]. rewrite app_length. lia.
Qed.

Lemma chunks32_concat fuel txs : Forall (is_array 32) txs -> (length txs <= fuel)%nat ->
  chunks32 fuel (concat txs) = Ok txs.
Proof.
  intros H. revert fuel; induction H as [|x l [Hx Hxo] Hl IH]; intros fuel Hf; cbn [concat].
  - destruct fuel; reflexivity.
  - destruct fuel as [|fuel]; [cbn in Hf; lia|]. cbn [length] in Hf.
    destruct (x ++ concat l) as [|y ys] eqn:E.
    { apply (f_equal (@length _)) in E. rewrite app_length in E. cbn in E. lia. }
    cbn [chunks32]. rewrite <- E.
    rewrite (slice_at _ [] x (concat l)) by (try reflexivity; cbn; lia). cbn [bind].
    rewrite skipn_app_exact by exact Hx. rewrite IH by lia. reflexivity.
Qed.

Lemma concat32_inj l l' : Forall (is_array 32) l -> Forall (is_array 32) l' -> concat l = concat l' -> l = l'.
Proof.
  intros H H' E.
  pose proof (chunks32_concat (length l + length l') l H ltac:(lia)) as R.
  rewrite E, chunks32_concat in R by (try assumption; lia). congruence.
Qed.

Lemma chunks32_ok fuel data : (length data mod 32 = 0)%nat -> (length data <= fuel)%nat -> bytes_ok data ->
  exists l, chunks32 fuel data = Ok l /\ Forall (is_array 32) l /\ concat l = data.
Proof.
  revert data; induction fuel as [|fuel IH]; intros data Hm Hf Hok.
  - destruct data; [|cbn in Hf; lia]. exists []. auto.
  - destruct data as [|b data']; [exists []; auto|]. set (data := b :: data') in *.
    assert (Hge : (32 <= length data)%nat).
    { destruct (le_lt_dec 32 (length data)) as [|Hlt]; [assumption|].
      rewrite Nat.mod_small in Hm by lia. unfold data in Hm. cbn in Hm. lia. }
    change (chunks32 (S fuel) data) with
      (let! c := slice data 0 32 in let! r := chunks32 fuel (skipn 32 data) in Ok (c :: r)).
    rewrite slice_in by lia. cbn [bind].
    assert (Hm' : (length (skipn 32 data) mod 32 = 0)%nat).
    { rewrite skipn_length. replace (length data) with (length data - 32 + 1 * 32)%nat in Hm by lia.
      rewrite Nat.mod_add in Hm by lia. exact Hm. }
    destruct (IH (skipn 32 data) Hm' ltac:(rewrite skipn_length; lia) (bytes_ok_skipn _ _ Hok)) as (l & Hl & Hfa & Hc).
    rewrite Hl. cbn [bind]. eexists. split; [reflexivity|]. split.
    + constructor; [|exact Hfa]. split; [rewrite firstn_length, skipn_length; lia|apply bytes_ok_firstn, bytes_ok_skipn, Hok].
    + cbn [concat]. rewrite Hc. apply firstn_skipn.
Qed.

Lemma info_enc_ok i : info_wf i -> bytes_ok (info_enc i).
Proof.
  intros (H1 & (_ & H2) & (_ & H3) & H4 & (_ & H5) & (_ & H6)). unfold info_enc.
  rewrite !bytes_ok_app. repeat split; auto using to_be_ok, enc_ok.
Qed.

Lemma deserialize_tx fee root info txs : block_wf (TxBlock fee root info txs) -> bi_height info <> 0 ->
  deserialize_main_chain_block (block_dump (TxBlock fee root info txs)) = Ok (TxBlock fee root info txs).
Proof.
  intros (Hf & (Hr & _) & Hi & Ht) Hh. rewrite block_dump_eq.
  unfold deserialize_main_chain_block. cbn [header_from_u8 N.eqb Pos.eqb change_context bind].
  unfold tx_block_parse. set (D := root ++ info_enc info ++ enc fee ++ concat txs).
  rewrite (slice_at D [] root (info_enc info ++ enc fee ++ concat txs)) by (try reflexivity; cbn; lia).
  cbn [bind].
  rewrite (slice_from_at D root (info_enc info ++ enc fee ++ concat txs)) by (try reflexivity; lia).
  cbn [bind]. rewrite info_roundtrip by exact Hi. cbn [change_context bind].
  rewrite info_size by exact Hi. destruct (N.eqb_spec (bi_height info) 0) as [|_]; [contradiction|].
  rewrite Nat.add_0_r.
  rewrite (slice_from_at D (root ++ info_enc info) (enc fee ++ concat txs))
    by (rewrite ?app_length; try lia; unfold D; rewrite <- ?app_assoc; reflexivity).
  cbn [bind]. rewrite load_enc by exact Hf. cbn [change_context bind].
  assert (HlD : length D = (32 + length (info_enc info) + (length (payload fee) + 1) + 32 * length txs)%nat).
  { unfold D. rewrite !app_length, enc_length, concat_len by exact Ht. lia. }
  rewrite HlD.
  replace (32 + length (info_enc info) + (length (payload fee) + 1) + 32 * length txs -
           (32 + length (info_enc info) + (length (payload fee) + 1)))%nat with (0 + length txs * 32)%nat by lia.
  rewrite Nat.mod_add by lia. cbn [Nat.modulo Nat.eqb negb].
  change (Nat.eqb (0 mod 32) 0) with true. cbn [negb].
  replace (skipn (32 + length (info_enc info) + (length (payload fee) + 1)) D) with (concat txs).
  2:{ unfold D. rewrite !app_assoc. rewrite skipn_app_exact; [reflexivity|].
      rewrite !app_length, enc_length. lia. }
  rewrite chunks32_concat by (try assumption; lia). reflexivity.
Qed.

Lemma deserialize_summ info root : block_wf (SummBlock info root) ->
  deserialize_main_chain_block (block_dump (SummBlock info root)) = Ok (SummBlock info root).
Proof.
  intros (Hi & (Hr & _)). rewrite block_dump_eq.
  unfold deserialize_main_chain_block. cbn [header_from_u8 N.eqb Pos.eqb change_context bind].
  unfold summ_block_parse. set (D := root ++ info_enc info).
  assert (HlD : (32 < length D)%nat).
  { unfold D. rewrite app_length, info_enc_length, enc_length by exact Hi. lia. }
  destruct (Nat.leb_spec (length D) 32) as [|_]; [lia|].
  rewrite (slice_at D [] root (info_enc info)) by (try reflexivity; cbn; lia). cbn [bind].
  rewrite (slice_from_at D root (info_enc info)) by (try reflexivity; lia). cbn [bind].
  rewrite <- (app_nil_r (info_enc info)), info_roundtrip by exact Hi. reflexivity.
Qed.

Lemma deriv_roundtrip info : info_wf info ->
  deriv_block_parse (tl (block_dump (DerivBlock info))) = Ok (DerivBlock info).
Proof.
  intros Hi. rewrite block_dump_eq. cbn [tl]. unfold deriv_block_parse.
  destruct (Nat.ltb_spec (length (info_enc info)) 32) as [Hc|_].
  { rewrite info_enc_length, enc_length in Hc by exact Hi. lia. }
  rewrite <- (app_nil_r (info_enc info)), info_roundtrip by exact Hi. reflexivity.
Qed.

Lemma deserialize_deriv info : deserialize_main_chain_block (block_dump (DerivBlock info)) = Err EWrongHeader.
Proof. rewrite block_dump_eq. reflexivity. Qed.

Lemma deserialize_txdump t : deserialize_main_chain_block (tx_dump t) = Err EWrongHeader.
Proof. rewrite tx_dump_eq. reflexivity. Qed.

Lemma block_dump_inj b b' : block_wf b -> block_wf b' -> block_dump b = block_dump b' -> b = b'.
Proof.
  rewrite !block_dump_eq. destruct b as [fee root info txs|info|info root], b' as [fee' root' info' txs'|info'|info' root'];
    cbn [block_wf]; intros H H' E; apply cons_inv in E as [Eh E]; try discriminate Eh; clear Eh.
  - destruct H as (Hf & (Hr & _) & Hi & Ht), H' as (Hf' & (Hr' & _) & Hi' & Ht').
    apply app_inj_len in E as [-> E]; [|congruence].
    apply info_enc_inj in E as [-> E]; [|assumption..].
    apply enc_inj_app in E as [-> E]; [|assumption..].
    apply concat32_inj in E as ->; [reflexivity|assumption..].
  - rewrite <- (app_nil_r (info_enc info)), <- (app_nil_r (info_enc info')) in E.
    apply info_enc_inj in E as [-> _]; [reflexivity|assumption..].
  - destruct H as (Hi & (Hr & _)), H' as (Hi' & (Hr' & _)).
    apply app_inj_len in E as [-> E]; [|congruence].
    rewrite <- (app_nil_r (info_enc info)), <- (app_nil_r (info_enc info')) in E.
    apply info_enc_inj in E as [-> _]; [reflexivity|assumption..].
Qed.

Lemma block_dump_ok b : block_wf b -> bytes_ok (block_dump b).
Proof.
  rewrite block_dump_eq. destruct b as [fee root info txs|info|info root]; cbn [block_wf].
  - intros (Hf & (_ & Hr) & Hi & Ht). constructor; [reflexivity|].
    rewrite !bytes_ok_app. repeat split; auto using info_enc_ok, enc_ok.
    induction Ht as [|x l [_ Hx] _ IH]; cbn [concat]; [constructor|]. apply bytes_ok_app; auto.
  - intros Hi. constructor; [reflexivity|]. apply info_enc_ok, Hi.
  - intros (Hi & (_ & Hr)). constructor; [reflexivity|]. apply bytes_ok_app; auto using info_enc_ok.
Qed.

Lemma block_size b : block_wf b ->
  block_get_dump_size b =
  (length (block_dump b) + (if (bi_height (get_info b) =? 0)%N then 1 else 0) +
   match b with TxBlock fee _ _ _ => if (fee =? 0)%N then 1 else 0 | _ => 0 end)%nat.
Proof.
  rewrite block_dump_eq. destruct b as [fee root info txs|info|info root]; cbn [block_wf block_get_dump_size get_info].
  - intros (Hf & (Hr & _) & Hi & Ht). rewrite info_size by exact Hi. cbn [length].
    rewrite !app_length, concat_len by exact Ht.
    destruct (N.eqb_spec fee 0) as [->|E]; [rewrite enc_0, u256_size_0; cbn [length]|rewrite u256_size_nonzero by assumption]; lia.
  - intros Hi. rewrite info_size by exact Hi. cbn [length]. lia.
  - intros (Hi & (Hr & _)). rewrite info_size by exact Hi. cbn [length]. rewrite !app_length. lia.
Qed.

(** The parsers never reach undefined behaviour, and what they return is well formed. *)
Lemma deserialize_no_ub data : bytes_ok data ->
  match deserialize_main_chain_block data with
  | Ok b => block_wf b /\ match b with DerivBlock _ => False | _ => True end
  | Err _ => True | Panic => True | UB => False
  end.
Proof.
  intros Hok. unfold deserialize_main_chain_block. destruct data as [|h rest]; [exact I|].
  inversion Hok as [|? ? Hh Hrest]; subst.
  destruct (header_from_u8 h) as [hd|e| |] eqn:Eh; cbn [change_context bind]; try exact I.
  2:{ unfold header_from_u8 in Eh. repeat (destruct (N.eqb h _); [discriminate|]). discriminate. }
  destruct hd; try exact I.
  - unfold tx_block_parse.
    destruct (le_lt_dec 32 (length rest)) as [Hl|Hl]; [|rewrite slice_panic by lia; exact I].
    rewrite slice_in, slice_from_in by lia. cbn [bind].
    pose proof (info_parse_cases (skipn 32 rest) (bytes_ok_skipn _ _ Hrest)) as Hi.
    destruct (info_parse (skipn 32 rest)) as [i|e| |]; cbn [change_context bind]; try exact I; [|contradiction].
    destruct Hi as [Hi _].
    unfold slice_from. destruct (Nat.leb_spec (32 + info_get_dump_size i) (length rest)) as [Hs|Hs]; [|exact I].
    cbn [bind]. set (ix := (32 + info_get_dump_size i)%nat) in *.
    assert (Hlk := bytes_ok_skipn ix rest Hrest).
    destruct (load_u256 (skipn ix rest)) as [[fee n]|e| |] eqn:El; cbn [change_context bind]; try exact I.
    2:{ rewrite load_u256_cases in El by exact Hlk. destruct (skipn ix rest) as [|b t]; [discriminate|].
        destruct (32 <? b); [discriminate|]. destruct (_ <? _); [discriminate|]. destruct (_ <? _); discriminate. }
    pose proof (load_u256_value_ok _ _ _ Hlk El) as Hfee.
    destruct (Nat.eqb_spec ((length rest - (ix + (n + 1))) mod 32) 0) as [Hm|Hm]; [|exact I]. cbn [negb].
    destruct (chunks32_ok (length rest) (skipn (ix + (n + 1)) rest)) as (l & Hc & Hfa & _).
    + rewrite skipn_length. exact Hm.
    + rewrite skipn_length. lia.
    + apply bytes_ok_skipn, Hrest.
    + rewrite Hc. cbn [bind]. split; [|exact I]. split; [exact Hfee|]. split; [|auto].
      split; [rewrite firstn_length, skipn_length; lia|apply bytes_ok_firstn, bytes_ok_skipn, Hrest].
  - unfold summ_block_parse.
    destruct (Nat.leb_spec (length rest) 32) as [|Hl]; [exact I|].
    rewrite slice_in, slice_from_in by lia. cbn [bind].
    pose proof (info_parse_cases (skipn 32 rest) (bytes_ok_skipn _ _ Hrest)) as Hi.
    destruct (info_parse (skipn 32 rest)) as [i|e| |]; cbn [change_context bind]; try exact I; [|contradiction].
    split; [|exact I]. split; [apply Hi|].
    split; [rewrite firstn_length, skipn_length; lia|apply bytes_ok_firstn, bytes_ok_skipn, Hrest].
Qed.
