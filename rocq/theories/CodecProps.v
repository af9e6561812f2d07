(** Proofs of the statements in P_Codec.v. *)
From Coq Require Import Lia ZifyBool ZifyNat ZifyN.
From Verif Require Import Base Sha256 Merkle Tools Transaction Block Spec.
From Verif Require Import BaseFacts ToolsFacts MerkleFacts CodecFacts.

(** ** Numbers *)

(*@T C01.  [dump_u256] appends a length byte and the shortest big-endian form and
    touches nothing else; [load_u256] reads the number back in front of any suffix. *)
Lemma p_C01_u256_roundtrip : forall (x : N) (buf suf : bytes), u256_ok x ->
  exists pl, minimal_be x pl /\ (length pl <= 32)%nat /\
    dump_u256 x buf = buf ++ [N.of_nat (length pl)] ++ pl /\
    load_u256 (skipn (length buf) (dump_u256 x buf ++ suf)) = Ok (x, length pl).
Proof.
  intros x buf suf H. exists (payload x). split; [apply payload_minimal, H|].
  split; [apply payload_length|]. rewrite dump_u256_eq. split; [reflexivity|].
  rewrite <- app_assoc, skipn_app_exact by reflexivity. apply load_enc, H.
Qed.
(*@E
Example C01_ex : dump_u256 0x12AB00 [9; 9] = [9; 9; 3; 0x12; 0xAB; 0x00] /\
  load_u256 [3; 0x12; 0xAB; 0x00; 77] = Ok (0x12AB00, 3%nat) /\ u256_ok 0x12AB00 /\
  dump_u256 (2 ^ 256 - 1) [] = 32 :: repeat 255 32.
Proof. vm_compute. auto. Qed.
@*)

(*@T C01, uniqueness: the shortest form is unique, so the encoding is canonical. *)
Lemma p_C01_u256_canonical : forall x l l', minimal_be x l -> minimal_be x l' -> l = l'.
Proof.
  intros x l l' H H'. destruct (N.eq_dec x 0) as [->|Hx].
  - assert (forall m, minimal_be 0 m -> m = []) as Hz.
    { intros [|b m] (Hok & Hv & Hh); [reflexivity|]. exfalso. cbn [be_val] in Hv.
      assert (b <> 0) by (intros ->; apply Hh; reflexivity).
      assert (256 ^ N.of_nat (length m) <> 0) by (apply N.pow_nonzero; lia). nia. }
    rewrite (Hz l H), (Hz l' H'). reflexivity.
  - pose proof (minimal_length x l H Hx) as B. pose proof (minimal_length x l' H' Hx) as B'.
    assert (Hlen : forall m m' : bytes, 256 ^ (N.of_nat (length m) - 1) <= x < 256 ^ N.of_nat (length m) ->
       256 ^ (N.of_nat (length m') - 1) <= x < 256 ^ N.of_nat (length m') -> ~ (length m < length m')%nat).
    { intros m m' C C' Hlt. assert (256 ^ N.of_nat (length m) <= 256 ^ (N.of_nat (length m') - 1)) by (apply N.pow_le_mono_r; lia). lia. }
    assert (length l = length l') by (pose proof (Hlen l l' B B'); pose proof (Hlen l' l B' B); lia).
    destruct H as (Hok & Hv & _), H' as (Hok' & Hv' & _). rewrite be_val_from_be in Hv, Hv'.
    apply from_be_inj; congruence.
Qed.

(*@T C02 holds for every number except zero ... *)
Lemma p_C02_u256_size_partial : forall x, u256_ok x ->
  (u256_size x = length (dump_u256 x []) <-> x <> 0).
Proof.
  intros x H. rewrite dump_u256_eq. cbn [app]. split.
  - intros E ->. discriminate E.
  - intros Hx. apply u256_size_nonzero; assumption.
Qed.
(*@T ... where the predicted size is 2 and the written size 1. *)
Lemma p_C02_u256_size_refuted : exists x, u256_ok x /\ u256_size x <> length (dump_u256 x []).
Proof. exists 0. split; [reflexivity|discriminate]. Qed.
(*@E
Example C02_ex : u256_ok (2 ^ 200) /\ u256_size (2 ^ 200) = 27%nat /\
  length (dump_u256 (2 ^ 200) []) = 27%nat /\ u256_size 255 = 2%nat /\ u256_size 256 = 3%nat.
Proof. vm_compute. auto. Qed.
@*)

(*@T C03: a successful read returns the value of exactly the announced bytes, all
    inside the input; a panic happens exactly on an empty input or one that lacks
    just the last announced byte; undefined behaviour never. *)
Lemma p_C03_load_u256_partial : forall data, bytes_ok data ->
  match load_u256 data with
  | Ok (x, n) => exists b rest suf, data = b :: rest ++ suf /\ length rest = n /\
                   n = N.to_nat b /\ (n <= 32)%nat /\ x = be_val rest
  | Err _ => exists b t, data = b :: t /\ (32 < b \/ N.of_nat (length t) + 1 < b)
  | Panic => number_cut data
  | UB => False
  end.
Proof.
  intros data Hok. rewrite load_u256_cases by exact Hok. destruct data as [|b t]; [left; reflexivity|].
  destruct (N.ltb_spec 32 b); [exists b, t; auto|].
  destruct (N.ltb_spec (N.of_nat (length t) + 1) b); [exists b, t; auto|].
  destruct (N.ltb_spec (N.of_nat (length t)) b).
  - right. exists b, t. split; [reflexivity|]. lia.
  - exists b, (firstn (N.to_nat b) t), (skipn (N.to_nat b) t).
    rewrite firstn_skipn, be_val_from_be, firstn_length. repeat split; lia.
Qed.
(*@T The panic condition is exact. *)
Lemma p_C03_load_u256_panics : forall data, bytes_ok data ->
  (load_u256 data = Panic <-> number_cut data).
Proof.
  intros data Hok. split.
  - intros H. pose proof (p_C03_load_u256_partial data Hok) as C. rewrite H in C. exact C.
  - intros H. rewrite load_u256_cases by exact Hok. destruct H as [->|(b & t & -> & H1 & H2)]; [reflexivity|].
    destruct (N.ltb_spec 32 b); [lia|].
    destruct (N.ltb_spec (N.of_nat (length t) + 1) b); [lia|].
    destruct (N.ltb_spec (N.of_nat (length t)) b); [reflexivity|lia].
Qed.
(*@T C03 is false of the code: two untrusted inputs that panic. *)
Lemma p_C03_load_u256_refuted : load_u256 [] = Panic /\ load_u256 [2; 7] = Panic.
Proof. split; reflexivity. Qed.
(*@E
Example C03_ex : load_u256 [2; 7; 1; 5] = Ok (0x701, 2%nat) /\ load_u256 [33; 7] = Err EToolsDump /\
  load_u256 [3; 7] = Err EToolsLoad /\ bytes_ok [2; 7; 1; 5].
Proof. vm_compute. repeat split. repeat constructor. Qed.
@*)

(*@T C04.  [dump_biguint] *)
Lemma p_C04_biguint_roundtrip : forall x buf suf,
  (x < 256 ^ 255 ->
     exists e, dump_biguint x buf = Ok (buf ++ e) /\ length e = bigint_size x /\
       load_biguint (skipn (length buf) (buf ++ e ++ suf)) = Ok (x, length e)) /\
  (256 ^ 255 <= x -> exists er, dump_biguint x buf = Err er).
Proof.
  intros x buf suf. rewrite dump_biguint_eq.
  pose proof (bunches_spec x 255 ltac:(lia)) as Hb. change (N.of_nat 255) with 255 in Hb.
  split; intros H.
  - destruct (Nat.ltb_spec 255 (bunches x)) as [Hc|Hc]; [lia|].
    eexists. split; [reflexivity|]. rewrite bigint_size_eq. cbn [length]. rewrite to_be_length.
    split; [reflexivity|]. rewrite skipn_app_exact by reflexivity.
    rewrite load_biguint_app by (try apply to_be_length; lia). rewrite bunches_value. reflexivity.
  - destruct (Nat.ltb_spec 255 (bunches x)) as [Hc|Hc]; [eexists; reflexivity|lia].
Qed.
(*@E
Example C04_ex : dump_biguint 0x1234 [7] = Ok [7; 2; 0x12; 0x34] /\ dump_biguint 0 [] = Ok [1; 0] /\
  0x1234 < 256 ^ 255 /\ 256 ^ 255 <= 2 ^ 2040.
Proof. vm_compute. repeat split; discriminate. Qed.
@*)
(*@T C04, reading: exact behaviour of [load_biguint]; it shares the off-by-one of [load_u256]. *)
Lemma p_C04_load_biguint_cases : forall data, bytes_ok data ->
  match load_biguint data with
  | Ok (x, n) => exists b rest suf, data = b :: rest ++ suf /\ n = S (length rest) /\
                   length rest = N.to_nat b /\ x = be_val rest
  | Err _ => exists b t, data = b :: t /\ N.of_nat (length t) + 1 < b
  | Panic => data = [] \/ exists b t, data = b :: t /\ N.of_nat (length t) + 1 = b
  | UB => False
  end.
Proof.
  intros data Hok. rewrite load_biguint_cases by exact Hok. destruct data as [|b t]; [left; reflexivity|].
  destruct (N.ltb_spec (N.of_nat (length t) + 1) b); [exists b, t; auto|].
  destruct (N.ltb_spec (N.of_nat (length t)) b).
  - right. exists b, t. split; [reflexivity|]. lia.
  - exists b, (firstn (N.to_nat b) t), (skipn (N.to_nat b) t).
    rewrite firstn_skipn, be_val_from_be, firstn_length. repeat split; lia.
Qed.

(*@T C05 *)
Lemma p_C05_u256_as_biguint : forall x suf, u256_ok x ->
  load_biguint (dump_u256 x [] ++ suf) = Ok (x, length (dump_u256 x [])).
Proof. intros x suf H. rewrite dump_u256_eq. apply load_biguint_enc, H. Qed.
(*@E
Example C05_ex : load_biguint (dump_u256 (10 ^ 18) [] ++ [5]) = Ok (10 ^ 18, 9%nat) /\ u256_ok (10 ^ 18).
Proof. vm_compute. auto. Qed.
@*)

(** ** Blocks *)

(*@E
(** A header and blocks used in the examples below. *)
Definition ex_info : basic_info :=
  MkInfo 1700000000 (repeat 7 32) (repeat 8 32) 300 (127 :: repeat 255 31) (2 :: repeat 9 32).
Definition ex_info0 : basic_info :=
  MkInfo 1700000000 (repeat 7 32) (repeat 8 32) 0 (127 :: repeat 255 31) (2 :: repeat 9 32).
Ltac wf := repeat split; try reflexivity; repeat constructor; try reflexivity.
Example ex_info_wf : info_wf ex_info.
Proof. wf. Qed.
Example ex_info0_wf : info_wf ex_info0.
Proof. wf. Qed.
@*)

(*@T C06 *)
Lemma p_C06_basic_info_roundtrip : forall i buf suf, info_wf i ->
  exists e, info_dump i buf = buf ++ e /\ info_parse (e ++ suf) = Ok i.
Proof.
  intros i buf suf H. exists (info_enc i). split; [apply info_dump_eq|apply info_roundtrip, H].
Qed.
(*@E
Example C06_ex : length (info_dump ex_info [1]) = 141%nat /\
  info_parse (tl (info_dump ex_info [1]) ++ [5; 5]) = Ok ex_info.
Proof. vm_compute. auto. Qed.
@*)

(*@T C07 holds except at height 0 ... *)
Lemma p_C07_basic_info_size_partial : forall i buf, info_wf i ->
  ((length (info_dump i buf) = length buf + info_get_dump_size i)%nat <-> bi_height i <> 0).
Proof.
  intros i buf H. rewrite info_dump_eq, app_length, info_size by exact H.
  destruct (N.eqb_spec (bi_height i) 0); lia.
Qed.
(*@T ... where it is one too large. *)
Lemma p_C07_basic_info_size_refuted : exists i, info_wf i /\
  info_get_dump_size i = S (length (info_dump i [])).
Proof.
  exists (MkInfo 0 (repeat 0 32) (repeat 0 32) 0 (repeat 0 32) (repeat 0 33)).
  split; [|reflexivity]. repeat split; try reflexivity; repeat constructor; try reflexivity.
Qed.
(*@T C07 for whole blocks: the predicted size is off by one for a zero height and
    by one for a zero fee, and exact otherwise. *)
Lemma p_C07_block_size : forall b, block_wf b ->
  block_get_dump_size b =
  (length (block_dump b) + (if (bi_height (get_info b) =? 0)%N then 1 else 0) +
   match b with TxBlock fee _ _ _ => if (fee =? 0)%N then 1 else 0 | _ => 0 end)%nat.
Proof. exact block_size. Qed.

(*@T C08 for [BasicInfo::parse]: no undefined behaviour, well-formed results, and
    exactly these inputs panic. *)
Lemma p_C08_basic_info_parse_partial : forall data, bytes_ok data ->
  (info_parse data = Panic <-> header_cut data) /\ info_parse data <> UB /\
  (forall i, info_parse data = Ok i -> info_wf i) /\
  (forall e, info_parse data = Err e -> e = EBasicInfoParse).
Proof.
  intros data Hok. pose proof (info_parse_cases data Hok) as C.
  assert (Hcut : header_cut data <-> ((105 < length data < 138)%nat \/
    exists b, nth_error data 137 = Some b /\ 1 <= b <= 32 /\ length data = (137 + N.to_nat b)%nat)).
  { assert (Hlen : length (skipn 137 data) = (length data - 137)%nat) by apply skipn_length.
    assert (Hnth : (137 < length data)%nat -> nth_error data 137 = hd_error (skipn 137 data)).
    { intros Hl. rewrite <- (firstn_skipn 137 data) at 1. rewrite nth_error_app2 by (rewrite firstn_length; lia).
      rewrite firstn_length. replace (137 - Nat.min 137 (length data))%nat with 0%nat by lia.
      destruct (skipn 137 data); reflexivity. }
    unfold header_cut, number_cut. split.
    - intros [H|(H & [E|(b & t & E & Hb & Ht)])]; [left; lia| |].
      + rewrite E in Hlen. cbn [length] in Hlen. left. lia.
      + rewrite E in Hlen, Hnth. cbn [length hd_error] in *. right. exists b. split; [apply Hnth; lia|]. lia.
    - intros [H|(b & Hn & Hb & Hl)].
      + destruct (Nat.eq_dec (length data) 137) as [E|E]; [|left; lia]. right. split; [lia|]. left.
        destruct (skipn 137 data); [reflexivity|cbn [length] in Hlen; lia].
      + right. split; [lia|]. right. rewrite Hnth in Hn by lia.
        destruct (skipn 137 data) as [|b' t]; [discriminate|]. injection Hn as ->.
        exists b, t. split; [reflexivity|]. cbn [length] in Hlen. lia. }
  split; [|split; [intros E; rewrite E in C; exact C|split; intros r E; rewrite E in C; [apply C|exact C]]].
  rewrite Hcut. split.
  - intros E. rewrite E in C. exact C.
  - apply info_parse_panic.
Qed.
(*@T C08 for [deserialize_main_chain_block]: never undefined behaviour, results are
    well formed blocks of the two main-chain kinds, and exactly these inputs panic. *)
Lemma p_C08_deserialize_partial : forall data, bytes_ok data ->
  (deserialize_main_chain_block data = Panic <->
     exists h rest, data = h :: rest /\
     ((h = 2 /\ (length rest < 32)%nat) \/
      ((h = 2 \/ h = 4 /\ (32 < length rest)%nat) /\ (32 <= length rest)%nat /\ header_cut (skipn 32 rest)) \/
      (h = 2 /\ (32 <= length rest)%nat /\ exists i, info_parse (skipn 32 rest) = Ok i /\
         ((length rest < 32 + info_get_dump_size i)%nat \/
          number_cut (skipn (32 + info_get_dump_size i) rest))))) /\
  deserialize_main_chain_block data <> UB /\
  (forall b, deserialize_main_chain_block data = Ok b ->
     block_wf b /\ match b with DerivBlock _ => False | _ => True end).
Proof.
  intros data Hok. pose proof (deserialize_no_ub data Hok) as Hub.
  split; [|split; [intros E; rewrite E in Hub; exact Hub|intros b E; rewrite E in Hub; exact Hub]].
  clear Hub. destruct data as [|h rest].
  { cbn. split; [discriminate|]. intros (? & ? & E & _). discriminate. }
  inversion Hok as [|? ? Hh Hrest]; subst.
  unfold deserialize_main_chain_block.
  assert (Hcases : forall P : Prop, (exists h' rest', h :: rest = h' :: rest' /\
     ((h' = 2 /\ (length rest' < 32)%nat) \/
      ((h' = 2 \/ h' = 4 /\ (32 < length rest')%nat) /\ (32 <= length rest')%nat /\ header_cut (skipn 32 rest')) \/
      (h' = 2 /\ (32 <= length rest')%nat /\ exists i, info_parse (skipn 32 rest') = Ok i /\
         ((length rest' < 32 + info_get_dump_size i)%nat \/
          number_cut (skipn (32 + info_get_dump_size i) rest'))))) -> (h = 2 \/ h = 4)).
  { intros _ (h' & r' & E & C). injection E as <- <-. tauto. }
  assert (Hlk : forall n, bytes_ok (skipn n rest)) by (intros; apply bytes_ok_skipn, Hrest).
  destruct (N.eq_dec h 2) as [->|H2]; [|destruct (N.eq_dec h 4) as [->|H4]].
  - cbn [header_from_u8 N.eqb Pos.eqb change_context bind]. unfold tx_block_parse.
    destruct (le_lt_dec 32 (length rest)) as [Hl|Hl].
    2:{ rewrite slice_panic by lia. cbn [bind]. split; [|reflexivity]. intros _.
        exists 2, rest. split; [reflexivity|]. left. auto. }
    rewrite slice_in, slice_from_in by lia. cbn [bind].
    destruct (p_C08_basic_info_parse_partial (skipn 32 rest) (Hlk _)) as (Hp & Hu & _ & _).
    destruct (info_parse (skipn 32 rest)) as [i|e| |] eqn:Ei; cbn [change_context bind].
    + unfold slice_from. destruct (Nat.leb_spec (32 + info_get_dump_size i) (length rest)) as [Hs|Hs].
      2:{ cbn [bind]. split; [|reflexivity]. intros _. exists 2, rest. split; [reflexivity|]. right; right.
          split; [reflexivity|]. split; [exact Hl|]. exists i. rewrite Ei. auto. }
      cbn [bind]. set (ix := (32 + info_get_dump_size i)%nat) in *.
      pose proof (p_C03_load_u256_panics (skipn ix rest) (Hlk _)) as Hn.
      assert (Hiff : (exists h' rest', 2 :: rest = h' :: rest' /\
         ((h' = 2 /\ (length rest' < 32)%nat) \/
          ((h' = 2 \/ h' = 4 /\ (32 < length rest')%nat) /\ (32 <= length rest')%nat /\ header_cut (skipn 32 rest')) \/
          (h' = 2 /\ (32 <= length rest')%nat /\ exists i, info_parse (skipn 32 rest') = Ok i /\
           ((length rest' < 32 + info_get_dump_size i)%nat \/
            number_cut (skipn (32 + info_get_dump_size i) rest'))))) <-> number_cut (skipn ix rest)).
      { split.
        - intros (h' & r' & E & C). injection E as <- <-.
          destruct C as [C|[(_ & _ & C)|(_ & _ & i' & Ei' & C)]]; [lia| |].
          + apply Hp in C. discriminate.
          + rewrite Ei in Ei'. injection Ei' as <-. destruct C as [C|C]; [unfold ix in Hs; lia|exact C].
        - intros C. exists 2, rest. split; [reflexivity|]. right; right.
          split; [reflexivity|]. split; [exact Hl|]. exists i. rewrite Ei. auto. }
      rewrite Hiff, <- Hn.
      destruct (load_u256 (skipn ix rest)) as [[fee n]|e| |] eqn:El; cbn [change_context bind]; try (split; discriminate); try tauto.
      destruct (Nat.eqb_spec ((length rest - (ix + (n + 1))) mod 32) 0) as [Hm|Hm]; cbn [negb]; [|split; discriminate].
      destruct (chunks32_ok (length rest) (skipn (ix + (n + 1)) rest)) as (l & Hc & _ & _);
        [rewrite skipn_length; exact Hm|rewrite skipn_length; lia|apply Hlk|].
      rewrite Hc. cbn [bind]. split; discriminate.
    + split; [discriminate|]. intros (h' & r' & E & C). injection E as <- <-.
      destruct C as [C|[(_ & _ & C)|(_ & _ & i' & Ei' & C)]]; [lia|apply Hp in C; discriminate|rewrite Ei in Ei'; discriminate].
    + split; [|reflexivity]. intros _. exists 2, rest. split; [reflexivity|]. right; left.
      split; [left; reflexivity|]. split; [exact Hl|]. apply Hp. reflexivity.
    + contradiction Hu; reflexivity.
  - cbn [header_from_u8 N.eqb Pos.eqb change_context bind]. unfold summ_block_parse.
    destruct (Nat.leb_spec (length rest) 32) as [Hl|Hl].
    { split; [discriminate|]. intros (h' & r' & E & C). injection E as <- <-.
      destruct C as [(C & _)|[([C|C] & _)|(C & _)]]; [discriminate..|lia|discriminate]. }
    rewrite slice_in, slice_from_in by lia. cbn [bind].
    destruct (p_C08_basic_info_parse_partial (skipn 32 rest) (Hlk _)) as (Hp & Hu & _ & _).
    assert (Hiff : (exists h' rest', 4 :: rest = h' :: rest' /\
         ((h' = 2 /\ (length rest' < 32)%nat) \/
          ((h' = 2 \/ h' = 4 /\ (32 < length rest')%nat) /\ (32 <= length rest')%nat /\ header_cut (skipn 32 rest')) \/
          (h' = 2 /\ (32 <= length rest')%nat /\ exists i, info_parse (skipn 32 rest') = Ok i /\
           ((length rest' < 32 + info_get_dump_size i)%nat \/
            number_cut (skipn (32 + info_get_dump_size i) rest'))))) <-> header_cut (skipn 32 rest)).
    { split.
      - intros (h' & r' & E & C). injection E as <- <-.
        destruct C as [(C & _)|[(_ & _ & C)|(C & _)]]; [discriminate|exact C|discriminate].
      - intros C. exists 4, rest. split; [reflexivity|]. right; left. split; [right; split; [reflexivity|exact Hl]|]. split; [lia|exact C]. }
    rewrite Hiff, <- Hp.
    destruct (info_parse (skipn 32 rest)) as [i|e| |]; cbn [change_context bind]; try (split; discriminate); try tauto.
  - assert (Hno : ~ (h = 2 \/ h = 4)) by tauto.
    split; [|intros C; exfalso; apply Hno; exact (Hcases True C)].
    unfold header_from_u8.
    destruct (h =? 0); [discriminate|]. destruct (h =? 1); [discriminate|].
    destruct (N.eqb_spec h 2); [contradiction|]. destruct (h =? 3); [discriminate|].
    destruct (N.eqb_spec h 4); [contradiction|]. discriminate.
Qed.
(*@T C08 is false of the code: short or truncated untrusted blocks panic. *)
Lemma p_C08_parse_refuted :
  deserialize_main_chain_block [2] = Panic /\ info_parse (repeat 0 120) = Panic /\
  deserialize_main_chain_block (4 :: repeat 0 150) = Panic.
Proof. repeat split; reflexivity. Qed.
(*@E
Example C08_ex : deserialize_main_chain_block (block_dump (SummBlock ex_info (repeat 1 32)))
  = Ok (SummBlock ex_info (repeat 1 32)) /\ deserialize_main_chain_block [9; 9] = Err EUnknownHeader /\
  info_parse (repeat 0 100) = Err EBasicInfoParse.
Proof. vm_compute. auto. Qed.
@*)

(*@T C09 for every height but 0. *)
Lemma p_C09_transaction_block_partial : forall fee root info txs,
  block_wf (TxBlock fee root info txs) -> bi_height info <> 0 ->
  deserialize_main_chain_block (block_dump (TxBlock fee root info txs)) = Ok (TxBlock fee root info txs).
Proof. exact deserialize_tx. Qed.
(*@T C09 fails at height 0 (the header size used to find the fee is one too large):
    one block is refused, one makes the parser panic, one comes back as another block. *)
Lemma p_C09_transaction_block_refuted :
  let i := MkInfo 1700000000 (repeat 7 32) (repeat 8 32) 0 (repeat 255 32) (2 :: repeat 9 32) in
  block_wf (TxBlock 40 (repeat 1 32) i [repeat 3 32]) /\
  deserialize_main_chain_block (block_dump (TxBlock 40 (repeat 1 32) i [repeat 3 32])) = Err ETxBlockParse /\
  block_wf (TxBlock 0 (repeat 1 32) i []) /\
  deserialize_main_chain_block (block_dump (TxBlock 0 (repeat 1 32) i [])) = Panic /\
  block_wf (TxBlock 256 (repeat 1 32) i [repeat 3 32]) /\
  deserialize_main_chain_block (block_dump (TxBlock 256 (repeat 1 32) i [repeat 3 32])) =
    Ok (TxBlock 0 (repeat 1 32) i [repeat 3 32]).
Proof.
  cbv zeta. repeat match goal with |- _ /\ _ => split end; try (vm_compute; reflexivity);
  repeat split; try reflexivity; repeat constructor; try reflexivity.
Qed.
(*@E
Example C09_ex : block_wf (TxBlock 62500 (repeat 1 32) ex_info [repeat 3 32; repeat 4 32]) /\
  bi_height ex_info <> 0 /\ length (block_dump (TxBlock 62500 (repeat 1 32) ex_info [repeat 3 32; repeat 4 32])) = 240%nat.
Proof. split; [wf|]. split; [discriminate|reflexivity]. Qed.
@*)

(*@T C10 *)
Lemma p_C10_summarize_derivative_roundtrip :
  (forall info root, block_wf (SummBlock info root) ->
     deserialize_main_chain_block (block_dump (SummBlock info root)) = Ok (SummBlock info root)) /\
  (forall info, block_wf (DerivBlock info) ->
     deriv_block_parse (tl (block_dump (DerivBlock info))) = Ok (DerivBlock info)) /\
  (forall info, deserialize_main_chain_block (block_dump (DerivBlock info)) = Err EWrongHeader) /\
  (forall t, deserialize_main_chain_block (tx_dump t) = Err EWrongHeader).
Proof. split; [exact deserialize_summ|]. split; [exact deriv_roundtrip|]. split; [exact deserialize_deriv|exact deserialize_txdump]. Qed.
(*@E
Example C10_ex : block_wf (SummBlock ex_info0 (repeat 1 32)) /\ block_wf (DerivBlock ex_info).
Proof. split; wf. Qed.
@*)

(*@T C11 *)
Lemma p_C11_dump_determines_block : forall b b', block_wf b -> block_wf b' ->
  (block_dump b = block_dump b' -> b = b') /\
  (block_hash b = block_hash b' -> b = b' \/ collision (block_dump b) (block_dump b')).
Proof.
  intros b b' H H'. split; [apply block_dump_inj; assumption|]. intros E.
  destruct (bytes_eq_dec (block_dump b) (block_dump b')) as [D|D].
  - left. apply block_dump_inj; assumption.
  - right. split; assumption.
Qed.
(*@E
Example C11_ex : block_wf (DerivBlock ex_info) /\ block_wf (DerivBlock ex_info0) /\
  block_hash (DerivBlock ex_info) <> block_hash (DerivBlock ex_info0).
Proof. split; [wf|split; [wf|vm_compute; discriminate]]. Qed.
@*)

(** ** Transactions *)

(*@E
Definition ex_tx (d : option bytes) : transaction :=
  tx_new_signed (2 :: repeat 1 32) (3 :: repeat 2 32) 1700000000 (10 ^ 18) d (repeat 5 64).
Example ex_tx_wf : tx_wf (ex_tx (Some [1; 2; 3])).
Proof. wf. Qed.
@*)

(*@T C12 for transactions whose data is not the empty vector. *)
Lemma p_C12_transaction_roundtrip_partial : forall t,
  tx_wf t -> tx_hash t = sha256 (tx_dump t) -> tx_data t <> Some [] ->
  tx_parse (tl (tx_dump t)) = Ok t.
Proof. intros t H H1 H2. apply tx_roundtrip; [split|]; assumption. Qed.
(*@T With empty data everything but the data field comes back; it becomes [None]. *)
Lemma p_C12_transaction_roundtrip_empty : forall t,
  tx_wf t -> tx_hash t = sha256 (tx_dump t) -> tx_data t = Some [] ->
  tx_parse (tl (tx_dump t)) =
  Ok (MkTx (tx_sender t) (tx_receiver t) (tx_timestamp t) (tx_signature t) (tx_amount t) None (tx_hash t)).
Proof.
  intros t H Hh Hd. rewrite tx_parse_dump by exact H. rewrite Hd. cbn [norm_data].
  unfold tx_new_signed. f_equal. f_equal. rewrite Hh, !tx_dump_eq, Hd. reflexivity.
Qed.
(*@T So C12 is false of the code. *)
Lemma p_C12_transaction_roundtrip_refuted : exists t t',
  tx_wf t /\ tx_hash t = sha256 (tx_dump t) /\ tx_parse (tl (tx_dump t)) = Ok t' /\ tx_data t' <> tx_data t.
Proof.
  set (t := tx_new_signed (repeat 1 33) (repeat 2 33) 0 5 (Some []) (repeat 5 64)).
  assert (Hwf : tx_wf t) by (repeat split; try reflexivity; repeat constructor; try reflexivity).
  exists t. eexists. split; [exact Hwf|]. split; [reflexivity|].
  split; [apply p_C12_transaction_roundtrip_empty; [exact Hwf|reflexivity|reflexivity]|]. discriminate.
Qed.
(*@E
Example C12_ex : tx_hash (ex_tx (Some [1; 2; 3])) = sha256 (tx_dump (ex_tx (Some [1; 2; 3]))) /\
  tx_parse (tl (tx_dump (ex_tx None))) = Ok (ex_tx None).
Proof. vm_compute. auto. Qed.
@*)

(*@T C13 for non-zero amounts ... *)
Lemma p_C13_transaction_size_partial : forall t, tx_wf t ->
  (tx_get_dump_size t = length (tx_dump t) <-> tx_amount t <> 0).
Proof.
  intros t H. rewrite tx_dump_size by exact H. destruct (N.eqb_spec (tx_amount t) 0); lia.
Qed.
(*@T ... a zero-amount transaction is charged for one byte too many. *)
Lemma p_C13_transaction_size_refuted : exists t, tx_wf t /\ tx_get_dump_size t = S (length (tx_dump t)).
Proof.
  exists (MkTx (repeat 0 33) (repeat 0 33) 0 (repeat 0 64) 0 None (repeat 0 32)).
  split; [|reflexivity]. repeat split; try reflexivity; repeat constructor; try reflexivity.
Qed.
(*@E
Example C13_ex : tx_get_dump_size (ex_tx (Some [1; 2; 3])) = 151%nat /\ tx_amount (ex_tx None) <> 0.
Proof. split; [reflexivity|discriminate]. Qed.
@*)

(*@T C14: no undefined behaviour; every parsed transaction is well formed, carries
    the hash of its dump and parses back from its dump; exactly these inputs panic. *)
Lemma p_C14_transaction_parse_partial : forall data, bytes_ok data ->
  tx_parse data <> UB /\
  (tx_parse data = Panic <-> (138 < length data)%nat /\ number_cut (skipn 138 data)) /\
  (forall t, tx_parse data = Ok t ->
     tx_wf t /\ tx_hash t = sha256 (tx_dump t) /\ tx_parse (tl (tx_dump t)) = Ok t) /\
  (forall e, tx_parse data = Err e -> e = ETxParse).
Proof.
  intros data Hok. pose proof (tx_parse_cases data Hok) as C.
  split; [intros E; rewrite E in C; exact C|]. split.
  - assert (Hlen : length (skipn 138 data) = (length data - 138)%nat) by apply skipn_length.
    assert (Hnth : (138 < length data)%nat -> nth_error data 138 = hd_error (skipn 138 data)).
    { intros Hl. rewrite <- (firstn_skipn 138 data) at 1. rewrite nth_error_app2 by (rewrite firstn_length; lia).
      rewrite firstn_length. replace (138 - Nat.min 138 (length data))%nat with 0%nat by lia.
      destruct (skipn 138 data); reflexivity. }
    split.
    + intros E. rewrite E in C. destruct C as (b & Hn & Hb & Hl). split; [lia|].
      right. rewrite Hnth in Hn by lia.
      destruct (skipn 138 data) as [|b' t]; [discriminate|]. injection Hn as ->.
      exists b, t. split; [reflexivity|]. cbn [length] in Hlen. lia.
    + intros (Hl & [E|(b & t & E & Hb & Ht)]); rewrite E in Hlen; cbn [length] in Hlen; [lia|].
      apply (tx_parse_panic data b); [rewrite Hnth, E by lia; reflexivity|lia|lia].
  - split.
    + intros t E. rewrite E in C. destruct C as ([Hw Hh] & Hd & _). split; [exact Hw|]. split; [exact Hh|].
      apply tx_roundtrip; [split; assumption|exact Hd].
    + intros e E. rewrite E in C. exact C.
Qed.
(*@T C14 is false of the code: a transaction missing its last byte panics. *)
Lemma p_C14_transaction_parse_refuted : exists data, bytes_ok data /\ tx_parse data = Panic.
Proof. exists (repeat 1 139). split; [repeat constructor; reflexivity|reflexivity]. Qed.
(*@E
Example C14_ex : exists t, tx_parse (repeat 1 140) = Ok t /\ tx_amount t = 1 /\ tx_data t = None.
Proof. eexists. split; [vm_compute; reflexivity|]. split; reflexivity. Qed.
@*)

(*@T C15, however the transaction was made *)
Lemma p_C15_hash_is_sha256_of_dump :
  (forall s r ts a d sg, let t := tx_new_signed s r ts a d sg in tx_hash t = sha256 (tx_dump t)) /\
  (forall E s r ts a sk d t, tx_new E s r ts a sk d = Ok t -> tx_hash t = sha256 (tx_dump t)) /\
  (forall data t, bytes_ok data -> tx_parse data = Ok t -> tx_hash t = sha256 (tx_dump t)).
Proof.
  split; [reflexivity|]. split.
  - intros E s r ts a sk d t H. unfold tx_new in H. apply bind_ok in H as (sg & _ & H).
    injection H as <-. reflexivity.
  - intros data t Hok H. apply (p_C14_transaction_parse_partial data Hok), H.
Qed.
(*@T C15: equal hashes mean equal fields (up to empty/absent data) or a collision of the two dumps. *)
Lemma p_C15_hash_determines_transaction : forall t t', tx_wf t -> tx_wf t' ->
  tx_hash t = sha256 (tx_dump t) -> tx_hash t' = sha256 (tx_dump t') -> tx_hash t = tx_hash t' ->
  (tx_sender t = tx_sender t' /\ tx_receiver t = tx_receiver t' /\ tx_timestamp t = tx_timestamp t' /\
   tx_signature t = tx_signature t' /\ tx_amount t = tx_amount t' /\
   data_or_empty (tx_data t) = data_or_empty (tx_data t')) \/
  collision (tx_dump t) (tx_dump t').
Proof.
  intros t t' H H' Hh Hh' E. destruct (bytes_eq_dec (tx_dump t) (tx_dump t')) as [D|D].
  - left. apply tx_dump_inj; assumption.
  - right. split; [exact D|]. congruence.
Qed.
(*@E
Example C15_ex : tx_hash (ex_tx None) = tx_hash (ex_tx (Some [])) /\
  tx_hash (ex_tx None) <> tx_hash (ex_tx (Some [0])).
Proof. split; [reflexivity|vm_compute; discriminate]. Qed.
@*)

(*@T C16: the signed digest is the hash of bytes that determine the five covered fields. *)
Lemma p_C16_signature_covers_fields : forall t t', tx_wf t -> tx_wf t' ->
  let m u := signed_bytes (tx_sender u) (tx_receiver u) (tx_timestamp u) (tx_amount u) (tx_data u) in
  hash_without_signature t = sha256 (m t) /\
  (m t = m t' <->
   tx_sender t = tx_sender t' /\ tx_receiver t = tx_receiver t' /\ tx_timestamp t = tx_timestamp t' /\
   tx_amount t = tx_amount t' /\ data_or_empty (tx_data t) = data_or_empty (tx_data t')) /\
  (hash_without_signature t = hash_without_signature t' -> m t = m t' \/ collision (m t) (m t')).
Proof.
  intros t t' (H1 & H2 & H3 & H4 & H5 & _) (H1' & H2' & H3' & H4' & H5' & _) m.
  split; [reflexivity|]. split; [split|].
  - intros E. exact (signed_bytes_inj _ _ _ _ _ _ _ _ _ _ H1 H2 H3 H5 H1' H2' H3' H5' E).
  - intros (E1 & E2 & E3 & E4 & E5). unfold m. rewrite !signed_bytes_eq, E1, E2, E3, E4, E5. reflexivity.
  - intros E. destruct (bytes_eq_dec (m t) (m t')) as [D|D]; [left; exact D|right; split; assumption].
Qed.
(*@T C16: what [new] signs is what [verify] checks, for every key and field value. *)
Lemma p_C16_same_digest : forall E s r ts a sk d t, tx_new E s r ts a sk d = Ok t ->
  tx_signature t = ecdsa_sign E (hash_without_signature t) sk /\
  tx_sender t = s /\ tx_receiver t = r /\ tx_timestamp t = ts /\ tx_amount t = a /\ tx_data t = d.
Proof.
  intros E s r ts a sk d t H. unfold tx_new, generate_signature in H.
  destruct (seckey_ok E sk); [|discriminate]. cbn [bind] in H. injection H as <-. repeat split.
Qed.
(*@E
Example C16_ex : (* the signature itself is not covered *)
  hash_without_signature (tx_new_signed (2 :: repeat 1 32) (3 :: repeat 2 32) 5 6 None (repeat 5 64)) =
  hash_without_signature (tx_new_signed (2 :: repeat 1 32) (3 :: repeat 2 32) 5 6 None (repeat 6 64)) /\
  hash_without_signature (ex_tx (Some [1])) <> hash_without_signature (ex_tx (Some [2])).
Proof. split; [reflexivity|vm_compute; discriminate]. Qed.
@*)

(*@T C17: for every key pair of the signature scheme *)
Lemma p_C17_new_transaction_verifies : forall E s r ts a sk d,
  key_pair (seckey_ok E) (pubkey_ok E) (sig_ok E) (ecdsa_sign E) (ecdsa_verify E) sk s ->
  is_array 33 s -> is_array 33 r -> u64_ok ts -> u256_ok a ->
  match d with Some x => bytes_ok x | None => True end ->
  exists t t', tx_new E s r ts a sk d = Ok t /\ tx_verify E t = Ok true /\
    tx_parse (tl (tx_dump t)) = Ok t' /\ tx_verify E t' = Ok true.
Proof.
  intros E s r ts a sk d (Hsk & Hpk & Hlaw) Hs Hr Hts Ha Hd.
  unfold tx_new, generate_signature. rewrite Hsk. cbn [bind].
  set (dg := sha256 (signed_bytes s r ts a d)). destruct (Hlaw dg) as (Hsg & Hso & Hv).
  set (sg := ecdsa_sign E dg sk) in *.
  assert (Hwf : tx_wf (tx_new_signed s r ts a d sg)).
  { apply tx_new_signed_built; assumption. }
  assert (Hver : forall d', data_or_empty d' = data_or_empty d -> tx_verify E (tx_new_signed s r ts a d' sg) = Ok true).
  { intros d' Hd'. unfold tx_verify, hash_without_signature. cbn [tx_new_signed tx_sender tx_receiver tx_timestamp tx_amount tx_data tx_signature].
    rewrite Hpk, Hso. cbn [negb]. f_equal. rewrite <- Hv. f_equal. unfold dg. rewrite !signed_bytes_eq, Hd'. reflexivity. }
  eexists. eexists. split; [reflexivity|]. split; [apply Hver; reflexivity|].
  rewrite tx_parse_dump by exact Hwf. split; [reflexivity|]. cbn. apply Hver, norm_data_dump.
Qed.
(*@T C17, converse direction: with an unusable key nothing is produced. *)
Lemma p_C17_bad_key : forall E s r ts a sk d, seckey_ok E sk = false ->
  tx_new E s r ts a sk d = Err ETxParse.
Proof. intros E s r ts a sk d H. unfold tx_new, generate_signature. rewrite H. reflexivity. Qed.
(*@E
(** A toy scheme (signature = digest twice) meeting the law, to show it is satisfiable. *)
Definition toy : ecdsa :=
  MkEcdsa (fun _ => true) (fun _ => true) (fun _ => true) (fun d _ => d ++ d)
    (fun d s _ => bytes_eqb s (d ++ d)).
Example C17_ex : exists t, tx_new toy (2 :: repeat 1 32) (3 :: repeat 2 32) 7 8 (repeat 1 32) None = Ok t /\
  tx_verify toy t = Ok true.
Proof. eexists. split; [vm_compute; reflexivity|vm_compute; reflexivity]. Qed.
@*)

(** ** Headers *)

(*@T C67: codes round-trip for every header but GenesisBlock, whose code 5 is refused;
    every other code is refused. *)
Lemma p_C67_headers_partial :
  (forall h, h <> HGenesisBlock -> header_from_u8 (header_code h) = Ok h) /\
  (forall b h, header_from_u8 b = Ok h -> b = header_code h) /\
  (forall b, (forall h, h <> HGenesisBlock -> b <> header_code h) -> header_from_u8 b = Err EUnknownHeader).
Proof.
  split; [intros [] H; try reflexivity; congruence|]. split.
  - intros b h. unfold header_from_u8.
    repeat (match goal with |- context [b =? ?k] => destruct (N.eqb_spec b k) as [->|] end;
      [intros E; injection E as <-; reflexivity|]). discriminate.
  - intros b H. unfold header_from_u8.
    destruct (N.eqb_spec b 0) as [->|]; [exfalso; apply (H HTransaction); [discriminate|reflexivity]|].
    destruct (N.eqb_spec b 1) as [->|]; [exfalso; apply (H HToken); [discriminate|reflexivity]|].
    destruct (N.eqb_spec b 2) as [->|]; [exfalso; apply (H HTransactionBlock); [discriminate|reflexivity]|].
    destruct (N.eqb_spec b 3) as [->|]; [exfalso; apply (H HDerivativeBlock); [discriminate|reflexivity]|].
    destruct (N.eqb_spec b 4) as [->|]; [exfalso; apply (H HSummarizeBlock); [discriminate|reflexivity]|].
    reflexivity.
Qed.
(*@T C67 is false of the code. *)
Lemma p_C67_headers_refuted : exists h, header_from_u8 (header_code h) <> Ok h.
Proof. exists HGenesisBlock. discriminate. Qed.
