(** Properties C01-C17, C67: encodings, hashes, signatures.
    Only theorem statements (closed by [exact]), examples showing that their
    premises are met, and the assumptions of each theorem. *)
From Coq Require Import Lia ZifyBool ZifyNat ZifyN.
From Verif Require Import Base Sha256 Merkle Tools Transaction Block Spec.
From Verif Require Import BaseFacts ToolsFacts MerkleFacts CodecFacts.
From Verif Require Import CodecProps.

(** C01.  [dump_u256] appends a length byte and the shortest big-endian form and
    touches nothing else; [load_u256] reads the number back in front of any suffix. *)
Theorem C01_u256_roundtrip : forall (x : N) (buf suf : bytes), u256_ok x ->
  exists pl, minimal_be x pl /\ (length pl <= 32)%nat /\
    dump_u256 x buf = buf ++ [N.of_nat (length pl)] ++ pl /\
    load_u256 (skipn (length buf) (dump_u256 x buf ++ suf)) = Ok (x, length pl).
Proof. exact p_C01_u256_roundtrip. Qed.
Print Assumptions C01_u256_roundtrip.

Example C01_ex : dump_u256 0x12AB00 [9; 9] = [9; 9; 3; 0x12; 0xAB; 0x00] /\
  load_u256 [3; 0x12; 0xAB; 0x00; 77] = Ok (0x12AB00, 3%nat) /\ u256_ok 0x12AB00 /\
  dump_u256 (2 ^ 256 - 1) [] = 32 :: repeat 255 32.
Proof. vm_compute. auto. Qed.

(** C01, uniqueness: the shortest form is unique, so the encoding is canonical. *)
Theorem C01_u256_canonical : forall x l l', minimal_be x l -> minimal_be x l' -> l = l'.
Proof. exact p_C01_u256_canonical. Qed.
Print Assumptions C01_u256_canonical.

(** C02 holds for every number except zero ... *)
Theorem C02_u256_size_partial : forall x, u256_ok x ->
  (u256_size x = length (dump_u256 x []) <-> x <> 0).
Proof. exact p_C02_u256_size_partial. Qed.
Print Assumptions C02_u256_size_partial.

(** ... where the predicted size is 2 and the written size 1. *)
Theorem C02_u256_size_refuted : exists x, u256_ok x /\ u256_size x <> length (dump_u256 x []).
Proof. exact p_C02_u256_size_refuted. Qed.
Print Assumptions C02_u256_size_refuted.

Example C02_ex : u256_ok (2 ^ 200) /\ u256_size (2 ^ 200) = 27%nat /\
  length (dump_u256 (2 ^ 200) []) = 27%nat /\ u256_size 255 = 2%nat /\ u256_size 256 = 3%nat.
Proof. vm_compute. auto. Qed.

(** C03: a successful read returns the value of exactly the announced bytes, all
    inside the input; a panic happens exactly on an empty input or one that lacks
    just the last announced byte; undefined behaviour never. *)
Theorem C03_load_u256_partial : forall data, bytes_ok data ->
  match load_u256 data with
  | Ok (x, n) => exists b rest suf, data = b :: rest ++ suf /\ length rest = n /\
                   n = N.to_nat b /\ (n <= 32)%nat /\ x = be_val rest
  | Err _ => exists b t, data = b :: t /\ (32 < b \/ N.of_nat (length t) + 1 < b)
  | Panic => number_cut data
  | UB => False
  end.
Proof. exact p_C03_load_u256_partial. Qed.
Print Assumptions C03_load_u256_partial.

(** The panic condition is exact. *)
Theorem C03_load_u256_panics : forall data, bytes_ok data ->
  (load_u256 data = Panic <-> number_cut data).
Proof. exact p_C03_load_u256_panics. Qed.
Print Assumptions C03_load_u256_panics.

(** C03 is false of the code: two untrusted inputs that panic. *)
Theorem C03_load_u256_refuted : load_u256 [] = Panic /\ load_u256 [2; 7] = Panic.
Proof. exact p_C03_load_u256_refuted. Qed.
Print Assumptions C03_load_u256_refuted.

Example C03_ex : load_u256 [2; 7; 1; 5] = Ok (0x701, 2%nat) /\ load_u256 [33; 7] = Err EToolsDump /\
  load_u256 [3; 7] = Err EToolsLoad /\ bytes_ok [2; 7; 1; 5].
Proof. vm_compute. repeat split. repeat constructor. Qed.

(** C04.  [dump_biguint] *)
Theorem C04_biguint_roundtrip : forall x buf suf,
  (x < 256 ^ 255 ->
     exists e, dump_biguint x buf = Ok (buf ++ e) /\ length e = bigint_size x /\
       load_biguint (skipn (length buf) (buf ++ e ++ suf)) = Ok (x, length e)) /\
  (256 ^ 255 <= x -> exists er, dump_biguint x buf = Err er).
Proof. exact p_C04_biguint_roundtrip. Qed.
Print Assumptions C04_biguint_roundtrip.

Example C04_ex : dump_biguint 0x1234 [7] = Ok [7; 2; 0x12; 0x34] /\ dump_biguint 0 [] = Ok [1; 0] /\
  0x1234 < 256 ^ 255 /\ 256 ^ 255 <= 2 ^ 2040.
Proof. vm_compute. repeat split; discriminate. Qed.

(** C04, reading: exact behaviour of [load_biguint]; it shares the off-by-one of [load_u256]. *)
Theorem C04_load_biguint_cases : forall data, bytes_ok data ->
  match load_biguint data with
  | Ok (x, n) => exists b rest suf, data = b :: rest ++ suf /\ n = S (length rest) /\
                   length rest = N.to_nat b /\ x = be_val rest
  | Err _ => exists b t, data = b :: t /\ N.of_nat (length t) + 1 < b
  | Panic => data = [] \/ exists b t, data = b :: t /\ N.of_nat (length t) + 1 = b
  | UB => False
  end.
Proof. exact p_C04_load_biguint_cases. Qed.
Print Assumptions C04_load_biguint_cases.

(** C05 *)
Theorem C05_u256_as_biguint : forall x suf, u256_ok x ->
  load_biguint (dump_u256 x [] ++ suf) = Ok (x, length (dump_u256 x [])).
Proof. exact p_C05_u256_as_biguint. Qed.
Print Assumptions C05_u256_as_biguint.

Example C05_ex : load_biguint (dump_u256 (10 ^ 18) [] ++ [5]) = Ok (10 ^ 18, 9%nat) /\ u256_ok (10 ^ 18).
Proof. vm_compute. auto. Qed.

(** A header and blocks used in the examples below. *)
Definition ex_info : basic_info :=
  MkInfo 1700000000 (repeat 7 32) (repeat 8 32) 300 (127 :: repeat 255 31) (2 :: repeat 9 32).
Definition ex_info0 : basic_info :=
  MkInfo 1700000000 (repeat 7 32) (repeat 8 32) 0 (127 :: repeat 255 31) (2 :: repeat 9 32).
Ltac wf := repeat split; try reflexivity; repeat constructor; try reflexivity.
Example ex_info_wf : info_wf ex_info.
Proof. wf. Qed.
Example ex_info0_wf : info_wf ex_info0.
Proof. wf. Qed.

(** C06 *)
Theorem C06_basic_info_roundtrip : forall i buf suf, info_wf i ->
  exists e, info_dump i buf = buf ++ e /\ info_parse (e ++ suf) = Ok i.
Proof. exact p_C06_basic_info_roundtrip. Qed.
Print Assumptions C06_basic_info_roundtrip.

Example C06_ex : length (info_dump ex_info [1]) = 141%nat /\
  info_parse (tl (info_dump ex_info [1]) ++ [5; 5]) = Ok ex_info.
Proof. vm_compute. auto. Qed.

(** C07 holds except at height 0 ... *)
Theorem C07_basic_info_size_partial : forall i buf, info_wf i ->
  ((length (info_dump i buf) = length buf + info_get_dump_size i)%nat <-> bi_height i <> 0).
Proof. exact p_C07_basic_info_size_partial. Qed.
Print Assumptions C07_basic_info_size_partial.

(** ... where it is one too large. *)
Theorem C07_basic_info_size_refuted : exists i, info_wf i /\
  info_get_dump_size i = S (length (info_dump i [])).
Proof. exact p_C07_basic_info_size_refuted. Qed.
Print Assumptions C07_basic_info_size_refuted.

(** C07 for whole blocks: the predicted size is off by one for a zero height and
    by one for a zero fee, and exact otherwise. *)
Theorem C07_block_size : forall b, block_wf b ->
  block_get_dump_size b =
  (length (block_dump b) + (if (bi_height (get_info b) =? 0)%N then 1 else 0) +
   match b with TxBlock fee _ _ _ => if (fee =? 0)%N then 1 else 0 | _ => 0 end)%nat.
Proof. exact p_C07_block_size. Qed.
Print Assumptions C07_block_size.

(** C08 for [BasicInfo::parse]: no undefined behaviour, well-formed results, and
    exactly these inputs panic. *)
Theorem C08_basic_info_parse_partial : forall data, bytes_ok data ->
  (info_parse data = Panic <-> header_cut data) /\ info_parse data <> UB /\
  (forall i, info_parse data = Ok i -> info_wf i) /\
  (forall e, info_parse data = Err e -> e = EBasicInfoParse).
Proof. exact p_C08_basic_info_parse_partial. Qed.
Print Assumptions C08_basic_info_parse_partial.

(** C08 for [deserialize_main_chain_block]: never undefined behaviour, results are
    well formed blocks of the two main-chain kinds, and exactly these inputs panic. *)
Theorem C08_deserialize_partial : forall data, bytes_ok data ->
  (deserialize_main_chain_block data = Panic <->
     exists h rest, data = h :: rest /\
     ((h = 2 /\ (length rest < 32)%nat) \/
      ((h = 2 \/ h = 4 /\ (32 < length rest)%nat) /\ (32 <= length rest)%nat /\ header_cut (skipn 32 rest)) \/
      (h = 2 /\ (32 <= length rest)%nat /\ exists i, info_parse (skipn 32 rest) = Ok i /\
         ((length rest < 32 + info_get_dump_size i)%nat \/
          number_cut (skipn (32 + info_get_dump_size i) rest))))) /\
  deserialize_main_chain_block data <> UB /\
  (forall b, deserialize_main_chain_block data = Ok b ->
     block_wf b /\ match b with DerivBlock _ => False | _ => True end).
Proof. exact p_C08_deserialize_partial. Qed.
Print Assumptions C08_deserialize_partial.

(** C08 is false of the code: short or truncated untrusted blocks panic. *)
Theorem C08_parse_refuted :
  deserialize_main_chain_block [2] = Panic /\ info_parse (repeat 0 120) = Panic /\
  deserialize_main_chain_block (4 :: repeat 0 150) = Panic.
Proof. exact p_C08_parse_refuted. Qed.
Print Assumptions C08_parse_refuted.

Example C08_ex : deserialize_main_chain_block (block_dump (SummBlock ex_info (repeat 1 32)))
  = Ok (SummBlock ex_info (repeat 1 32)) /\ deserialize_main_chain_block [9; 9] = Err EUnknownHeader /\
  info_parse (repeat 0 100) = Err EBasicInfoParse.
Proof. vm_compute. auto. Qed.

(** C09 for every height but 0. *)
Theorem C09_transaction_block_partial : forall fee root info txs,
  block_wf (TxBlock fee root info txs) -> bi_height info <> 0 ->
  deserialize_main_chain_block (block_dump (TxBlock fee root info txs)) = Ok (TxBlock fee root info txs).
Proof. exact p_C09_transaction_block_partial. Qed.
Print Assumptions C09_transaction_block_partial.

(** C09 fails at height 0 (the header size used to find the fee is one too large):
    one block is refused, one makes the parser panic, one comes back as another block. *)
Theorem C09_transaction_block_refuted :
  let i := MkInfo 1700000000 (repeat 7 32) (repeat 8 32) 0 (repeat 255 32) (2 :: repeat 9 32) in
  block_wf (TxBlock 40 (repeat 1 32) i [repeat 3 32]) /\
  deserialize_main_chain_block (block_dump (TxBlock 40 (repeat 1 32) i [repeat 3 32])) = Err ETxBlockParse /\
  block_wf (TxBlock 0 (repeat 1 32) i []) /\
  deserialize_main_chain_block (block_dump (TxBlock 0 (repeat 1 32) i [])) = Panic /\
  block_wf (TxBlock 256 (repeat 1 32) i [repeat 3 32]) /\
  deserialize_main_chain_block (block_dump (TxBlock 256 (repeat 1 32) i [repeat 3 32])) =
    Ok (TxBlock 0 (repeat 1 32) i [repeat 3 32]).
Proof. exact p_C09_transaction_block_refuted. Qed.
Print Assumptions C09_transaction_block_refuted.

Example C09_ex : block_wf (TxBlock 62500 (repeat 1 32) ex_info [repeat 3 32; repeat 4 32]) /\
  bi_height ex_info <> 0 /\ length (block_dump (TxBlock 62500 (repeat 1 32) ex_info [repeat 3 32; repeat 4 32])) = 240%nat.
Proof. split; [wf|]. split; [discriminate|reflexivity]. Qed.

(** C10 *)
Theorem C10_summarize_derivative_roundtrip :
  (forall info root, block_wf (SummBlock info root) ->
     deserialize_main_chain_block (block_dump (SummBlock info root)) = Ok (SummBlock info root)) /\
  (forall info, block_wf (DerivBlock info) ->
     deriv_block_parse (tl (block_dump (DerivBlock info))) = Ok (DerivBlock info)) /\
  (forall info, deserialize_main_chain_block (block_dump (DerivBlock info)) = Err EWrongHeader) /\
  (forall t, deserialize_main_chain_block (tx_dump t) = Err EWrongHeader).
Proof. exact p_C10_summarize_derivative_roundtrip. Qed.
Print Assumptions C10_summarize_derivative_roundtrip.

Example C10_ex : block_wf (SummBlock ex_info0 (repeat 1 32)) /\ block_wf (DerivBlock ex_info).
Proof. split; wf. Qed.

(** C11 *)
Theorem C11_dump_determines_block : forall b b', block_wf b -> block_wf b' ->
  (block_dump b = block_dump b' -> b = b') /\
  (block_hash b = block_hash b' -> b = b' \/ collision (block_dump b) (block_dump b')).
Proof. exact p_C11_dump_determines_block. Qed.
Print Assumptions C11_dump_determines_block.

Example C11_ex : block_wf (DerivBlock ex_info) /\ block_wf (DerivBlock ex_info0) /\
  block_hash (DerivBlock ex_info) <> block_hash (DerivBlock ex_info0).
Proof. split; [wf|split; [wf|vm_compute; discriminate]]. Qed.

Definition ex_tx (d : option bytes) : transaction :=
  tx_new_signed (2 :: repeat 1 32) (3 :: repeat 2 32) 1700000000 (10 ^ 18) d (repeat 5 64).
Example ex_tx_wf : tx_wf (ex_tx (Some [1; 2; 3])).
Proof. wf. Qed.

(** C12 for transactions whose data is not the empty vector. *)
Theorem C12_transaction_roundtrip_partial : forall t,
  tx_wf t -> tx_hash t = sha256 (tx_dump t) -> tx_data t <> Some [] ->
  tx_parse (tl (tx_dump t)) = Ok t.
Proof. exact p_C12_transaction_roundtrip_partial. Qed.
Print Assumptions C12_transaction_roundtrip_partial.

(** With empty data everything but the data field comes back; it becomes [None]. *)
Theorem C12_transaction_roundtrip_empty : forall t,
  tx_wf t -> tx_hash t = sha256 (tx_dump t) -> tx_data t = Some [] ->
  tx_parse (tl (tx_dump t)) =
  Ok (MkTx (tx_sender t) (tx_receiver t) (tx_timestamp t) (tx_signature t) (tx_amount t) None (tx_hash t)).
Proof. exact p_C12_transaction_roundtrip_empty. Qed.
Print Assumptions C12_transaction_roundtrip_empty.

(** So C12 is false of the code. *)
Theorem C12_transaction_roundtrip_refuted : exists t t',
  tx_wf t /\ tx_hash t = sha256 (tx_dump t) /\ tx_parse (tl (tx_dump t)) = Ok t' /\ tx_data t' <> tx_data t.
Proof. exact p_C12_transaction_roundtrip_refuted. Qed.
Print Assumptions C12_transaction_roundtrip_refuted.

Example C12_ex : tx_hash (ex_tx (Some [1; 2; 3])) = sha256 (tx_dump (ex_tx (Some [1; 2; 3]))) /\
  tx_parse (tl (tx_dump (ex_tx None))) = Ok (ex_tx None).
Proof. vm_compute. auto. Qed.

(** C13 for non-zero amounts ... *)
Theorem C13_transaction_size_partial : forall t, tx_wf t ->
  (tx_get_dump_size t = length (tx_dump t) <-> tx_amount t <> 0).
Proof. exact p_C13_transaction_size_partial. Qed.
Print Assumptions C13_transaction_size_partial.

(** ... a zero-amount transaction is charged for one byte too many. *)
Theorem C13_transaction_size_refuted : exists t, tx_wf t /\ tx_get_dump_size t = S (length (tx_dump t)).
Proof. exact p_C13_transaction_size_refuted. Qed.
Print Assumptions C13_transaction_size_refuted.

Example C13_ex : tx_get_dump_size (ex_tx (Some [1; 2; 3])) = 151%nat /\ tx_amount (ex_tx None) <> 0.
Proof. split; [reflexivity|discriminate]. Qed.

(** C14: no undefined behaviour; every parsed transaction is well formed, carries
    the hash of its dump and parses back from its dump; exactly these inputs panic. *)
Theorem C14_transaction_parse_partial : forall data, bytes_ok data ->
  tx_parse data <> UB /\
  (tx_parse data = Panic <-> (138 < length data)%nat /\ number_cut (skipn 138 data)) /\
  (forall t, tx_parse data = Ok t ->
     tx_wf t /\ tx_hash t = sha256 (tx_dump t) /\ tx_parse (tl (tx_dump t)) = Ok t) /\
  (forall e, tx_parse data = Err e -> e = ETxParse).
Proof. exact p_C14_transaction_parse_partial. Qed.
Print Assumptions C14_transaction_parse_partial.

(** C14 is false of the code: a transaction missing its last byte panics. *)
Theorem C14_transaction_parse_refuted : exists data, bytes_ok data /\ tx_parse data = Panic.
Proof. exact p_C14_transaction_parse_refuted. Qed.
Print Assumptions C14_transaction_parse_refuted.

Example C14_ex : exists t, tx_parse (repeat 1 140) = Ok t /\ tx_amount t = 1 /\ tx_data t = None.
Proof. eexists. split; [vm_compute; reflexivity|]. split; reflexivity. Qed.

(** C15, however the transaction was made *)
Theorem C15_hash_is_sha256_of_dump :
  (forall s r ts a d sg, let t := tx_new_signed s r ts a d sg in tx_hash t = sha256 (tx_dump t)) /\
  (forall E s r ts a sk d t, tx_new E s r ts a sk d = Ok t -> tx_hash t = sha256 (tx_dump t)) /\
  (forall data t, bytes_ok data -> tx_parse data = Ok t -> tx_hash t = sha256 (tx_dump t)).
Proof. exact p_C15_hash_is_sha256_of_dump. Qed.
Print Assumptions C15_hash_is_sha256_of_dump.

(** C15: equal hashes mean equal fields (up to empty/absent data) or a collision of the two dumps. *)
Theorem C15_hash_determines_transaction : forall t t', tx_wf t -> tx_wf t' ->
  tx_hash t = sha256 (tx_dump t) -> tx_hash t' = sha256 (tx_dump t') -> tx_hash t = tx_hash t' ->
  (tx_sender t = tx_sender t' /\ tx_receiver t = tx_receiver t' /\ tx_timestamp t = tx_timestamp t' /\
   tx_signature t = tx_signature t' /\ tx_amount t = tx_amount t' /\
   data_or_empty (tx_data t) = data_or_empty (tx_data t')) \/
  collision (tx_dump t) (tx_dump t').
Proof. exact p_C15_hash_determines_transaction. Qed.
Print Assumptions C15_hash_determines_transaction.

Example C15_ex : tx_hash (ex_tx None) = tx_hash (ex_tx (Some [])) /\
  tx_hash (ex_tx None) <> tx_hash (ex_tx (Some [0])).
Proof. split; [reflexivity|vm_compute; discriminate]. Qed.

(** C16: the signed digest is the hash of bytes that determine the five covered fields. *)
Theorem C16_signature_covers_fields : forall t t', tx_wf t -> tx_wf t' ->
  let m u := signed_bytes (tx_sender u) (tx_receiver u) (tx_timestamp u) (tx_amount u) (tx_data u) in
  hash_without_signature t = sha256 (m t) /\
  (m t = m t' <->
   tx_sender t = tx_sender t' /\ tx_receiver t = tx_receiver t' /\ tx_timestamp t = tx_timestamp t' /\
   tx_amount t = tx_amount t' /\ data_or_empty (tx_data t) = data_or_empty (tx_data t')) /\
  (hash_without_signature t = hash_without_signature t' -> m t = m t' \/ collision (m t) (m t')).
Proof. exact p_C16_signature_covers_fields. Qed.
Print Assumptions C16_signature_covers_fields.

(** C16: what [new] signs is what [verify] checks, for every key and field value. *)
Theorem C16_same_digest : forall E s r ts a sk d t, tx_new E s r ts a sk d = Ok t ->
  tx_signature t = ecdsa_sign E (hash_without_signature t) sk /\
  tx_sender t = s /\ tx_receiver t = r /\ tx_timestamp t = ts /\ tx_amount t = a /\ tx_data t = d.
Proof. exact p_C16_same_digest. Qed.
Print Assumptions C16_same_digest.

Example C16_ex : (* the signature itself is not covered *)
  hash_without_signature (tx_new_signed (2 :: repeat 1 32) (3 :: repeat 2 32) 5 6 None (repeat 5 64)) =
  hash_without_signature (tx_new_signed (2 :: repeat 1 32) (3 :: repeat 2 32) 5 6 None (repeat 6 64)) /\
  hash_without_signature (ex_tx (Some [1])) <> hash_without_signature (ex_tx (Some [2])).
Proof. split; [reflexivity|vm_compute; discriminate]. Qed.

(** C17: for every key pair of the signature scheme *)
Theorem C17_new_transaction_verifies : forall E s r ts a sk d,
  key_pair (seckey_ok E) (pubkey_ok E) (sig_ok E) (ecdsa_sign E) (ecdsa_verify E) sk s ->
  is_array 33 s -> is_array 33 r -> u64_ok ts -> u256_ok a ->
  match d with Some x => bytes_ok x | None => True end ->
  exists t t', tx_new E s r ts a sk d = Ok t /\ tx_verify E t = Ok true /\
    tx_parse (tl (tx_dump t)) = Ok t' /\ tx_verify E t' = Ok true.
Proof. exact p_C17_new_transaction_verifies. Qed.
Print Assumptions C17_new_transaction_verifies.

(** C17, converse direction: with an unusable key nothing is produced. *)
Theorem C17_bad_key : forall E s r ts a sk d, seckey_ok E sk = false ->
  tx_new E s r ts a sk d = Err ETxParse.
Proof. exact p_C17_bad_key. Qed.
Print Assumptions C17_bad_key.

(** A toy scheme (signature = digest twice) meeting the law, to show it is satisfiable. *)
Definition toy : ecdsa :=
  MkEcdsa (fun _ => true) (fun _ => true) (fun _ => true) (fun d _ => d ++ d)
    (fun d s _ => bytes_eqb s (d ++ d)).
Example C17_ex : exists t, tx_new toy (2 :: repeat 1 32) (3 :: repeat 2 32) 7 8 (repeat 1 32) None = Ok t /\
  tx_verify toy t = Ok true.
Proof. eexists. split; [vm_compute; reflexivity|vm_compute; reflexivity]. Qed.

(** C67: codes round-trip for every header but GenesisBlock, whose code 5 is refused;
    every other code is refused. *)
Theorem C67_headers_partial :
  (forall h, h <> HGenesisBlock -> header_from_u8 (header_code h) = Ok h) /\
  (forall b h, header_from_u8 b = Ok h -> b = header_code h) /\
  (forall b, (forall h, h <> HGenesisBlock -> b <> header_code h) -> header_from_u8 b = Err EUnknownHeader).
Proof. exact p_C67_headers_partial. Qed.
Print Assumptions C67_headers_partial.

(** C67 is false of the code. *)
Theorem C67_headers_refuted : exists h, header_from_u8 (header_code h) <> Ok h.
Proof. exact p_C67_headers_refuted. Qed.
Print Assumptions C67_headers_refuted.

