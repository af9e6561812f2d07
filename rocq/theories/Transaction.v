(** Model of src/transaction.rs (codec, hash, signature) and src/dump_headers.rs.
    The [Ord] instances are in TxPool.v.  Model file: definitions only. *)
From Verif Require Import Base Sha256 Merkle Tools.

(** dump_headers.rs:4-12 *)
Inductive header := HTransaction | HToken | HTransactionBlock | HDerivativeBlock
                  | HSummarizeBlock | HGenesisBlock.
(** [h as u8] *)
Definition header_code (h : header) : N :=
  match h with
  | HTransaction => 0 | HToken => 1 | HTransactionBlock => 2 | HDerivativeBlock => 3
  | HSummarizeBlock => 4 | HGenesisBlock => 5
  end.
(** dump_headers.rs:15-26 [Headers::from_u8] *)
Definition header_from_u8 (b : N) : out header :=
  if b =? 0 then Ok HTransaction
  else if b =? 1 then Ok HToken
  else if b =? 2 then Ok HTransactionBlock
  else if b =? 3 then Ok HDerivativeBlock
  else if b =? 4 then Ok HSummarizeBlock
  else Err EUnknownHeader.

(** transaction.rs:76-86 *)
Record transaction := MkTx {
  tx_sender : bytes;
  tx_receiver : bytes;
  tx_timestamp : N;
  tx_signature : bytes;
  tx_amount : N;
  tx_data : option bytes;
  tx_hash : bytes
}.

(** What the Rust types guarantee about a [Transaction]'s fields. *)
Definition tx_wf (t : transaction) : Prop :=
  is_array 33 (tx_sender t) /\ is_array 33 (tx_receiver t) /\ u64_ok (tx_timestamp t) /\
  is_array 64 (tx_signature t) /\ u256_ok (tx_amount t) /\
  match tx_data t with Some d => bytes_ok d | None => True end.

(** Crate secp256k1, as used: key and signature parsing, signing, verification.
    An oracle: nothing is assumed about it except in theorems that say so. *)
Record ecdsa := MkEcdsa {
  seckey_ok : bytes -> bool;                     (* SecretKey::from_slice *)
  pubkey_ok : bytes -> bool;                     (* PublicKey::from_slice *)
  sig_ok : bytes -> bool;                        (* Signature::from_compact *)
  ecdsa_sign : bytes -> bytes -> bytes;          (* sign_ecdsa(digest, key) as compact bytes *)
  ecdsa_verify : bytes -> bytes -> bytes -> bool (* verify_ecdsa(digest, sig, key) *)
}.

(** transaction.rs:103-119 and :205-223: the signed bytes (two copies of the same code). *)
Definition data_or_empty (d : option bytes) : bytes := match d with Some b => b | None => [] end.
Definition signed_bytes (sender receiver : bytes) (timestamp amount : N) (data : option bytes)
  : bytes :=
  dump_u256 amount
    ([header_code HTransaction] ++ sender ++ receiver ++ to_be 8 timestamp)
  ++ data_or_empty data.

(** transaction.rs:89-134 [generate_signature].  [Message::from_digest_slice] of
    a 32-byte digest cannot fail. *)
Definition generate_signature (E : ecdsa) (sender receiver : bytes) (timestamp amount : N)
    (data : option bytes) (private_key : bytes) : out bytes :=
  let digest := sha256 (signed_bytes sender receiver timestamp amount data) in
  if seckey_ok E private_key then Ok (ecdsa_sign E digest private_key) else Err ETxParse.

(** transaction.rs:256-292 [dump] *)
Definition tx_dump (t : transaction) : bytes :=
  dump_u256 (tx_amount t)
    ([header_code HTransaction] ++ tx_sender t ++ tx_receiver t ++
     to_be 8 (tx_timestamp t) ++ tx_signature t)
  ++ data_or_empty (tx_data t).

(** transaction.rs:294-301 [get_dump_size] *)
Definition tx_get_dump_size (t : transaction) : nat :=
  (1 + 33 + 33 + 8 + 64 + u256_size (tx_amount t) + length (data_or_empty (tx_data t)))%nat.

(** transaction.rs:166-187 [new_signed] *)
Definition tx_new_signed (sender receiver : bytes) (timestamp amount : N)
    (data : option bytes) (signature : bytes) : transaction :=
  let tr := MkTx sender receiver timestamp signature amount data (repeat 0 32) in
  MkTx sender receiver timestamp signature amount data (sha256 (tx_dump tr)).

(** transaction.rs:136-164 [new] *)
Definition tx_new (E : ecdsa) (sender receiver : bytes) (timestamp amount : N)
    (private_key : bytes) (data : option bytes) : out transaction :=
  let! signature := generate_signature E sender receiver timestamp amount data private_key in
  Ok (tx_new_signed sender receiver timestamp amount data signature).

(** transaction.rs:195-227 [hash_without_signature] *)
Definition hash_without_signature (t : transaction) : bytes :=
  sha256 (signed_bytes (tx_sender t) (tx_receiver t) (tx_timestamp t) (tx_amount t) (tx_data t)).

(** transaction.rs:229-254 [verify] *)
Definition tx_verify (E : ecdsa) (t : transaction) : out bool :=
  let digest := hash_without_signature t in
  if negb (pubkey_ok E (tx_sender t)) then Err ETxVerify
  else if negb (sig_ok E (tx_signature t)) then Err ETxVerify
  else Ok (ecdsa_verify E digest (tx_signature t) (tx_sender t)).

(** transaction.rs:303-351 [parse] *)
Definition tx_parse (data : bytes) : out transaction :=
  if Nat.ltb (length data) 139 then Err ETxParse
  else
    let! sender := slice data 0 33 in
    let! receiver := slice data 33 66 in
    let! ts := slice data 66 74 in
    let! signature := slice data 74 138 in
    let! rest := slice_from data 138 in
    let! (amount, idx) := change_context (load_u256 rest) ETxParse in
    let index := (138 + (idx + 1))%nat in
    if Nat.eqb index (length data) then
      Ok (tx_new_signed sender receiver (from_be ts) amount None signature)
    else
      let! new_data := slice_from data index in
      let index := (index + length new_data)%nat in
      if negb (Nat.eqb index (length data)) then Err ETxParse
      else Ok (tx_new_signed sender receiver (from_be ts) amount (Some new_data) signature).
