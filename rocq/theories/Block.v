(** Model of src/block.rs.  Model file: definitions only. *)
From Verif Require Import Base Sha256 Merkle Tools Transaction.

(** block.rs:27-35 *)
Record basic_info := MkInfo {
  bi_timestamp : N;
  bi_pow : bytes;
  bi_previous_hash : bytes;
  bi_height : N;
  bi_difficulty : bytes;
  bi_founder : bytes
}.
Definition info_wf (i : basic_info) : Prop :=
  u64_ok (bi_timestamp i) /\ is_array 32 (bi_pow i) /\ is_array 32 (bi_previous_hash i) /\
  u256_ok (bi_height i) /\ is_array 32 (bi_difficulty i) /\ is_array 33 (bi_founder i).

(** block.rs:56-58 *)
Definition info_get_dump_size (i : basic_info) : nat :=
  (8 + 32 + 32 + u256_size (bi_height i) + 32 + 33)%nat.

(** block.rs:59-83 [BasicInfo::dump]; always [Ok]; returns the new buffer. *)
Definition info_dump (i : basic_info) (buffer : bytes) : bytes :=
  dump_u256 (bi_height i)
    (buffer ++ to_be 8 (bi_timestamp i) ++ bi_previous_hash i ++ bi_pow i ++
     bi_difficulty i ++ bi_founder i).

(** block.rs:85-128 [BasicInfo::parse] *)
Definition info_parse (data : bytes) : out basic_info :=
  if Nat.leb (length data) 105 then Err EBasicInfoParse
  else
    let! ts := slice data 0 8 in
    let! previous_hash := slice data 8 40 in
    let! pow := slice data 40 72 in
    let! difficulty := slice data 72 104 in
    let! founder := slice data 104 137 in
    let! rest := slice_from data 137 in
    let! (height, _) := change_context (load_u256 rest) EBasicInfoParse in
    Ok (MkInfo (from_be ts) pow previous_hash height difficulty founder).

(** block.rs:131-137, :237-241, :431-435: the three implementors of trait [Block]. *)
Inductive block :=
| TxBlock (fee : N) (merkle_tree_root : bytes) (info : basic_info) (transactions : list bytes)
| DerivBlock (info : basic_info)
| SummBlock (info : basic_info) (merkle_tree_root : bytes).

Definition block_wf (b : block) : Prop :=
  match b with
  | TxBlock fee root info txs =>
      u256_ok fee /\ is_array 32 root /\ info_wf info /\ Forall (is_array 32) txs
  | DerivBlock info => info_wf info
  | SummBlock info root => info_wf info /\ is_array 32 root
  end.

(** block.rs:261, :362, :498 [get_info] *)
Definition get_info (b : block) : basic_info :=
  match b with TxBlock _ _ i _ => i | DerivBlock i => i | SummBlock i _ => i end.

(** block.rs:154-159, :258-260, :476-478 [get_dump_size] *)
Definition block_get_dump_size (b : block) : nat :=
  match b with
  | TxBlock fee _ info txs =>
      (1 + u256_size fee + 32 + info_get_dump_size info + length txs * 32)%nat
  | DerivBlock info => (info_get_dump_size info + 1)%nat
  | SummBlock info _ => (1 + 32 + info_get_dump_size info)%nat
  end.

(** block.rs:161-189, :267-275, :480-496 [dump] *)
Definition block_dump (b : block) : bytes :=
  match b with
  | TxBlock fee root info txs =>
      dump_u256 fee (info_dump info ([header_code HTransactionBlock] ++ root)) ++ concat txs
  | DerivBlock info => info_dump info [header_code HDerivativeBlock]
  | SummBlock info root => info_dump info ([header_code HSummarizeBlock] ++ root)
  end.

(** block.rs:230-234, :276-278, :466-474 [hash] *)
Definition block_hash (b : block) : bytes := sha256 (block_dump b).

(** block.rs:217-220: the transaction loop; each slice panics when out of range. *)
Fixpoint chunks32 (fuel : nat) (data : bytes) : out (list bytes) :=
  match data with
  | [] => Ok []
  | _ => match fuel with
         | O => UB (* out of fuel: never, the loop consumes 32 bytes each time *)
         | S f =>
             let! c := slice data 0 32 in
             let! r := chunks32 f (skipn 32 data) in
             Ok (c :: r)
         end
  end.

(** block.rs:191-228 [TransactionBlock::parse] *)
Definition tx_block_parse (data : bytes) : out block :=
  let! root := slice data 0 32 in
  let! d1 := slice_from data 32 in
  let! info := change_context (info_parse d1) ETxBlockParse in
  let index := (32 + info_get_dump_size info)%nat in
  let! d2 := slice_from data index in
  let! (fee, fee_size) := change_context (load_u256 d2) ETxBlockParse in
  let index := (index + (fee_size + 1))%nat in
  if negb (Nat.eqb ((length data - index) mod 32)%nat 0) then Err ETxBlockParse
  else
    let! txs := chunks32 (length data) (skipn index data) in
    Ok (TxBlock fee root info txs).

(** block.rs:336-350 [DerivativeBlock::parse] *)
Definition deriv_block_parse (data : bytes) : out block :=
  if Nat.ltb (length data) 32 then Err EDerivBlockParse
  else let! info := info_parse data in Ok (DerivBlock info).

(** block.rs:437-460 [SummarizeBlock::parse] *)
Definition summ_block_parse (data : bytes) : out block :=
  if Nat.leb (length data) 32 then Err ESummBlockParse
  else
    let! root := slice data 0 32 in
    let! d1 := slice_from data 32 in
    let! info := change_context (info_parse d1) ESummBlockParse in
    Ok (SummBlock info root).

(** block.rs:568-591 [deserialize_main_chain_block] *)
Definition deserialize_main_chain_block (dump : bytes) : out block :=
  match dump with
  | [] => Err EWrongHeader
  | h :: rest =>
      let! header := change_context (header_from_u8 h) EUnknownHeader in
      match header with
      | HTransactionBlock => tx_block_parse rest
      | HSummarizeBlock => summ_block_parse rest
      | _ => Err EWrongHeader
      end
  end.

(** block.rs:283, :368, :506 [verify_block] *)
Definition verify_block (b : block) (prev_hash : bytes) : bool :=
  bytes_eqb (bi_previous_hash (get_info b)) prev_hash.

(** block.rs:289, :374, :514 [get_fee] *)
Definition get_fee (b : block) : N := match b with TxBlock fee _ _ _ => fee | _ => 0 end.

(** block.rs:279-282 ([unimplemented!()]), :365-367, :502-504 [get_merkle_root] *)
Definition get_merkle_root (b : block) : out bytes :=
  match b with
  | TxBlock _ root _ _ => Ok root
  | DerivBlock _ => Panic
  | SummBlock _ root => Ok root
  end.

(** block.rs:331, :426, :562 [transactions] *)
Definition block_transactions (b : block) : option (list bytes) :=
  match b with TxBlock _ _ _ txs => Some txs | _ => None end.

(** block.rs:398-401: only transaction blocks compare the merkle root. *)
Definition validate_merkle (b : block) : out bool :=
  match b with
  | TxBlock _ root _ txs =>
      let! tree := build_tree txs in
      let! r := get_root tree in
      Ok (bytes_eqb root r)
  | _ => Ok true
  end.

(** block.rs:292-329, :382-424, :518-560 [validate].  The three bodies are the
    same sequence of tests except for the merkle test above. *)
Definition validate (p : profile) (b : block) (prev_block : option block) : out bool :=
  match prev_block with
  | None => Ok true
  | Some prev =>
      if negb (bytes_eqb (bi_previous_hash (get_info b)) (block_hash prev)) then Ok false
      else
        let! merkle_ok := validate_merkle b in
        if negb merkle_ok then Ok false
        else
          let! prev_difficulty :=
            recalculate_difficulty p (bi_timestamp (get_info prev))
              (bi_timestamp (get_info b)) (bi_difficulty (get_info prev)) in
          if negb (bytes_eqb (bi_difficulty (get_info b)) prev_difficulty) then Ok false
          else
            let! root := get_merkle_root b in
            check_pow root (bi_difficulty (get_info prev))
              (match block_transactions b with Some l => l | None => [] end)
              (bi_pow (get_info b))
  end.
