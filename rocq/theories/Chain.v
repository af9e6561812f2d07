(** Model of src/chain.rs: MainChain and DerivativeChain.
    The unused [Chain] trait (chain.rs:21-49) has no implementor.
    The two RwLocks are not visible here: every function below is one critical
    section or one read; interleavings are modelled in ConcTree.v.
    Model file: definitions only. *)
From Coq Require Import Decimal DecimalString.
From Verif Require Import Base Sha256 Merkle Tools Transaction Block Sled.

(** Decimal ASCII digits: [U256::to_string] *)
Fixpoint uint_ascii (d : Decimal.uint) : bytes :=
  match d with
  | Decimal.Nil => []
  | Decimal.D0 d => 48 :: uint_ascii d | Decimal.D1 d => 49 :: uint_ascii d
  | Decimal.D2 d => 50 :: uint_ascii d | Decimal.D3 d => 51 :: uint_ascii d
  | Decimal.D4 d => 52 :: uint_ascii d | Decimal.D5 d => 53 :: uint_ascii d
  | Decimal.D6 d => 54 :: uint_ascii d | Decimal.D7 d => 55 :: uint_ascii d
  | Decimal.D8 d => 56 :: uint_ascii d | Decimal.D9 d => 57 :: uint_ascii d
  end.
Definition u256_to_string (x : N) : bytes := uint_ascii (N.to_uint x).

(** Database key of a height: [height.to_big_endian(&mut [u8; 32])] *)
Definition height_key (h : N) : bytes := to_be 32 h.

(** ** Main chain *)

(** chain.rs:51-59.  The clones of a [MainChain] share all of it. *)
Record main_chain := MkMain {
  mc_blocks : sled;
  mc_refs : sled;
  mc_txs : sled;
  mc_height : N;
  mc_difficulty : bytes;   (* loaded and dumped, never updated *)
  mc_cfg : file
}.

(** What is in the chain's directory while it is closed. *)
Record main_disk := MkMainDisk {
  md_blocks : sled;
  md_refs : sled;
  md_txs : sled;
  md_cfg : file
}.

(** chain.rs:285-316 [add_block].  Returns the new chain and the outcome. *)
Definition mc_add_block (b : block) (mc : main_chain) : main_chain * out unit :=
  let dump := block_dump b in
  let hash := sha256 dump in
  if negb (bi_height (get_info b) =? mc_height mc) then (mc, Err EChainAddingBlock)
  else
    let height_bytes := height_key (mc_height mc) in
    let blocks' := sled_insert height_bytes dump (mc_blocks mc) in
    let refs' := sled_insert hash height_bytes (mc_refs mc) in
    match u256_add (mc_height mc) 1 with
    | Ok h' => (MkMain blocks' refs' (mc_txs mc) h' (mc_difficulty mc) (mc_cfg mc), Ok tt)
    | _ => (MkMain blocks' refs' (mc_txs mc) (mc_height mc) (mc_difficulty mc) (mc_cfg mc), Panic)
    end.

(** chain.rs:118-138: the inception block *)
Definition genesis_leaf : bytes :=
  sha256 (ROOT_PUBLIC_ADDRESS ++ [124] ++ u256_to_string COINS_PER_CYCLE ++ [124] ++ [48]).
Definition genesis_info : basic_info :=
  MkInfo INCEPTION_TIMESTAMP (repeat 0 32) (repeat 0 32) 0 BEGINNING_DIFFICULTY ROOT_PUBLIC_ADDRESS.
Definition genesis_block : out block :=
  let! tree := build_tree [genesis_leaf] in
  let! root := get_root tree in
  Ok (SummBlock genesis_info root).

(** chain.rs:90-107: [File::open] failing (absent file) selects the defaults;
    a short file is an error. *)
Definition mc_read_config (cfg : file) : out (N * bytes) :=
  match file_cur cfg with
  | None => Ok (0, BEGINNING_DIFFICULTY)
  | Some c =>
      let! l := read_fields 2 c in
      let! h := index l 0 in
      let! d := index l 1 in
      Ok (from_be h, d)
  end.

(** chain.rs:62-144 [MainChain::new] *)
Definition mc_new (d : main_disk) : out main_chain :=
  let! (height, difficulty) := mc_read_config (md_cfg d) in
  let chain := MkMain (md_blocks d) (md_refs d) (md_txs d) height difficulty (md_cfg d) in
  if height =? 0 then
    let! g := genesis_block in
    let '(chain', r) := mc_add_block g chain in
    let! _ := change_context r EChainInit in
    Ok chain'
  else Ok chain.

(** chain.rs:148-172 [dump_config] *)
Definition mc_dump_config (mc : main_chain) : main_chain :=
  let f := file_append (mc_difficulty mc)
             (file_append (height_key (mc_height mc)) (file_truncate (mc_cfg mc))) in
  MkMain (mc_blocks mc) (mc_refs mc) (mc_txs mc) (mc_height mc) (mc_difficulty mc) f.

(** chain.rs:179-201 [flush]: config first, then the three databases. *)
Definition mc_flush_blocks (mc : main_chain) : main_chain :=
  MkMain (sled_flush (mc_blocks mc)) (mc_refs mc) (mc_txs mc) (mc_height mc)
    (mc_difficulty mc) (mc_cfg mc).
Definition mc_flush_refs (mc : main_chain) : main_chain :=
  MkMain (mc_blocks mc) (sled_flush (mc_refs mc)) (mc_txs mc) (mc_height mc)
    (mc_difficulty mc) (mc_cfg mc).
Definition mc_flush_txs (mc : main_chain) : main_chain :=
  MkMain (mc_blocks mc) (mc_refs mc) (sled_flush (mc_txs mc)) (mc_height mc)
    (mc_difficulty mc) (mc_cfg mc).
Definition mc_flush (mc : main_chain) : main_chain :=
  mc_flush_txs (mc_flush_refs (mc_flush_blocks (mc_dump_config mc))).

(** chain.rs:174-176 *)
Definition mc_get_height (mc : main_chain) : N := mc_height mc.

(** chain.rs:223-239 [add_transaction]; dumping cannot fail. *)
Definition mc_add_transaction (t : transaction) (mc : main_chain) : main_chain :=
  let dump := tx_dump t in
  MkMain (mc_blocks mc) (mc_refs mc) (sled_insert (sha256 dump) dump (mc_txs mc))
    (mc_height mc) (mc_difficulty mc) (mc_cfg mc).
(** chain.rs:203-221 [add_transactions] *)
Definition mc_add_transactions (ts : list transaction) (mc : main_chain) : main_chain :=
  fold_left (fun mc t => mc_add_transaction t mc) ts mc.

(** chain.rs:241-248 *)
Definition mc_transaction_exists (h : bytes) (mc : main_chain) : bool :=
  sled_contains h (mc_txs mc).
(** chain.rs:250-259 *)
Definition mc_get_transaction_raw (h : bytes) (mc : main_chain) : option bytes :=
  sled_get h (mc_txs mc).
(** chain.rs:261-278 [get_transaction] *)
Definition mc_get_transaction (h : bytes) (mc : main_chain) : out (option transaction) :=
  match mc_get_transaction_raw h mc with
  | None => Ok None
  | Some tr =>
      if negb (hd 10 tr =? header_code HTransaction) then Err EChainFindByHash
      else
        let! body := slice_from tr 1 in
        let! t := change_context (tx_parse body) EChainFindByHash in
        Ok (Some t)
  end.

(** chain.rs:319-340 [find_raw_by_height] *)
Definition mc_find_raw_by_height (h : N) (mc : main_chain) : option bytes :=
  if mc_height mc <? h then None else sled_get (height_key h) (mc_blocks mc).

(** chain.rs:343-363 [find_raw_by_hash].  [from_big_endian] panics beyond 32
    bytes; the stored reference is a 32-byte key. *)
Definition mc_find_raw_by_hash (h : bytes) (mc : main_chain) : out (option bytes) :=
  match sled_get h (mc_refs mc) with
  | None => Ok None
  | Some hb =>
      if Nat.ltb 32 (length hb) then Panic
      else Ok (mc_find_raw_by_height (from_be hb) mc)
  end.

(** chain.rs:371-384, :402-412, :422-435: deserialize a found dump. *)
Definition mc_decode (d : option bytes) : out (option block) :=
  match d with
  | None => Ok None
  | Some data =>
      let! b := change_context (deserialize_main_chain_block data) EChainFindByHeight in
      Ok (Some b)
  end.

(** chain.rs:365-385 *)
Definition mc_find_by_hash (h : bytes) (mc : main_chain) : out (option block) :=
  let! d := mc_find_raw_by_hash h mc in mc_decode d.
(** chain.rs:388-394 [get_last_raw_block]: [*height - 1] panics at height 0. *)
Definition mc_get_last_raw_block (mc : main_chain) : out (option bytes) :=
  let! i := u256_sub (mc_height mc) 1 in
  Ok (mc_find_raw_by_height i mc).
(** chain.rs:397-413 *)
Definition mc_get_last_block (mc : main_chain) : out (option block) :=
  let! d := mc_get_last_raw_block mc in mc_decode d.
(** chain.rs:416-436 *)
Definition mc_find_by_height (h : N) (mc : main_chain) : out (option block) :=
  mc_decode (mc_find_raw_by_height h mc).

(** ** Derivative chain *)

(** chain.rs:439-448.  [chain_owner] and [root] are only used for paths. *)
Record deriv_chain := MkDeriv {
  dc_blocks : sled;
  dc_refs : sled;
  dc_height : N;
  dc_genesis : bytes;
  dc_difficulty : bytes;
  dc_cfg : file
}.
Record deriv_disk := MkDerivDisk {
  dd_blocks : sled;
  dd_refs : sled;
  dd_cfg : file
}.
Definition deriv_disk_empty : deriv_disk := MkDerivDisk sled_empty sled_empty file_absent.

(** chain.rs:451-518 [DerivativeChain::new] *)
Definition dc_new (d : deriv_disk) (provided_genesis_hash : bytes) : out deriv_chain :=
  let! (height, difficulty, genesis_hash) :=
    match file_cur (dd_cfg d) with
    | None => Ok (0, BEGINNING_DIFFICULTY, provided_genesis_hash)
    | Some c =>
        let! l := read_fields 3 c in
        let! h := index l 0 in
        let! df := index l 1 in
        let! g := index l 2 in
        Ok (from_be h, df, g)
    end in
  Ok (MkDeriv (dd_blocks d) (dd_refs d) height genesis_hash difficulty (dd_cfg d)).

(** chain.rs:527-556 [dump_config] *)
Definition dc_dump_config (dc : deriv_chain) : deriv_chain :=
  let f := file_append (dc_genesis dc)
             (file_append (dc_difficulty dc)
               (file_append (height_key (dc_height dc)) (file_truncate (dc_cfg dc)))) in
  MkDeriv (dc_blocks dc) (dc_refs dc) (dc_height dc) (dc_genesis dc) (dc_difficulty dc) f.

(** chain.rs:559-575 [flush] *)
Definition dc_flush (dc : deriv_chain) : deriv_chain :=
  let dc := dc_dump_config dc in
  MkDeriv (sled_flush (dc_blocks dc)) (sled_flush (dc_refs dc)) (dc_height dc)
    (dc_genesis dc) (dc_difficulty dc) (dc_cfg dc).

(** chain.rs:520-522 *)
Definition dc_get_height (dc : deriv_chain) : N := dc_height dc.

(** chain.rs:582-614 [add_block]; takes a [DerivativeBlock], i.e. its info. *)
Definition dc_add_block (i : basic_info) (dc : deriv_chain) : deriv_chain * out unit :=
  let dump := block_dump (DerivBlock i) in
  let hash := sha256 dump in
  if negb (bi_height i =? dc_height dc) then (dc, Err EChainAddingBlock)
  else
    let height_bytes := height_key (dc_height dc) in
    let blocks' := sled_insert height_bytes dump (dc_blocks dc) in
    let refs' := sled_insert hash height_bytes (dc_refs dc) in
    match u256_add (dc_height dc) 1 with
    | Ok h' =>
        (MkDeriv blocks' refs' h' (dc_genesis dc) (dc_difficulty dc) (dc_cfg dc), Ok tt)
    | _ =>
        (MkDeriv blocks' refs' (dc_height dc) (dc_genesis dc) (dc_difficulty dc) (dc_cfg dc), Panic)
    end.

(** chain.rs:617-638 *)
Definition dc_find_raw_by_height (h : N) (dc : deriv_chain) : option bytes :=
  if dc_height dc <? h then None else sled_get (height_key h) (dc_blocks dc).
(** chain.rs:641-661 *)
Definition dc_find_raw_by_hash (h : bytes) (dc : deriv_chain) : out (option bytes) :=
  match sled_get h (dc_refs dc) with
  | None => Ok None
  | Some hb =>
      if Nat.ltb 32 (length hb) then Panic
      else Ok (dc_find_raw_by_height (from_be hb) dc)
  end.
(** chain.rs:669-680, :701-711, :723-733: [DerivativeBlock::parse(&data[1..])] *)
Definition dc_decode (d : option bytes) : out (option block) :=
  match d with
  | None => Ok None
  | Some data =>
      let! body := slice_from data 1 in
      let! b := change_context (deriv_block_parse body) EChainFindByHeight in
      Ok (Some b)
  end.
(** chain.rs:663-683 *)
Definition dc_find_by_hash (h : bytes) (dc : deriv_chain) : out (option block) :=
  let! d := dc_find_raw_by_hash h dc in dc_decode d.
(** chain.rs:686-695 *)
Definition dc_get_last_raw_block (dc : deriv_chain) : out (option bytes) :=
  if dc_height dc =? 0 then Ok None
  else
    let! i := u256_sub (dc_height dc) 1 in
    Ok (dc_find_raw_by_height i dc).
(** chain.rs:698-714 *)
Definition dc_get_last_block (dc : deriv_chain) : out (option block) :=
  let! d := dc_get_last_raw_block dc in dc_decode d.
(** chain.rs:717-737 *)
Definition dc_find_by_height (h : N) (dc : deriv_chain) : out (option block) :=
  dc_decode (dc_find_raw_by_height h dc).
