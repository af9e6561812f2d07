(** Model of src/tools.rs (codecs, proof of work, difficulty, fee) and of
    src/static_values.rs.  Not here: copy_dir_all (Fs.v), zstd helpers (Zstd.v).
    Model file: definitions only. *)
From Verif Require Import Base Sha256 Merkle.

(** ** U256 arithmetic of crate primitive-types: overflow panics in every profile. *)
Definition u256_add (a b : N) : out N := if a + b <? 2 ^ 256 then Ok (a + b) else Panic.
Definition u256_sub (a b : N) : out N := if b <=? a then Ok (a - b) else Panic.
Definition u256_mul (a b : N) : out N := if a * b <? 2 ^ 256 then Ok (a * b) else Panic.

(** ** Codecs *)

(** The four little-endian 64-bit limbs [number.0] of a U256. *)
Definition limbs (x : N) : list N :=
  [x mod 2 ^ 64; (x / 2 ^ 64) mod 2 ^ 64; (x / 2 ^ 128) mod 2 ^ 64; (x / 2 ^ 192) mod 2 ^ 64].

(** tools.rs:36-51: the inner loop; [counter] is a u8 that stays below 33. *)
Fixpoint dump_loop (bs : bytes) (found : bool) (counter : N) (buf : bytes) : N * bytes :=
  match bs with
  | [] => (counter, buf)
  | b :: t =>
      if found then dump_loop t true (counter + 1) (buf ++ [b])
      else if negb (b =? 0) then dump_loop t true (counter + 1) (buf ++ [b])
      else dump_loop t false counter buf
  end.

(** tools.rs:32-56 [dump_u256]: always [Ok(())]; returns the new buffer. *)
Definition dump_u256 (number : N) (buffer : bytes) : bytes :=
  let buf1 := buffer ++ [0] in
  let ind := (length buf1 - 1)%nat in
  let '(counter, buf2) :=
    dump_loop (concat (map (to_be 8) (rev (limbs number)))) false 0 buf1 in
  replace buf2 ind counter.

(** tools.rs:58-79 [load_u256] *)
Definition load_u256 (data : bytes) : out (N * nat) :=
  let! b := index data 0 in
  let amount_of_bytes := N.to_nat b in
  if Nat.ltb 32 amount_of_bytes then Err EToolsDump
  else if Nat.ltb (length data) amount_of_bytes then Err EToolsLoad
  else
    let! s := slice data 1 (1 + amount_of_bytes) in
    Ok (from_be s, amount_of_bytes).

(** tools.rs:81-92 [u256_size] and tools.rs:129-140 [bigint_size] (same body);
    [bits()] is the position of the highest set bit, 0 for zero. *)
Definition u256_size (number : N) : nat :=
  let bits := N.size_nat number in
  if Nat.eqb bits 0 then 2%nat
  else
    let amount_byte_size := (bits / 8)%nat in
    let amount_byte_size :=
      if Nat.eqb (bits mod 8)%nat 0 then amount_byte_size else (amount_byte_size + 1)%nat in
    (amount_byte_size + 1)%nat.
Definition bigint_size (number : N) : nat := u256_size number.

(** num_bigint [BigUint::to_bytes_le]: minimal little-endian bytes, [[0]] for zero. *)
Definition biguint_to_bytes_le (x : N) : bytes :=
  rev (to_be (Nat.max 1 ((N.size_nat x + 7) / 8)%nat) x).

(** tools.rs:94-109 [dump_biguint]; on [Err] the buffer is untouched. *)
Definition dump_biguint (number : N) (buffer : bytes) : out bytes :=
  let number_bytes := biguint_to_bytes_le number in
  let amount_of_bunches := length number_bytes in
  if Nat.ltb 255 amount_of_bunches then Err EToolsDump
  else Ok (buffer ++ [N.of_nat amount_of_bunches] ++ rev number_bytes).

(** tools.rs:111-127 [load_biguint] *)
Definition load_biguint (data : bytes) : out (N * nat) :=
  let! b := index data 0 in
  let amount_of_bytes := N.to_nat b in
  if Nat.ltb (length data) amount_of_bytes then Err EToolsLoad
  else
    let! s := slice data 1 (1 + amount_of_bytes) in
    Ok (from_be s, (amount_of_bytes + 1)%nat).

(** ** Proof of work *)

(** [u8::leading_zeros] *)
Definition u8_leading_zeros (b : N) : N := 8 - N.size b.

(** tools.rs:188-198 [count_leading_zeros] *)
Fixpoint count_leading_zeros (data : bytes) : N :=
  match data with
  | [] => 0
  | b :: t =>
      let lz := u8_leading_zeros b in
      if lz <? 8 then lz else lz + count_leading_zeros t
  end.

(** tools.rs:200-217 [check_pow] *)
Definition check_pow (hash difficulty : bytes) (transactions : list bytes) (pow : bytes)
  : out bool :=
  let! tree := build_tree transactions in
  let! root := get_root tree in
  let result := sha256 (hash ++ root ++ pow) in
  Ok (count_leading_zeros difficulty <=? count_leading_zeros result).

(** static_values.rs *)
Definition TIME_PER_BLOCK : N := 600.                                  (* :45 *)
Definition BLOCKS_PER_EPOCH : N := 1000000.                            (* :43 *)
Definition INCEPTION_TIMESTAMP : N := 1597924800.                      (* :41 *)
Definition BEGINNING_DIFFICULTY : bytes := 127 :: repeat 255 31.       (* :25-28 *)
Definition ROOT_PUBLIC_ADDRESS : bytes :=                              (* :36-39 *)
  [3; 27; 132; 197; 86; 123; 18; 100; 64; 153; 93; 62; 213; 170; 186; 5; 101; 215; 30; 24; 52; 96;
   72; 25; 255; 156; 23; 245; 233; 213; 221; 7; 143].
Definition COIN_FRACTIONS : N := 1000000000000000000.                  (* :48 *)
Definition INITIAL_FEE : N := 25000000000000000.                       (* :49 *)
Definition FEE_STEP : N := 62500.                                      (* :50 *)
Definition MAIN_CHAIN_PAYMENT : N := INITIAL_FEE.                      (* :51 *)
Definition COINS_PER_CYCLE : N :=                                      (* :52 *)
  MAIN_CHAIN_PAYMENT * 2000 * BLOCKS_PER_EPOCH + COIN_FRACTIONS * 10000.
Definition BYTE_GAS_PRICE : N := 625000000000.                         (* :53 *)

(** tools.rs:220-226: index of the first non-zero byte, 0 if there is none. *)
Fixpoint first_nonzero (i : nat) (l : bytes) : nat :=
  match l with
  | [] => O
  | b :: t => if negb (b =? 0) then i else first_nonzero (S i) t
  end.

(** [timestamp - prev_timestamp] on u64 *)
Definition u64_sub (p : profile) (a b : N) : out N :=
  if b <=? a then Ok (a - b)
  else match p with Debug => Panic | Release => Ok ((a + 2 ^ 64 - b) mod 2 ^ 64) end.

(** tools.rs:219-245 [recalculate_difficulty]; returns the new difficulty.
    [non_zero_index - 1] underflows when the index is 0: panic in Debug, and in
    Release an unchecked access at [usize::MAX], i.e. [UB]. *)
Definition recalculate_difficulty (p : profile) (prev_timestamp timestamp : N)
    (prev_difficulty : bytes) : out bytes :=
  let non_zero_index := first_nonzero 0 prev_difficulty in
  let! gap := u64_sub p timestamp prev_timestamp in
  match gap ?= TIME_PER_BLOCK with
  | Lt =>
      let! val := index_unchecked prev_difficulty non_zero_index in
      set_unchecked prev_difficulty non_zero_index (N.shiftr val 1)
  | Gt =>
      let! val := index_unchecked prev_difficulty non_zero_index in
      if (Nat.eqb non_zero_index 0 && (val =? 127))%bool then Ok prev_difficulty
      else if val =? 255 then
        match non_zero_index with
        | O => match p with Debug => Panic | Release => UB end
        | S i =>
            let! val' := index_unchecked prev_difficulty i in
            set_unchecked prev_difficulty i ((val' * 2) mod 256 + 1)
        end
      else set_unchecked prev_difficulty non_zero_index ((val * 2) mod 256 + 1)
  | Eq => Ok prev_difficulty
  end.

(** tools.rs:247-251 [recalculate_fee] *)
Definition recalculate_fee (current_difficulty : bytes) : out N :=
  u256_mul FEE_STEP (count_leading_zeros current_difficulty).
