(** Base vocabulary of the model: bytes, outcomes of a Rust call, slices,
    big-endian integers.  Model file: definitions only. *)
From Coq Require Export List NArith ZArith Bool.
Export ListNotations.
Open Scope N_scope.

(** A Rust [u8]; values of that type satisfy [byte_ok]. *)
Definition byte := N.
Definition bytes := list N.
Definition byte_ok (b : N) : Prop := b < 256.
Definition bytes_ok (l : bytes) : Prop := Forall byte_ok l.

(** [[u8; n]]: types.rs:1-4 ([Hash] n=32, [Address] n=33, [Signature] n=64). *)
Definition is_array (n : nat) (l : bytes) : Prop := length l = n /\ bytes_ok l.
(** [u64] and [primitive_types::U256] values. *)
Definition u64_ok (x : N) : Prop := x < 2 ^ 64.
Definition u256_ok (x : N) : Prop := x < 2 ^ 256.

(** Cargo build profile: native integer overflow panics in [Debug] (also the
    test profile, Cargo.toml:32-33) and wraps in [Release]. *)
Inductive profile := Debug | Release.

(** Error contexts, errors.rs:53-180.  Only the outermost context of an
    error-stack [Report] is kept; attached text is dropped. *)
Inductive error :=
| EToolsDump            (* ToolsError::Biguint(Dump) *)
| EToolsLoad            (* ToolsError::Biguint(Load) *)
| ETxParse | ETxVerify | ETxDump       (* TransactionError::Tx(..) *)
| EBasicInfoParse       (* BlockError::BasicInfo(Parse) *)
| ETxBlockParse         (* BlockError::TransactionBlock(Parse) *)
| EDerivBlockParse      (* BlockError::DerivativeBlock(Parse) *)
| ESummBlockParse       (* BlockError::SummarizeBlock(Parse) *)
| EWrongHeader | EUnknownHeader        (* DumpHeadersErrorKind *)
| EChainInit | EChainAddingBlock | EChainAddingTx | EChainFindByHeight
| EChainFindByHash | EChainDumpConfig  (* BlockChainTreeError::Chain(..) *)
| ETreeGetFunds | ETreeAddFunds | ETreeDecreaseFunds | ETreeNewTransaction
| ETreeCreateMainChainBlock | ETreeWrongPow | ETreeSummarizeWrongTxAmount
| ETreeDumpDb | ETreeMoveSummary | ETreeInit | ETreeGetDerivChain. (* BlockChainTreeError::BlockChainTree(..) *)

(** Outcome of a call.  [Panic]: Rust panic.  [UB]: out-of-range
    [get_unchecked] or other undefined behaviour. *)
Inductive out (A : Type) :=
| Ok (a : A)
| Err (e : error)
| Panic
| UB.
Arguments Ok {A} a.
Arguments Err {A} e.
Arguments Panic {A}.
Arguments UB {A}.

Definition bind {A B} (x : out A) (f : A -> out B) : out B :=
  match x with Ok a => f a | Err e => Err e | Panic => Panic | UB => UB end.
Notation "'let!' x := e1 'in' e2" := (bind e1 (fun x => e2))
  (at level 200, x pattern, e1 at level 100, e2 at level 200).

(** [.change_context(e)] of error-stack: replaces the outermost context. *)
Definition change_context {A} (x : out A) (e : error) : out A :=
  match x with Err _ => Err e | y => y end.

(** [.unwrap()] on a [Result]. *)
Definition unwrap {A} (x : out A) : out A :=
  match x with Err _ => Panic | y => y end.
(** [.unwrap()] on an [Option]. *)
Definition unwrap_opt {A} (x : option A) : out A :=
  match x with Some a => Ok a | None => Panic end.

(** [data[i..j]] and [data[i..]]: panics when out of range. *)
Definition slice (data : bytes) (i j : nat) : out bytes :=
  if (Nat.leb i j && Nat.leb j (length data))%bool
  then Ok (firstn (j - i) (skipn i data)) else Panic.
Definition slice_from (data : bytes) (i : nat) : out bytes :=
  if Nat.leb i (length data) then Ok (skipn i data) else Panic.
(** [data[i]] *)
Definition index {A} (data : list A) (i : nat) : out A :=
  match nth_error data i with Some b => Ok b | None => Panic end.
(** [*data.get_unchecked(i)] *)
Definition index_unchecked {A} (data : list A) (i : nat) : out A :=
  match nth_error data i with Some b => Ok b | None => UB end.

(** [l] with position [i] replaced. *)
Fixpoint replace {A} (l : list A) (i : nat) (a : A) : list A :=
  match l, i with
  | [], _ => []
  | _ :: t, O => a :: t
  | h :: t, S k => h :: replace t k a
  end.
(** [*data.get_unchecked_mut(i) = a] *)
Definition set_unchecked {A} (data : list A) (i : nat) (a : A) : out (list A) :=
  if Nat.ltb i (length data) then Ok (replace data i a) else UB.

(** Big-endian encoding on exactly [n] bytes (truncating) and its inverse:
    [uN::to_be_bytes], [U256::to_big_endian], [from_be_bytes],
    [U256::from_big_endian], [BigUint::from_bytes_be]. *)
Fixpoint to_be (n : nat) (x : N) : bytes :=
  match n with
  | O => []
  | S k => to_be k (x / 256) ++ [x mod 256]
  end.
Definition from_be (l : bytes) : N := fold_left (fun acc b => acc * 256 + b) l 0.

(** Boolean equality of byte strings ([==] on slices). *)
Fixpoint bytes_eqb (a b : bytes) : bool :=
  match a, b with
  | [], [] => true
  | x :: a', y :: b' => (x =? y) && bytes_eqb a' b'
  | _, _ => false
  end.

(** Lexicographic order on byte strings (the key order of sled). *)
Fixpoint bytes_cmp (a b : bytes) : comparison :=
  match a, b with
  | [], [] => Eq
  | [], _ :: _ => Lt
  | _ :: _, [] => Gt
  | x :: a', y :: b' =>
      match x ?= y with Eq => bytes_cmp a' b' | c => c end
  end.
