(** Notions used in the theorems about the transaction pool.  Definitions only. *)
From Verif Require Import Base Transaction TxPool Spec.

(** The hash as four 64-bit numbers in the byte order of the machine. *)
Definition native (e : endian) (l : bytes) : bytes :=
  match e with LittleEndian => rev l | BigEndian => l end.
Definition word_values (e : endian) (h : bytes) : list N :=
  map (fun k => be_val (native e (firstn 8 (skipn k h)))) [0; 8; 16; 24]%nat.
(** Lexicographic order on lists of numbers. *)
Fixpoint lex_le (l r : list N) : Prop :=
  match l, r with
  | [], _ => True
  | x :: l, y :: r => x < y \/ (x = y /\ lex_le l r)
  | _ :: _, [] => False
  end.
(** [a] leaves the pool before [b]: older, or equally old with a smaller hash. *)
Definition before (e : endian) (a b : transaction) : Prop :=
  tx_timestamp a < tx_timestamp b \/
  (tx_timestamp a = tx_timestamp b /\ lex_le (word_values e (tx_hash a)) (word_values e (tx_hash b))).

(** Pools made by pushes and pops. *)
Definition pool_after (e : endian) (calls : list pool_op) : txpool := pool_run e pool_new calls.
(** Hashes are 32-byte arrays. *)
Definition hashes_ok (calls : list pool_op) : Prop :=
  Forall (fun o => match o with PPush tx => is_array 32 (tx_hash tx) | PPop => True end) calls.
