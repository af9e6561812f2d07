(** Model of src/txpool.rs and of the ordering of transactions
    (src/transaction.rs:17-53).  The pool holds boxed [dyn Transactionable]; the only
    implementor in the repository is [Transaction], which is what is modelled.
    [std::collections::BinaryHeap] (standard library 1.7x) is modelled by its algorithm on
    the underlying vector; moves through the hole are written as swaps.
    Model file: definitions only. *)
From Verif Require Import Base Transaction.

(** ** Ordering *)

(** Byte order of the machine, for [transmute::<[u8; 32], [u64; 4]>]. *)
Inductive endian := LittleEndian | BigEndian.
Definition word (e : endian) (l : bytes) : N :=
  match e with LittleEndian => from_be (rev l) | BigEndian => from_be l end.
(** transaction.rs:26-27 *)
Definition hash_words (e : endian) (h : bytes) : list N :=
  [word e (firstn 8 h); word e (firstn 8 (skipn 8 h));
   word e (firstn 8 (skipn 16 h)); word e (firstn 8 (skipn 24 h))].
(** transaction.rs:29-36: the loop over the four words. *)
Fixpoint words_cmp (l r : list N) : comparison :=
  match l, r with
  | x :: l, y :: r =>
      match x ?= y with Lt => Gt | Eq => words_cmp l r | Gt => Lt end
  | _, _ => Eq
  end.
(** transaction.rs:21-40 [Ord::cmp] *)
Definition tx_cmp (e : endian) (a b : transaction) : comparison :=
  match tx_timestamp a ?= tx_timestamp b with
  | Lt => Gt
  | Eq => words_cmp (hash_words e (tx_hash a)) (hash_words e (tx_hash b))
  | Gt => Lt
  end.
(** transaction.rs:43-47 [partial_cmp], and the provided [PartialOrd::le] built on it. *)
Definition tx_le (e : endian) (a b : transaction) : bool :=
  match tx_cmp e a b with Gt => false | _ => true end.
(** transaction.rs:49-53 [PartialEq::eq] *)
Definition tx_eq (a b : transaction) : bool := tx_timestamp a =? tx_timestamp b.

(** ** BinaryHeap *)
Section Heap.
Context {A : Type}.
Variable le : A -> A -> bool.

Fixpoint set_nth (i : nat) (x : A) (l : list A) : list A :=
  match l, i with
  | [], _ => []
  | _ :: t, O => x :: t
  | y :: t, S i => y :: set_nth i x t
  end.
Definition swap (i j : nat) (l : list A) : list A :=
  match nth_error l i, nth_error l j with
  | Some x, Some y => set_nth i y (set_nth j x l)
  | _, _ => l
  end.
(** [data[i] <= data[j]] *)
Definition le_at (l : list A) (i j : nat) : bool :=
  match nth_error l i, nth_error l j with
  | Some x, Some y => le x y
  | _, _ => true
  end.
(** [sift_up(0, pos)]; [fuel] bounds the number of levels. *)
Fixpoint sift_up (fuel pos : nat) (l : list A) : list A :=
  match fuel with
  | O => l
  | S fuel =>
      if Nat.eqb pos 0 then l
      else
        let parent := Nat.div (pos - 1) 2 in
        if le_at l pos parent then l else sift_up fuel parent (swap pos parent l)
  end.
(** First half of [sift_down_to_bottom]: the vector and the final position. *)
Fixpoint sink (fuel pos : nat) (l : list A) : list A * nat :=
  match fuel with
  | O => (l, pos)
  | S fuel =>
      let child := (2 * pos + 1)%nat in
      if Nat.leb child (length l - 2) then
        let child := if le_at l child (child + 1) then (child + 1)%nat else child in
        sink fuel child (swap pos child l)
      else if Nat.eqb child (length l - 1) then (swap pos child l, child)
      else (l, pos)
  end.
Definition sift_down_to_bottom (l : list A) : list A :=
  let '(l, pos) := sink (length l) 0 l in sift_up pos pos l.
(** [BinaryHeap::push] *)
Definition heap_push (x : A) (l : list A) : list A := sift_up (length l) (length l) (l ++ [x]).
(** [BinaryHeap::pop]: the last element replaces the first one and sinks. *)
Definition heap_pop (l : list A) : option (A * list A) :=
  match rev l with
  | [] => None
  | item :: r =>
      match rev r with
      | [] => Some (item, [])
      | top :: rest => Some (top, sift_down_to_bottom (item :: rest))
      end
  end.
End Heap.

(** ** The pool *)

(** txpool.rs:11-15.  [tp_hashes] is the [HashSet]; its order means nothing. *)
Record txpool := MkPool { tp_pool : list transaction; tp_hashes : list bytes }.
(** txpool.rs:18-26 [new], [with_capacity] *)
Definition pool_new : txpool := MkPool [] [].
Definition set_mem (h : bytes) (s : list bytes) : bool := existsb (bytes_eqb h) s.
(** txpool.rs:28-34 *)
Definition pool_push (e : endian) (tx : transaction) (p : txpool) : txpool * bool :=
  if set_mem (tx_hash tx) (tp_hashes p) then (p, false)
  else (MkPool (heap_push (tx_le e) tx (tp_pool p)) (tx_hash tx :: tp_hashes p), true).
(** txpool.rs:36-42 *)
Definition pool_len (p : txpool) : nat := length (tp_hashes p).
Definition pool_is_empty (p : txpool) : bool := Nat.eqb (pool_len p) 0.
(** txpool.rs:44-46: the vector in storage order. *)
Definition pool_iter (p : txpool) : list transaction := tp_pool p.
(** txpool.rs:48-53 *)
Definition pool_pop (e : endian) (p : txpool) : txpool * option (bytes * transaction) :=
  match heap_pop (tx_le e) (tp_pool p) with
  | None => (p, None)
  | Some (tr, rest) =>
      (MkPool rest (filter (fun h => negb (bytes_eqb h (tx_hash tr))) (tp_hashes p)),
       Some (tx_hash tr, tr))
  end.
(** txpool.rs:55-57 *)
Definition pool_exists (h : bytes) (p : txpool) : bool := set_mem h (tp_hashes p).

(** A call on the pool. *)
Inductive pool_op := PPush (tx : transaction) | PPop.
Definition pool_step (e : endian) (p : txpool) (o : pool_op) : txpool :=
  match o with PPush tx => fst (pool_push e tx p) | PPop => fst (pool_pop e p) end.
Definition pool_run (e : endian) (p : txpool) (l : list pool_op) : txpool :=
  fold_left (pool_step e) l p.
(** [n] pops in a row. *)
Fixpoint pool_drain (e : endian) (n : nat) (p : txpool) : list transaction :=
  match n with
  | O => []
  | S n => match pool_pop e p with
           | (p', Some (_, tr)) => tr :: pool_drain e n p'
           | (_, None) => []
           end
  end.
