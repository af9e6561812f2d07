(** Model of src/merkletree.rs.  Model file: definitions only. *)
From Verif Require Import Base Sha256.
Local Open Scope nat_scope.

(** merkletree.rs:5-8 *)
Definition padding_hash : bytes := repeat 255%N 32.

(** merkletree.rs:10-15.  The [Arc<[[u8;32]]>] is a list. *)
Record merkle_tree := MkTree {
  mt_array : list bytes;
  mt_depth : nat;
  mt_inputs : nat
}.

(** merkletree.rs:17-25.  [usize] is an unbounded [nat] here: a slice of 32-byte
    items has fewer than 2^58 elements, so [x <<= 1] cannot wrap.  Running out
    of fuel (non-termination) is [UB]; shown impossible in MerkleFacts.v. *)
Fixpoint fcp_loop (fuel x power number : nat) : out nat :=
  match fuel with
  | O => UB
  | S f => if Nat.leb x number then fcp_loop f (2 * x) (power + 1) number else Ok power
  end.
Definition find_closest_power_of_2 (number : nat) : out nat :=
  fcp_loop (S (S number)) 1 0 number.

(** merkletree.rs:49-58: bytewise AND of two nodes. *)
Definition and_bytes (l r : bytes) : bytes :=
  map (fun p => N.land (fst p) (snd p)) (combine l r).

(** merkletree.rs:36-40: [for (item, leaf_index) in items.iter().zip(..)] *)
Fixpoint put_leaves (arr : list bytes) (pos : nat) (items : list bytes) : out (list bytes) :=
  match items with
  | [] => Ok arr
  | it :: t => let! arr' := set_unchecked arr pos it in put_leaves arr' (S pos) t
  end.

(** merkletree.rs:42-46: padding loop over [from..from+count). *)
Fixpoint put_padding (arr : list bytes) (from count : nat) : out (list bytes) :=
  match count with
  | O => Ok arr
  | S c => let! arr' := set_unchecked arr from padding_hash in put_padding arr' (S from) c
  end.

(** The indices of [(lo..hi).step_by(2)] *)
Definition step_by_2 (lo hi : nat) : list nat :=
  map (fun k => lo + 2 * k) (seq 0 ((hi - lo + 1) / 2)).

(** merkletree.rs:48-65: one iteration: parent := SHA-256(left AND right). *)
Definition hash_pair (arr : list bytes) (left_index : nat) : out (list bytes) :=
  let! l := index_unchecked arr left_index in
  let! r := index_unchecked arr (left_index + 1) in
  set_unchecked arr ((left_index - 1) / 2) (sha256 (and_bytes l r)).

Fixpoint hash_pairs (arr : list bytes) (idxs : list nat) : out (list bytes) :=
  match idxs with
  | [] => Ok arr
  | i :: t => let! arr' := hash_pair arr i in hash_pairs arr' t
  end.

(** merkletree.rs:28-72 *)
Definition build_tree (items : list bytes) : out merkle_tree :=
  let! closest_power_2 := find_closest_power_of_2 (length items) in
  let depth := closest_power_2 + 1 in
  let leaves_amount := 2 ^ closest_power_2 in
  let nodes_total := leaves_amount * 2 - 1 in
  let arr0 := repeat padding_hash nodes_total in
  let! arr1 := put_leaves arr0 (nodes_total - leaves_amount)
                 (firstn leaves_amount items) (* zip stops at the shorter side *) in
  let pad := leaves_amount - length items in
  let! arr2 := put_padding arr1 (nodes_total - pad) pad in
  let! arr3 := hash_pairs arr2 (rev (step_by_2 1 (nodes_total - 1))) in
  Ok (MkTree arr3 depth (length items)).

(** merkletree.rs:147-149 *)
Definition get_root (t : merkle_tree) : out bytes := index_unchecked (mt_array t) 0.

(** merkletree.rs:81-91: index of the first equal leaf, else of the last one;
    [0] when the range is empty. *)
Fixpoint find_leaf (arr : list bytes) (h : bytes) (rel count last : nat) : out nat :=
  match count with
  | O => Ok last
  | S c =>
      let! x := index_unchecked arr rel in
      if bytes_eqb x h then Ok rel else find_leaf arr h (S rel) c rel
  end.

(** merkletree.rs:93-107.  [isize] arithmetic on a non-negative index. *)
Fixpoint climb (fuel : nat) (arr : list bytes) (ret : list bytes) (ri idx : nat)
  : out (list bytes * nat) :=
  match fuel with
  | O => UB
  | S f =>
      if Nat.ltb 0 idx then
        let sib := if Nat.odd idx then idx + 1 else idx - 1 in
        let! v := index_unchecked arr sib in
        let! ret' := set_unchecked ret ri v in
        climb f arr ret' (ri + 1) ((sib - 1) / 2)
      else Ok (ret, ri)
  end.

(** merkletree.rs:74-115 *)
Definition get_proof (t : merkle_tree) (h : bytes) : out (list bytes) :=
  let arr := mt_array t in
  let ret0 := repeat (repeat 0%N 32) (mt_depth t) in
  let leaves_amount := 2 ^ (mt_depth t - 1) in
  let lo := length arr - leaves_amount in
  let hi := length arr - (leaves_amount - mt_inputs t) in
  let! idx := find_leaf arr h lo (hi - lo) 0 in
  let! (ret, ri) := climb (S idx) arr ret0 0 idx in
  let! root := index_unchecked arr 0 in
  set_unchecked ret ri root.

(** merkletree.rs:117-145.  [proof[0]] panics on an empty proof. *)
Definition verify_proof (h root : bytes) (proof : list bytes) : out bool :=
  let! p0 := index proof 0 in
  let c0 := sha256 (and_bytes h p0) in
  let c := fold_left (fun c p => sha256 (and_bytes c p)) (tl proof) c0 in
  Ok (bytes_eqb root c).
