(** Reference definitions used in theorem statements.  Small, independent of
    the algorithms in the model.  No proofs. *)
From Verif Require Import Base Sha256.

(** Value of a big-endian byte string, by positional weights. *)
Fixpoint be_val (l : bytes) : N :=
  match l with
  | [] => 0
  | b :: t => b * 256 ^ N.of_nat (length t) + be_val t
  end.

(** [l] is the shortest big-endian form of [x] (empty for zero). *)
Definition minimal_be (x : N) (l : bytes) : Prop :=
  bytes_ok l /\ be_val l = x /\ hd_error l <> Some 0.

(** Bits of a byte string, most significant first. *)
Definition byte_bits (b : N) : list bool :=
  map (N.testbit b) [7; 6; 5; 4; 3; 2; 1; 0].
Definition bits (l : bytes) : list bool := concat (map byte_bits l).
(** Number of [false] before the first [true]. *)
Fixpoint zeros_before_one (l : list bool) : N :=
  match l with
  | [] => 0
  | true :: _ => 0
  | false :: t => 1 + zeros_before_one t
  end.
Definition leading_zero_bits (l : bytes) : N := zeros_before_one (bits l).

(** No panic and no undefined behaviour. *)
Definition safe {A} (x : out A) : Prop :=
  match x with Ok _ => True | Err _ => True | Panic => False | UB => False end.

(** ** Merkle tree: a complete binary AND-tree *)

(** Bytewise AND of two nodes. *)
Fixpoint band (a b : bytes) : bytes :=
  match a, b with
  | x :: a', y :: b' => N.land x y :: band a' b'
  | _, _ => []
  end.
(** Inner node. *)
Definition node (l r : bytes) : bytes := sha256 (band l r).
Definition ff32 : bytes := repeat 255 32.
(** Root of the complete binary tree of height [k] over [2^k] leaves. *)
Fixpoint and_tree (k : nat) (leaves : list bytes) : bytes :=
  match k with
  | O => hd [] leaves
  | S k' => node (and_tree k' (firstn (2 ^ k') leaves)) (and_tree k' (skipn (2 ^ k') leaves))
  end.
(** [k] is the exponent of the least power of two strictly above [n]. *)
Definition height_for (n k : nat) : Prop :=
  (n < 2 ^ k)%nat /\ (k = 0 \/ 2 ^ (k - 1) <= n)%nat.
(** Items padded with 0xFF leaves. *)
Definition padded (k : nat) (items : list bytes) : list bytes :=
  items ++ repeat ff32 (2 ^ k - length items).
(** [root] is the merkle root of [items]. *)
Definition merkle_root_of (items : list bytes) (root : bytes) : Prop :=
  exists k, height_for (length items) k /\ root = and_tree k (padded k items).

(** Two different strings with the same SHA-256. *)
Definition collision (a b : bytes) : Prop := a <> b /\ sha256 a = sha256 b.

(** Root reached from a leaf value through the siblings of a proof. *)
Definition climb_proof (c : bytes) (proof : list bytes) : bytes :=
  fold_left (fun c p => node c p) proof c.

(** The pairs of children of all inner nodes of the tree of height [k]. *)
Fixpoint children (k : nat) (leaves : list bytes) : list (bytes * bytes) :=
  match k with
  | O => []
  | S k' =>
      let l := firstn (2 ^ k') leaves in let r := skipn (2 ^ k') leaves in
      (and_tree k' l, and_tree k' r) :: children k' l ++ children k' r
  end.

(** ** Truncated encodings on which the parsers index past the end *)

(** A length-prefixed number missing exactly its last byte, or nothing at all. *)
Definition number_cut (d : bytes) : Prop :=
  d = [] \/ exists b t, d = b :: t /\ 1 <= b <= 32 /\ N.of_nat (length t) + 1 = b.
(** A block header cut between byte 106 and the end of its height. *)
Definition header_cut (d : bytes) : Prop :=
  (105 < length d < 137)%nat \/ ((137 <= length d)%nat /\ number_cut (skipn 137 d)).

(** ** Signature scheme *)

(** [sign] with secret key [sk] yields 64 bytes which [verify] accepts for [pk]. *)
Definition key_pair (seckey_ok pubkey_ok sig_ok : bytes -> bool)
    (sign : bytes -> bytes -> bytes) (verify : bytes -> bytes -> bytes -> bool)
    (sk pk : bytes) : Prop :=
  seckey_ok sk = true /\ pubkey_ok pk = true /\
  forall digest, is_array 64 (sign digest sk) /\ sig_ok (sign digest sk) = true /\
                 verify digest (sign digest sk) pk = true.
