(** Reachability notions and relations between blocks used in theorem
    statements.  Definitions only. *)
From Verif Require Import Base Sha256 Tools Transaction Block Sled Chain Tree Spec.

(** Difficulties that retargeting can produce from BEGINNING_DIFFICULTY under any
    sequence of (previous timestamp, timestamp) pairs. *)
Inductive difficulty_reachable (p : profile) : bytes -> Prop :=
| difficulty_begin : difficulty_reachable p BEGINNING_DIFFICULTY
| difficulty_step : forall d d' prev_ts ts, difficulty_reachable p d ->
    recalculate_difficulty p prev_ts ts d = Ok d' -> difficulty_reachable p d'.

(** Arguments of a call have the sizes their Rust types impose. *)
Definition op_wf (o : op) : Prop :=
  match o with
  | OAddAmount w a | OSetAmount w a | OSubAmount w a | OAddGas w a | OSubGas w a =>
      bytes_ok w /\ u256_ok a                      (* accounts are [&[u8]] here *)
  | OSendAmount f w a | OSendGas f w a => bytes_ok f /\ bytes_ok w /\ u256_ok a
  | OSendTx tx => tx_wf tx
  | OEmitMain pow founder txs ts =>
      is_array 32 pow /\ is_array 33 founder /\ Forall (is_array 32) txs /\ u64_ok ts
  | OEmitDeriv pow founder ts => is_array 32 pow /\ is_array 33 founder /\ u64_ok ts
  | OGetDeriv w => is_array 33 w
  | OAddNewBlock b txs => block_wf b /\ Forall tx_wf txs
  | OAddTxs txs => Forall tx_wf txs
  | ODerivAddBlock w i => is_array 33 w /\ info_wf i
  | OFlush | OMainFlush => True
  | ODerivFlush w => is_array 33 w
  end.

(** Trees reachable from an empty directory by [n] calls, each allowed by [ok],
    with any number of clean restarts (flush, close, open) in between. *)
Inductive reachable (ok : op -> Prop) (p : profile) : nat -> bct -> Prop :=
| reach_open : forall t, t_new disk_empty = Ok t -> reachable ok p 0 t
| reach_call : forall n t o, reachable ok p n t -> op_wf o -> ok o ->
    reachable ok p (S n) (fst (step p t o))
| reach_reopen : forall n t t', reachable ok p n t -> t_new (t_close (t_flush t)) = Ok t' ->
    reachable ok p n t'.

(** Fewer calls than there are 256-bit heights. *)
Definition few (n : nat) : Prop := N.of_nat n < 2 ^ 256 - 2.

(** No restriction on the calls. *)
Definition any_op (o : op) : Prop := True.
(** Main-chain blocks are only made by emission. *)
Definition no_raw_main (o : op) : Prop := match o with OAddNewBlock _ _ => False | _ => True end.
(** Derivative blocks are only made by emission. *)
Definition no_raw_deriv (o : op) : Prop := match o with ODerivAddBlock _ _ => False | _ => True end.
(** Raw additions to the main chain are blocks of the main-chain kinds. *)
Definition main_kinds (o : op) : Prop :=
  match o with OAddNewBlock (DerivBlock _) _ => False | _ => True end.

(** ** How one block follows another *)

(** The work of [pow] over a hash and a merkle root meets a difficulty. *)
Definition work (hash difficulty root pow : bytes) : Prop :=
  leading_zero_bits difficulty <= leading_zero_bits (sha256 (hash ++ root ++ pow)).

(** Header of [b] after a block with header [i] and hash [h], difficulty [d] before. *)
Definition header_follows (p : profile) (h d : bytes) (prev_ts height : N) (txroot : bytes)
    (i : basic_info) : Prop :=
  bi_previous_hash i = h /\ bi_height i = height /\
  recalculate_difficulty p prev_ts (bi_timestamp i) d = Ok (bi_difficulty i) /\
  work h d txroot (bi_pow i).

(** [b] follows [prev] on the main chain. *)
Definition main_link (p : profile) (prev b : block) : Prop :=
  let pi := get_info prev in let i := get_info b in
  match b with
  | TxBlock fee root _ txs =>
      merkle_root_of txs root /\ txs <> [] /\ fee = 62500 * leading_zero_bits (bi_difficulty i) /\
      bi_height i mod 1000000 <> 0 /\
      header_follows p (block_hash prev) (bi_difficulty pi) (bi_timestamp pi) (bi_height pi + 1) root i
  | SummBlock _ _ =>
      bi_height i mod 1000000 = 0 /\
      header_follows p (block_hash prev) (bi_difficulty pi) (bi_timestamp pi) (bi_height pi + 1) ff32 i
  | DerivBlock _ => False
  end.

(** [i] follows the derivative block with header [pi]. *)
Definition deriv_link (p : profile) (pi i : basic_info) : Prop :=
  header_follows p (block_hash (DerivBlock pi)) (bi_difficulty pi) (bi_timestamp pi)
    (bi_height pi + 1) ff32 i.
(** [i] is the first derivative block, attached to the main block [g]. *)
Definition deriv_start (p : profile) (g : block) (i : basic_info) : Prop :=
  header_follows p (block_hash g) BEGINNING_DIFFICULTY (bi_timestamp (get_info g)) 0 ff32 i.

(** Consecutive elements are related. *)
Inductive chained {A} (R : A -> A -> Prop) : list A -> Prop :=
| chained_nil : chained R []
| chained_one : forall x, chained R [x]
| chained_cons : forall x y l, R x y -> chained R (y :: l) -> chained R (x :: y :: l).
