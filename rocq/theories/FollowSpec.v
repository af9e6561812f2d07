(** A node that receives the blocks of another node: vocabulary of C105.  The program in [receive] is a client of
    the library, not part of it: it decodes a received dump (block.rs:568-592) and calls [add_new_block]
    (blockchaintree.rs:326-334) without transactions. *)
From Verif Require Import Base Block Chain Tree.

Definition receive (d : bytes) (t : bct) : bct * out unit :=
  match deserialize_main_chain_block d with
  | Ok b => t_add_new_block b [] t
  | Err e => (t, Err e) | Panic => (t, Panic) | UB => (t, UB)
  end.
(** a list of dumps, refused ones being skipped *)
Definition receive_all (ds : list bytes) (t : bct) : bct := fold_left (fun t d => fst (receive d t)) ds t.

(** the dump stored at a height *)
Definition dump_at (i : N) (t : bct) : option bytes := mc_find_raw_by_height i (t_main t).
Definition height (t : bct) : N := mc_get_height (t_main t).
(** the chain of [b] is a beginning of the chain of [a] *)
Definition behind (b a : bct) : Prop := height b <= height a /\ forall i, i < height b -> dump_at i b = dump_at i a.
(** the two chains are the same *)
Definition level (b a : bct) : Prop := height b = height a /\ forall i, dump_at i b = dump_at i a.

(** the dumps of [n] blocks from a height on *)
Definition dumps_from (lo : N) (n : nat) (t : bct) : list (option bytes) := map (fun k => dump_at (lo + N.of_nat k) t) (seq 0 n).

(** [l] can be obtained from [m] by leaving elements out *)
Inductive subseq {A} : list A -> list A -> Prop :=
| sub_nil : forall m, subseq [] m
| sub_skip : forall l x m, subseq l m -> subseq l (x :: m)
| sub_take : forall l x m, subseq l m -> subseq (x :: l) (x :: m).

(** the two nodes hold the same balances *)
Definition same_ledgers (a b : bct) : Prop := forall w, t_get_amount w a = t_get_amount w b /\ t_get_gas w a = t_get_gas w b.
