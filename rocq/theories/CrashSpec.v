(** Notions used in the theorems about crashes.  Definitions only. *)
From Verif Require Import Base Tools Transaction Block Sled Chain Tree Spec Reach.

(** The call [o] made in [t] flushes the main chain: [flush] itself, and the emission
    of a summarize block, which rotates the databases. *)
Definition flushes (p : profile) (t : bct) (o : op) : Prop :=
  match o with
  | OFlush | OMainFlush => True
  | OEmitMain _ _ _ _ => exists i root, snd (step p t o) = Ok (RBlock (SummBlock i root))
  | _ => False
  end.

(** Calls made from [t] on, none of which flushes. *)
Inductive unflushed (p : profile) (t : bct) : list op -> Prop :=
| unflushed_nil : unflushed p t []
| unflushed_snoc : forall ops o, unflushed p t ops -> op_wf o -> ~ flushes p (run p t ops) o ->
    unflushed p t (ops ++ [o]).

(** The writes to the config file of the main chain have reached the disk. *)
Definition t_settle (t : bct) : bct :=
  let m := t_main t in
  with_main t (MkMain (mc_blocks m) (mc_refs m) (mc_txs m) (mc_height m) (mc_difficulty m)
    (file_settle (mc_cfg m))).

(** The states [BlockChainTree::flush] goes through, blockchaintree.rs:516-543 and
    chain.rs:179-201: config written, then blocks, references, transactions of the main chain,
    then the four balance databases, one after the other. *)
Definition flush_points (t : bct) : list bct :=
  let m1 := mc_dump_config (t_main t) in
  let m2 := mc_flush_blocks m1 in
  let m3 := mc_flush_refs m2 in
  let m4 := mc_flush_txs m3 in
  [t; with_main t m1; with_main t m2; with_main t m3; with_main t m4; t_flush t].
