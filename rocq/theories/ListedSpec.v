(** Notions used in the statements about the transactions listed in blocks.  Definitions only. *)
From Verif Require Import Base Sha256 Tools Transaction Block Sled Chain Tree Spec Reach CrashSpec.

(** The hashes a block lists. *)
Definition listed (b : block) : list bytes := match b with TxBlock _ _ _ txs => txs | _ => [] end.

(** The call only lists transactions that are stored, or handed over with the block. *)
Definition lists_known (t : bct) (o : op) : Prop :=
  match o with
  | OEmitMain _ _ txs _ => Forall (fun h => mc_transaction_exists h (t_main t) = true) txs
  | OAddNewBlock b txs => Forall (fun h => mc_transaction_exists h (t_main t) = true \/ In h (map (fun x => sha256 (tx_dump x)) txs)) (listed b)
  | _ => True
  end.
(** Histories of such calls from an empty directory, with clean restarts. *)
Inductive careful (p : profile) : nat -> bct -> Prop :=
| careful_open : forall t, t_new disk_empty = Ok t -> careful p 0 t
| careful_call : forall n t o, careful p n t -> op_wf o -> lists_known t o -> careful p (S n) (fst (step p t o))
| careful_reopen : forall n t t', careful p n t -> t_new (t_close (t_flush t)) = Ok t' -> careful p n t'.

(** A transaction with hash [h] can be retrieved. *)
Definition retrievable (h : bytes) (t : bct) : Prop :=
  exists x, mc_get_transaction h (t_main t) = Ok (Some x) /\ tx_wf x /\ tx_hash x = h /\ sha256 (tx_dump x) = h.
