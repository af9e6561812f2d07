(** Notions used in the theorems about emission next to chain handles.  Definitions only. *)
From Verif Require Import Base Transaction Block Sled Chain Tree Spec Reach Conc ConcTree ConcFlush ConcEmit.

(** Calls started on [t], stepped in the order of [schedule]. *)
Definition emit_exec (p : profile) (schedule : list nat) (t : bct) (calls : list ecall) : estate * list ethread :=
  exec (emit_step p) schedule (MkEs (MkShared t false) false, map estart calls).
(** The tree after the steps of [schedule]. *)
Definition tree_after (p : profile) (schedule : list nat) (t : bct) (calls : list ecall) : bct :=
  sh_tree (es_sh (fst (emit_exec p schedule t calls))).
(** Where call number [k] stands after the steps of [schedule]. *)
Definition state_of (p : profile) (schedule : list nat) (t : bct) (calls : list ecall) (k : nat) : option ethread :=
  nth_error (snd (emit_exec p schedule t calls)) k.

(** What a chain handle offers (any block that the types allow may be given to [add_block]), and emissions. *)
Definition handle_or_emission (c : ecall) : Prop :=
  match c with
  | HChain (FCall (CAddBlock b)) => block_wf b
  | HChain (FCall CLast) | HChain (FCall (CByHeight _)) | HChain (FCall (CByHash _)) | HChain FFlush => True
  | HChain (FCall (CLedger _)) | HChain (FCall (CSendTx _)) => False
  | HAddTxs _ => True
  | EEmission pow founder txs ts => is_array 32 pow /\ is_array 33 founder /\ Forall (is_array 32) txs /\ u64_ok ts
  end.

(** The four balance databases. *)
Definition ledgers (t : bct) : sled * sled * sled * sled := (t_summary t, t_old_summary t, t_gas t, t_old_gas t).
(** The block that a call has added. *)
Definition added (th : ethread) : option block :=
  match th with
  | HTh (FTh (TDone (CAddBlock b) (Ok CRUnit))) => Some b
  | EAdd b (TDone _ (Ok _)) | EDone (Ok b) => Some b
  | _ => None
  end.
