(** Trees that no query can tell apart, calls without a trace, and calls on different parts of a node.  Definitions only. *)
From Verif Require Import Base Sha256 Transaction Block Sled Chain Tree Reach LedgerSpec NodeSpec.

(** ** Indistinguishable handles, results and trees *)
Definition alike_chain (c c' : deriv_chain) : Prop :=
  dc_get_height c = dc_get_height c' /\ dc_genesis c = dc_genesis c' /\ dc_difficulty c = dc_difficulty c' /\
  (forall i, dc_find_raw_by_height i c = dc_find_raw_by_height i c' /\ dc_find_by_height i c = dc_find_by_height i c') /\
  (forall h, dc_find_raw_by_hash h c = dc_find_raw_by_hash h c' /\ dc_find_by_hash h c = dc_find_by_hash h c') /\
  dc_get_last_raw_block c = dc_get_last_raw_block c' /\ dc_get_last_block c = dc_get_last_block c'.
Definition alike_result (r r' : out result) : Prop :=
  match r, r' with
  | Ok (RChain c), Ok (RChain c') => alike_chain c c'
  | _, _ => r = r'
  end.
Definition alike (t t' : bct) : Prop :=
  mc_get_height (t_main t) = mc_get_height (t_main t') /\
  (forall i, mc_find_raw_by_height i (t_main t) = mc_find_raw_by_height i (t_main t') /\
             mc_find_by_height i (t_main t) = mc_find_by_height i (t_main t')) /\
  (forall h, mc_find_raw_by_hash h (t_main t) = mc_find_raw_by_hash h (t_main t') /\
             mc_find_by_hash h (t_main t) = mc_find_by_hash h (t_main t')) /\
  mc_get_last_raw_block (t_main t) = mc_get_last_raw_block (t_main t') /\
  mc_get_last_block (t_main t) = mc_get_last_block (t_main t') /\
  (forall h, mc_transaction_exists h (t_main t) = mc_transaction_exists h (t_main t') /\
             mc_get_transaction_raw h (t_main t) = mc_get_transaction_raw h (t_main t') /\
             mc_get_transaction h (t_main t) = mc_get_transaction h (t_main t')) /\
  (forall w, t_get_amount w t = t_get_amount w t' /\ t_get_gas w t = t_get_gas w t' /\
             led_get w (t_old_summary t) = led_get w (t_old_summary t') /\ led_get w (t_old_gas t) = led_get w (t_old_gas t')) /\
  t_summarize t = t_summarize t' /\
  (forall w, is_array 33 w -> alike_result (let! c := snd (t_get_derivative_chain w t) in Ok (RChain c))
                                           (let! c := snd (t_get_derivative_chain w t') in Ok (RChain c))).

(** ** Calls without a trace *)

(** The chain of [w] was asked for since the process was started. *)
Fixpoint asked (w : bytes) (evs : list event) (sofar : bool) : bool :=
  match evs with
  | [] => sofar
  | Restart :: evs => asked w evs false
  | Call (OGetDeriv x) :: evs | Call (OEmitDeriv _ x _) :: evs => asked w evs (sofar || bytes_eqb w x)
  | Call _ :: evs => asked w evs sofar
  end.
Definition failed (r : out result) : Prop := match r with Ok _ => False | _ => True end.
(** After [before], the call [o] returned [r] and should have left no trace. *)
Definition traceless (before : list event) (o : op) (r : out result) : Prop :=
  match o with
  | OFlush | OMainFlush | ODerivFlush _ => True
  | OGetDeriv w => asked w before false = true
  | OEmitDeriv _ w _ => failed r /\ asked w before false = true
  | OSendTx _ => exists e, r = Err e
  | _ => failed r
  end.

(** ** Parts of a node *)
Inductive part :=
| PAmount (w : bytes)     (* the amount of an account *)
| PGas (w : bytes)        (* its gas *)
| PBlocks                 (* the main chain *)
| PTx (h : bytes)         (* what is stored under a transaction hash *)
| PSide (w : bytes).      (* the derivative chain of an owner *)

(** Parts a call can change. *)
Definition touches (o : op) (q : part) : Prop :=
  match o, q with
  | OAddAmount w _, PAmount x | OSetAmount w _, PAmount x | OSubAmount w _, PAmount x => x = w
  | OSendAmount a b _, PAmount x => x = a \/ x = b
  | OAddGas w _, PGas x | OSubGas w _, PGas x => x = w
  | OSendGas a b _, PGas x => x = a \/ x = b
  | OSendTx tx, PAmount x => x = tx_sender tx \/ x = tx_receiver tx
  | OSendTx tx, PGas x => x = tx_sender tx
  | OSendTx tx, PTx h => h = sha256 (tx_dump tx)
  | OEmitMain _ _ _ _, PBlocks => True
  | OEmitMain _ _ [] _, PAmount _ => True
  | OEmitDeriv _ w _, PSide x | OGetDeriv w, PSide x | ODerivAddBlock w _, PSide x => x = w
  | OAddNewBlock _ _, PBlocks => True
  | OAddNewBlock _ txs, PTx h | OAddTxs txs, PTx h => In h (map (fun x => sha256 (tx_dump x)) txs)
  | _, _ => False
  end.
(** Further parts its effect or result can depend on. *)
Definition looks (o : op) (q : part) : Prop :=
  match o, q with
  | OSendTx _, PBlocks => True
  | OEmitMain _ _ [] _, PGas _ => True
  | OEmitDeriv _ _ _, PBlocks | OGetDeriv _, PBlocks => True
  | _, _ => False
  end.
(** Neither call changes a part that the other one changes or depends on. *)
Definition unrelated (a b : op) : Prop :=
  forall q, ~ (touches a q /\ (touches b q \/ looks b q)) /\ ~ (touches b q /\ looks a q).
