(** Notions used in the theorems about SummaryDB and about threads.  Definitions only. *)
From Verif Require Import Base Tools Transaction Block Sled Chain Tree Spec LedgerSpec SummaryDb Conc ConcTree.

(** ** SummaryDB *)

(** [f] is the balance reported for every address. *)
Definition funds (s : sled) (f : bytes -> N) : Prop := forall w, sdb_get_funds w s = Ok (f w).
(** Funds are 256-bit numbers. *)
Definition sdb_call_wf (c : sdb_call) : Prop := match c with SAdd _ a | SDecrease _ a => u256_ok a end.
(** Calls one after the other. *)
Definition sdb_run (s : sled) (calls : list sdb_call) : sled :=
  fold_left (fun s c => fst (sdb_call_alone c s)) calls s.
Definition sdb_after (calls : list sdb_call) : sled := sdb_run sled_empty calls.

(** ** Calls on a shared tree *)

(** Calls started on [t], stepped in the order of [schedule]. *)
Definition tree_exec (schedule : list nat) (t : bct) (calls : list call) : shared * list thread :=
  exec tree_step schedule (MkShared t false, map TStart calls).

(** A call as a whole, in the sequential model. *)
Definition call_run (c : call) (t : bct) : bct * out cres :=
  let m := t_main t in
  match c with
  | CLedger c => lcall_run c t
  | CSendTx tx => as_unit (t_send_transaction tx t)
  | CAddBlock b => let '(m', r) := mc_add_block b m in (with_main t m', let! _ := r in Ok CRUnit)
  | CLast => (t, let! d := mc_get_last_raw_block m in Ok (CRBlock d))
  | CByHeight h => (t, Ok (CRBlock (mc_find_raw_by_height h m)))
  | CByHash h => (t, let! d := mc_find_raw_by_hash h m in Ok (CRBlock d))
  end.

(** The indices below [n] in the order of their first occurrence. *)
Definition firsts (n : nat) (schedule : list nat) : list nat :=
  fold_left (fun acc i => if (i <? n)%nat && negb (existsb (Nat.eqb i) acc) then acc ++ [i] else acc) schedule [].
(** The calls one after the other in a given order: final tree and results by index. *)
Definition in_order (calls : list call) (order : list nat) (t : bct) : bct * list (nat * out cres) :=
  fold_left (fun st i =>
    match nth_error calls i with
    | Some c => let '(t', r) := call_run c (fst st) in (t', snd st ++ [(i, r)])
    | None => st
    end) order (t, []).

(** *** Ledger calls in the abstract *)

(** Amounts and gas after a call, and how it ends; overdrafts and overflows panic. *)
Definition lcall_after (st : (bytes -> N) * (bytes -> N)) (c : lcall) : (bytes -> N) * (bytes -> N) :=
  let '(f, g) := st in
  match c with
  | LAdd w a => (amount_after f (OAddAmount w a), g)
  | LSub w a => (amount_after f (OSubAmount w a), g)
  | LSet w a => (amount_after f (OSetAmount w a), g)
  | LSend x y a => (amount_after f (OSendAmount x y a), g)
  | LAddGas w a => (f, gas_after g (OAddGas w a))
  | LSubGas w a => (f, gas_after g (OSubGas w a))
  | LSendGas x y a => (f, gas_after g (OSendGas x y a))
  | LGet _ | LGetGas _ => (f, g)
  end.
Definition lcall_result (st : (bytes -> N) * (bytes -> N)) (c : lcall) : out cres :=
  let '(f, g) := st in
  let when (b : bool) := if b then Ok CRUnit else Panic in
  match c with
  | LAdd w a => when (f w + a <? 2 ^ 256)
  | LSub w a => when (a <=? f w)
  | LSet _ _ => Ok CRUnit
  | LSend x y a => when (bytes_eqb x y || ((a <=? f x) && (f y + a <? 2 ^ 256)))
  | LGet w => Ok (CRValue (f w))
  | LAddGas w a => when (g w + a <? 2 ^ 256)
  | LSubGas w a => when (a <=? g w)
  | LSendGas x y a => when ((a <=? g x) && (g y + a <? 2 ^ 256))
  | LGetGas w => Ok (CRValue (g w))
  end.
Definition lcall_wf (c : lcall) : Prop := match c with LSet _ a => u256_ok a | _ => True end.
(** The calls at the given indices. *)
Definition picked {A} (l : list A) (order : list nat) : list A :=
  flat_map (fun i => match nth_error l i with Some c => [c] | None => [] end) order.

(** *** Transfers *)

Definition total {A} (f : A -> N) (l : list A) : N := fold_right N.add 0 (map f l).
(** From, to, how much. *)
Definition transfer (c : call) : option (bytes * bytes * N) :=
  match c with
  | CSendTx tx => Some (tx_sender tx, tx_receiver tx, tx_amount tx)
  | CLedger (LSend x y a) => Some (x, y, a)
  | _ => None
  end.
(** Transfers, transactions, blocks and reads: nothing that creates or destroys funds or gas. *)
Definition keeps_funds (c : call) : Prop :=
  match c with
  | CLedger (LSend _ _ _) | CLedger (LGet _) | CLedger (LGetGas _) => True
  | CLedger _ => False
  | _ => True
  end.
(** What account [w] sends and receives by the calls marked [true]. *)
Definition sent (w : bytes) (x : bool * call) : N :=
  match x with
  | (true, c) => match transfer c with Some (f, _, a) => if bytes_eqb f w then a else 0 | None => 0 end
  | _ => 0
  end.
Definition received (w : bytes) (x : bool * call) : N :=
  match x with
  | (true, c) => match transfer c with Some (_, g, a) => if bytes_eqb g w then a else 0 | None => 0 end
  | _ => 0
  end.
(** Gas that [w] owes for a finished, accepted transaction. *)
Definition paid (w : bytes) (th : thread) : N :=
  match th with
  | TDone (CSendTx tx) (Ok _) => if bytes_eqb (tx_sender tx) w then gas_for (N.of_nat (tx_get_dump_size tx)) else 0
  | _ => 0
  end.

(** *** Blocks *)

(** Blocks whose [add_block] has returned success. *)
Definition accepted_blocks (ts : list thread) : list block :=
  flat_map (fun th => match th with TDone (CAddBlock b) (Ok _) => [b] | _ => [] end) ts.
Definition in_add_block (th : thread) : bool :=
  match th with TWrite _ | TRef _ | TBump _ => true | _ => false end.
(** The same blocks, references and height. *)
Definition same_chain (m m' : main_chain) : Prop :=
  mc_height m' = mc_height m /\ mc_refs m' = mc_refs m /\ mc_blocks m' = mc_blocks m.
(** Blocks added one after the other. *)
Definition add_all (bs : list block) (m : main_chain) : main_chain :=
  fold_left (fun m b => fst (mc_add_block b m)) bs m.
