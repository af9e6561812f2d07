(** Calls on a shared tree, step by step.  Everything taking [&self] on [BlockChainTree] or [MainChain] can be called from several
    threads at once (the chain is also [Clone], its height shared behind a lock).  One step is one sled operation, one sled
    transaction (sled makes these atomic) or one acquisition of the height lock together with the local
    computation around it.  Simplification: [send_transaction] is modelled for [Transaction]s; no memory or database errors.
    Model file: definitions only. *)
From Verif Require Import Base Tools Sha256 Transaction Block Sled Chain Tree.

(** blockchaintree.rs:107-324: the calls that are a single read or a single sled transaction. *)
Inductive lcall :=
| LAdd (w : bytes) (a : N) | LSub (w : bytes) (a : N) | LSet (w : bytes) (a : N) | LSend (f w : bytes) (a : N) | LGet (w : bytes)
| LAddGas (w : bytes) (a : N) | LSubGas (w : bytes) (a : N) | LSendGas (f w : bytes) (a : N) | LGetGas (w : bytes).

Inductive call :=
| CLedger (c : lcall)
| CSendTx (tx : transaction)   (* blockchaintree.rs:484-514 *)
| CAddBlock (b : block)        (* chain.rs:283-317 *)
| CLast                        (* chain.rs:388-394 get_last_raw_block *)
| CByHeight (h : N)            (* chain.rs:320-340 find_raw_by_height *)
| CByHash (h : bytes).         (* chain.rs:343-363 find_raw_by_hash *)
Inductive cres := CRUnit | CRValue (n : N) | CRBlock (d : option bytes).

(** A call in progress. *)
Inductive thread :=
| TStart (c : call)
| TGas (tx : transaction) (gas : N)                  (* blockchaintree.rs:489: gas read *)
| TAmount (tx : transaction) (gas_required amount : N)  (* :491-498 amount read, gas checked; next: height for the last block *)
| TLastIdx (tx : transaction) (gas_required amount i : N)   (* next: second look at the height (chain.rs:324) *)
| TLastGet (tx : transaction) (gas_required amount i : N)   (* next: read block i *)
| TStore (tx : transaction) (gas_required : N)       (* checks done; next: :506 add_transaction *)
| TMove (tx : transaction) (gas_required : N)        (* next: :509 send_amount *)
| TCharge (tx : transaction) (gas_required : N)      (* next: :511 sub_gas *)
| TWrite (b : block)   (* holds the write lock, height checked; next: blocks.insert *)
| TRef (b : block)     (* holds the write lock; next: height_reference.insert *)
| TBump (b : block)    (* holds the write lock; next: height += 1, lock released *)
| TIdx (c : call) (i : N)    (* next: compare i with the height *)
| TGet (c : call) (i : N)    (* next: read block i *)
| TDone (c : call) (r : out cres).

(** The tree and whether the height lock is held for writing.  (Readers hold it only within one step.) *)
Record shared := MkShared { sh_tree : bct; sh_locked : bool }.

Definition as_unit (x : bct * out unit) : bct * out cres := (fst x, let! _ := snd x in Ok CRUnit).
Definition lcall_run (c : lcall) (t : bct) : bct * out cres :=
  match c with
  | LAdd w a => as_unit (t_add_amount w a t)
  | LSub w a => as_unit (t_sub_amount w a t)
  | LSet w a => as_unit (t_set_amount w a t)
  | LSend f w a => as_unit (t_send_amount f w a t)
  | LGet w => (t, let! n := t_get_amount w t in Ok (CRValue n))
  | LAddGas w a => as_unit (t_add_gas w a t)
  | LSubGas w a => as_unit (t_sub_gas w a t)
  | LSendGas f w a => as_unit (t_send_gas f w a t)
  | LGetGas w => (t, let! n := t_get_gas w t in Ok (CRValue n))
  end.

(** The next phase, or the end of the call. *)
Definition next (c : call) (x : out thread) : thread :=
  match x with Ok th => th | Err e => TDone c (Err e) | Panic => TDone c Panic | UB => TDone c UB end.
Definition ended (c : call) (x : out unit) : thread := TDone c (let! _ := x in Ok CRUnit).

Definition with_tree (s : shared) (t : bct) : shared := MkShared t (sh_locked s).
(** chain.rs:294-314: parts of [add_block] *)
Definition put_block (b : block) (m : main_chain) : main_chain :=
  MkMain (sled_insert (height_key (mc_height m)) (block_dump b) (mc_blocks m)) (mc_refs m) (mc_txs m) (mc_height m) (mc_difficulty m) (mc_cfg m).
Definition put_ref (b : block) (m : main_chain) : main_chain :=
  MkMain (mc_blocks m) (sled_insert (sha256 (block_dump b)) (height_key (mc_height m)) (mc_refs m)) (mc_txs m) (mc_height m) (mc_difficulty m) (mc_cfg m).
Definition put_height (h : N) (m : main_chain) : main_chain :=
  MkMain (mc_blocks m) (mc_refs m) (mc_txs m) h (mc_difficulty m) (mc_cfg m).

Definition tree_step (s : shared) (th : thread) : option (shared * thread) :=
  let t := sh_tree s in let m := t_main t in
  match th with
  | TStart (CLedger c as k) => let '(t', r) := lcall_run c t in Some (with_tree s t', TDone k r)
  (* blockchaintree.rs:484-514 [send_transaction] *)
  | TStart (CSendTx tx as k) =>
      Some (s, next k (let! gas := t_get_gas (tx_sender tx) t in Ok (TGas tx gas)))
  | TGas tx gas =>
      Some (s, next (CSendTx tx)
        (let! amount := t_get_amount (tx_sender tx) t in
         let! gas_required := u256_mul BYTE_GAS_PRICE (N.of_nat (tx_get_dump_size tx)) in
         if gas <? gas_required then Err ETreeNewTransaction else Ok (TAmount tx gas_required amount)))
  | TAmount tx gas_required amount =>
      if sh_locked s then None
      else Some (s, next (CSendTx tx) (let! i := u256_sub (mc_height m) 1 in Ok (TLastIdx tx gas_required amount i)))
  | TLastIdx tx gas_required amount i =>
      if sh_locked s then None
      else Some (s, if mc_height m <? i then TDone (CSendTx tx) Panic else TLastGet tx gas_required amount i)
  | TLastGet tx gas_required amount i =>
      Some (s, next (CSendTx tx)
        (let! last := mc_decode (sled_get (height_key i) (mc_blocks m)) in
         let! last_block := unwrap_opt last in
         let! fee := recalculate_fee (bi_difficulty (get_info last_block)) in
         let! need := u256_add fee (tx_amount tx) in
         if amount <? need then Err ETreeNewTransaction else Ok (TStore tx gas_required)))
  | TStore tx gas_required => Some (with_tree s (with_main t (mc_add_transaction tx m)), TMove tx gas_required)
  | TMove tx gas_required =>
      let '(t', r) := t_send_amount (tx_sender tx) (tx_receiver tx) (tx_amount tx) t in
      Some (with_tree s t', next (CSendTx tx) (let! _ := r in Ok (TCharge tx gas_required)))
  | TCharge tx gas_required =>
      let '(t', r) := t_sub_gas (tx_sender tx) gas_required t in Some (with_tree s t', ended (CSendTx tx) r)
  (* chain.rs:283-317 [add_block] *)
  | TStart (CAddBlock b as k) =>
      if sh_locked s then None
      else if negb (bi_height (get_info b) =? mc_height m) then Some (s, TDone k (Err EChainAddingBlock))
      else Some (MkShared t true, TWrite b)
  | TWrite b => Some (with_tree s (with_main t (put_block b m)), TRef b)
  | TRef b => Some (with_tree s (with_main t (put_ref b m)), TBump b)
  | TBump b =>
      match u256_add (mc_height m) 1 with
      | Ok h => Some (MkShared (with_main t (put_height h m)) false, TDone (CAddBlock b) (Ok CRUnit))
      | _ => Some (MkShared t false, TDone (CAddBlock b) Panic)
      end
  (* chain.rs:388-394 *)
  | TStart (CLast as k) =>
      if sh_locked s then None else Some (s, next k (let! i := u256_sub (mc_height m) 1 in Ok (TIdx k i)))
  (* chain.rs:320-340 *)
  | TStart (CByHeight h as k) =>
      if sh_locked s then None else Some (s, if mc_height m <? h then TDone k (Ok (CRBlock None)) else TGet k h)
  (* chain.rs:343-363 *)
  | TStart (CByHash h as k) =>
      Some (s, match sled_get h (mc_refs m) with
               | None => TDone k (Ok (CRBlock None))
               | Some hb => if Nat.ltb 32 (length hb) then TDone k Panic else TIdx k (from_be hb)
               end)
  | TIdx k i =>
      if sh_locked s then None else Some (s, if mc_height m <? i then TDone k (Ok (CRBlock None)) else TGet k i)
  | TGet k i => Some (s, TDone k (Ok (CRBlock (sled_get (height_key i) (mc_blocks m)))))
  | TDone _ _ => None
  end.
