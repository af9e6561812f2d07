(** Emission of a main-chain block next to calls on cloned chain handles, step by step.  [emmit_new_main_block]
    takes [&mut self], but [get_main_chain] (blockchaintree.rs:103-105) hands out clones of the chain that share
    its databases and its height lock, so blocks can be added, read and flushed through a handle while an emission
    is running.  The tree itself is used by one emission at a time, as [&mut self] demands: [es_busy] is the borrow.
    One step is one database operation or one acquisition of the height lock together with the local computation
    around it, as in ConcTree.v and ConcFlush.v.  Simplifications: flushing and copying the balance databases and
    refilling the root account, which no handle can see, are one step; no I/O errors; only [Transaction]s.
    Model file: definitions only. *)
From Verif Require Import Base Tools Sha256 Merkle Transaction Block Sled Chain Tree Conc ConcTree ConcFlush.

Inductive ecall :=
| HChain (c : fcall)            (* add_block, the lookups and flush through a handle *)
| HAddTxs (txs : list transaction)   (* chain.rs:203-239 add_transactions, add_transaction *)
| EEmission (pow founder : bytes) (txs : list bytes) (ts : N).   (* blockchaintree.rs:415-482 *)

(** A call in progress. *)
Inductive ethread :=
| HTh (th : fthread)
| HTxs (txs : list transaction)  (* next: store the first of them *)
| EStart (pow founder : bytes) (txs : list bytes) (ts : N)       (* next: borrow the tree *)
| ELast (pow founder : bytes) (txs : list bytes) (ts : N)        (* next: height for the last block (:422, chain.rs:389) *)
| EIdx (pow founder : bytes) (txs : list bytes) (ts i : N)       (* next: second look at the height (chain.rs:324) *)
| EGet (pow founder : bytes) (txs : list bytes) (ts i : N)       (* next: read block i, check the work, make the new block (:423-478) *)
| EFlush (b : block) (th : fthread)  (* inside rotate_dbs (:457): flush of the main chain, next step given by [th] *)
| ERotate (b : block)            (* next: balance databases flushed and copied, root refilled (:517-600, :459) *)
| EAdd (b : block) (th : thread)     (* add_block (:480), next step given by [th] *)
| EDone (r : out block).

Record estate := MkEs { es_sh : shared; es_busy : bool }.
Definition estart (c : ecall) : ethread :=
  match c with HChain c => HTh (fstart c) | HAddTxs txs => HTxs txs | EEmission w f txs ts => EStart w f txs ts end.

(** blockchaintree.rs:423-478 without [rotate_dbs] and [set_amount]: the new block, given the last one as stored. *)
Definition emit_block (p : profile) (pow founder : bytes) (transactions : list bytes) (timestamp : N) (stored : option bytes) (t : bct) : out block :=
  let! last := mc_decode stored in
  let! last_block := unwrap_opt last in
  let prev_hash := block_hash last_block in
  let difficulty := bi_difficulty (get_info last_block) in
  let! ok := check_pow prev_hash difficulty transactions pow in
  if negb ok then Err ETreeWrongPow
  else
    let! difficulty := recalculate_difficulty p (bi_timestamp (get_info last_block)) timestamp difficulty in
    let! fee := recalculate_fee difficulty in
    let! height := u256_add (bi_height (get_info last_block)) 1 in
    let info := MkInfo timestamp pow prev_hash height difficulty founder in
    if (height mod BLOCKS_PER_EPOCH) =? 0 then
      match transactions with
      | _ :: _ => Err ETreeSummarizeWrongTxAmount
      | [] => let! root := t_summarize t in Ok (SummBlock info root)
      end
    else
      match transactions with
      | [] => Err ETreeCreateMainChainBlock
      | _ :: _ => let! tree := build_tree transactions in let! root := get_root tree in Ok (TxBlock fee root info transactions)
      end.

(** blockchaintree.rs:518-542 and 548-600: [rotate_dbs] after the flush of the main chain. *)
Definition rotate_ledgers (t : bct) : bct :=
  let summary := sled_flush (t_summary t) in let gas := sled_flush (t_gas t) in
  MkTree0 (t_main t) (t_derivs t) summary (sled_flush summary) gas (sled_flush gas) (t_closed t).

(** The call has returned: the borrow ends. *)
Definition emit_ends (s : shared) (r : out block) : option (estate * ethread) := Some (MkEs s false, EDone r).

Definition emit_step (p : profile) (st : estate) (th : ethread) : option (estate * ethread) :=
  let s := es_sh st in let t := sh_tree s in let m := t_main t in
  match th with
  | HTh th => match flush_step s th with Some (s', th') => Some (MkEs s' (es_busy st), HTh th') | None => None end
  | HTxs [] => Some (st, HTh FDone)
  | HTxs (tx :: txs) => Some (MkEs (with_tree s (with_main t (mc_add_transaction tx m))) (es_busy st), HTxs txs)
  | EStart w f txs ts => if es_busy st then None else Some (MkEs s true, ELast w f txs ts)
  | ELast w f txs ts =>
      if sh_locked s then None
      else match u256_sub (mc_height m) 1 with
           | Ok i => Some (st, EIdx w f txs ts i)
           | _ => emit_ends s Panic
           end
  | EIdx w f txs ts i =>
      if sh_locked s then None
      else if mc_height m <? i then emit_ends s Panic else Some (st, EGet w f txs ts i)
  | EGet w f txs ts i =>
      match emit_block p w f txs ts (sled_get (height_key i) (mc_blocks m)) t with
      | Ok (SummBlock _ _ as b) => Some (st, EFlush b FOpen)
      | Ok b => Some (st, EAdd b (TStart (CAddBlock b)))
      | r => emit_ends s r
      end
  | EFlush b FDone => Some (st, ERotate b)
  | EFlush b th =>
      match flush_step s th with Some (s', th') => Some (MkEs s' (es_busy st), EFlush b th') | None => None end
  | ERotate b =>
      let '(t', r) := t_set_amount ROOT_PUBLIC_ADDRESS COINS_PER_CYCLE (rotate_ledgers t) in
      match r with
      | Ok _ => Some (MkEs (with_tree s t') (es_busy st), EAdd b (TStart (CAddBlock b)))
      | Err e => emit_ends (with_tree s t') (Err e)
      | Panic => emit_ends (with_tree s t') Panic
      | UB => emit_ends (with_tree s t') UB
      end
  | EAdd b (TDone _ r) => emit_ends s (let! _ := r in Ok b)
  | EAdd b th =>
      match tree_step s th with Some (s', th') => Some (MkEs s' (es_busy st), EAdd b th') | None => None end
  | EDone _ => None
  end.
