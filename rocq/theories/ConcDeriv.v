(** Calls on the handles of one derivative chain and emissions for its owner, step by step.  [get_derivative_chain] (blockchaintree.rs:85-101) hands
    out clones that share databases and height lock (chain.rs:439-448), and [emmit_new_derivative_block] works on such a clone, so
    that blocks can be added, read and flushed through a handle while an emission is running.  [ds_busy] is the
    borrow of the tree that an emission needs ([&mut self]).  One step is one database operation, one file operation or one acquisition of
    the height lock together with the local computation around it, as in ConcTree.v and ConcFlush.v.
    Simplifications: the chain is open; the main chain does not change meanwhile (an emission reads one old block of it); no I/O errors.
    Model file: definitions only. *)
From Verif Require Import Base Tools Sha256 Transaction Block Sled Chain Tree Conc ConcFlush Cancel.

Inductive dcall :=
| DAdd (i : basic_info)          (* chain.rs:582-614 add_block *)
| DLast                          (* chain.rs:686-695 get_last_raw_block *)
| DByHeight (h : N)              (* chain.rs:617-638 find_raw_by_height *)
| DByHash (h : bytes)            (* chain.rs:641-661 find_raw_by_hash *)
| DFlush                         (* chain.rs:527-575 flush *)
| DEmit (pow : bytes) (ts : N).  (* blockchaintree.rs:369-413, for the owner of the chain *)
Inductive dres := DUnit | DRaw (d : option bytes) | DMade (b : block).

(** A call in progress. *)
Inductive dthread :=
| QStart (c : dcall)
| QBorrowed (pow : bytes) (ts : N)       (* emission: next: height for the last block (blockchaintree.rs:377, chain.rs:687) *)
| QGenesis (pow : bytes) (ts : N)        (* emission on an empty chain; next: look up the genesis block (:385-388) *)
| QIdx (c : dcall) (j : N)               (* next: compare j with the height (chain.rs:621) *)
| QGet (c : dcall) (j : N)               (* next: read block j (chain.rs:629) *)
| QLock (c : dcall) (i : basic_info)     (* add_block: next: write lock, compare the heights (chain.rs:589-596) *)
| QWrite (c : dcall) (i : basic_info)    (* holds the lock; next: blocks.insert (:601) *)
| QRef (c : dcall) (i : basic_info)      (* holds the lock; next: height_reference.insert (:606) *)
| QBump (c : dcall) (i : basic_info)     (* holds the lock; next: height += 1, lock released (:611) *)
| QHeight                                (* flush, config emptied; next: read the height (:538) *)
| QWriteHeight (h : N)                   (* next: write it (:539) *)
| QWriteDiff                             (* next: write the difficulty (:545) *)
| QWriteGenesis                          (* next: write the genesis hash (:550) *)
| QBlocks                                (* next: flush the blocks (:562) *)
| QRefs                                  (* next: flush the references (:568) *)
| QDone (c : dcall) (r : out dres).

Record dstate := MkDs { ds_chain : deriv_chain; ds_locked : bool; ds_busy : bool }.
Definition with_chain (s : dstate) (c : deriv_chain) : dstate := MkDs c (ds_locked s) (ds_busy s).

(** blockchaintree.rs:376-408: header of the new block, from the last block as stored, or from the block the chain hangs on. *)
Definition next_info (p : profile) (founder pow : bytes) (ts : N) (prev_hash difficulty : bytes) (prev_ts height : N) : out basic_info :=
  let! ok := check_pow prev_hash difficulty [] pow in
  if negb ok then Err ETreeWrongPow
  else
    let! difficulty := recalculate_difficulty p prev_ts ts difficulty in
    Ok (MkInfo ts pow prev_hash height difficulty founder).
Definition info_after_genesis (p : profile) (founder pow : bytes) (ts : N) (m : main_chain) (genesis : bytes) : out basic_info :=
  let! g := mc_find_by_hash genesis m in
  match g with
  | None => Err EChainFindByHash
  | Some b => next_info p founder pow ts (block_hash b) BEGINNING_DIFFICULTY (bi_timestamp (get_info b)) 0
  end.
Definition info_after (p : profile) (founder pow : bytes) (ts : N) (m : main_chain) (genesis : bytes) (stored : option bytes) : out basic_info :=
  let! last := dc_decode stored in
  match last with
  | Some b =>
      let! h := u256_add (bi_height (get_info b)) 1 in
      next_info p founder pow ts (block_hash b) (bi_difficulty (get_info b)) (bi_timestamp (get_info b)) h
  | None => info_after_genesis p founder pow ts m genesis
  end.

(** The call has returned; an emission gives the tree back. *)
Definition call_ends (s : dstate) (c : dcall) (r : out dres) : option (dstate * dthread) :=
  Some (MkDs (ds_chain s) (ds_locked s) (match c with DEmit _ _ => false | _ => ds_busy s end), QDone c r).
Definition goes_on (s : dstate) (c : dcall) (x : out basic_info) : option (dstate * dthread) :=
  match x with
  | Ok i => Some (s, QLock c i)
  | Err e => call_ends s c (Err e) | Panic => call_ends s c Panic | UB => call_ends s c UB
  end.
(** What a finished addition returns. *)
Definition added_result (c : dcall) (i : basic_info) : dres := match c with DEmit _ _ => DMade (DerivBlock i) | _ => DUnit end.

(** chain.rs:598-611: parts of [add_block] *)
Definition put_dblock (i : basic_info) (c : deriv_chain) : deriv_chain :=
  MkDeriv (sled_insert (height_key (dc_height c)) (block_dump (DerivBlock i)) (dc_blocks c)) (dc_refs c) (dc_height c) (dc_genesis c) (dc_difficulty c) (dc_cfg c).
Definition put_dref (i : basic_info) (c : deriv_chain) : deriv_chain :=
  MkDeriv (dc_blocks c) (sled_insert (sha256 (block_dump (DerivBlock i))) (height_key (dc_height c)) (dc_refs c)) (dc_height c) (dc_genesis c) (dc_difficulty c) (dc_cfg c).
Definition put_dheight (h : N) (c : deriv_chain) : deriv_chain :=
  MkDeriv (dc_blocks c) (dc_refs c) h (dc_genesis c) (dc_difficulty c) (dc_cfg c).

Definition deriv_step (p : profile) (founder : bytes) (m : main_chain) (s : dstate) (th : dthread) : option (dstate * dthread) :=
  let ch := ds_chain s in
  let to (ch' : deriv_chain) (th' : dthread) := Some (with_chain s ch', th') in
  match th with
  (* chain.rs:582-614 *)
  | QStart (DAdd i as k) => Some (s, QLock k i)
  | QLock k i =>
      if ds_locked s then None
      else if negb (bi_height i =? dc_height ch) then call_ends s k (Err EChainAddingBlock)
      else Some (MkDs ch true (ds_busy s), QWrite k i)
  | QWrite k i => to (put_dblock i ch) (QRef k i)
  | QRef k i => to (put_dref i ch) (QBump k i)
  | QBump k i =>
      match u256_add (dc_height ch) 1 with
      | Ok h => call_ends (MkDs (put_dheight h ch) false (ds_busy s)) k (Ok (added_result k i))
      | _ => call_ends (MkDs ch false (ds_busy s)) k Panic
      end
  (* chain.rs:686-695 *)
  | QStart (DLast as k) =>
      if ds_locked s then None
      else if dc_height ch =? 0 then call_ends s k (Ok (DRaw None))
      else match u256_sub (dc_height ch) 1 with
           | Ok j => Some (s, QIdx k j)
           | _ => call_ends s k Panic
           end
  (* chain.rs:617-638 *)
  | QStart (DByHeight h as k) =>
      if ds_locked s then None else if dc_height ch <? h then call_ends s k (Ok (DRaw None)) else Some (s, QGet k h)
  (* chain.rs:641-661 *)
  | QStart (DByHash h as k) =>
      match sled_get h (dc_refs ch) with
      | None => call_ends s k (Ok (DRaw None))
      | Some hb => if Nat.ltb 32 (length hb) then call_ends s k Panic else Some (s, QIdx k (from_be hb))
      end
  (* blockchaintree.rs:369-413 *)
  | QStart (DEmit w ts) => if ds_busy s then None else Some (MkDs ch (ds_locked s) true, QBorrowed w ts)
  | QBorrowed w ts =>
      if ds_locked s then None
      else if dc_height ch =? 0 then Some (s, QGenesis w ts)
      else match u256_sub (dc_height ch) 1 with
           | Ok j => Some (s, QIdx (DEmit w ts) j)
           | _ => call_ends s (DEmit w ts) Panic
           end
  | QGenesis w ts => goes_on s (DEmit w ts) (info_after_genesis p founder w ts m (dc_genesis ch))
  | QIdx k j =>
      if ds_locked s then None
      else if dc_height ch <? j then
        match k with
        | DEmit w ts => Some (s, QGenesis w ts)
        | _ => call_ends s k (Ok (DRaw None))
        end
      else Some (s, QGet k j)
  | QGet k j =>
      let d := sled_get (height_key j) (dc_blocks ch) in
      match k with
      | DEmit w ts => goes_on s k (info_after p founder w ts m (dc_genesis ch) d)
      | _ => call_ends s k (Ok (DRaw d))
      end
  (* chain.rs:527-575 *)
  | QStart DFlush => to (deriv_with_cfg (file_truncate (dc_cfg ch)) ch) QHeight
  | QHeight => if ds_locked s then None else Some (s, QWriteHeight (dc_height ch))
  | QWriteHeight h => to (deriv_with_cfg (file_write_at 0 (height_key h) (dc_cfg ch)) ch) QWriteDiff
  | QWriteDiff => to (deriv_with_cfg (file_write_at 32 (dc_difficulty ch) (dc_cfg ch)) ch) QWriteGenesis
  | QWriteGenesis => to (deriv_with_cfg (file_write_at 64 (dc_genesis ch) (dc_cfg ch)) ch) QBlocks
  | QBlocks => to (MkDeriv (sled_flush (dc_blocks ch)) (dc_refs ch) (dc_height ch) (dc_genesis ch) (dc_difficulty ch) (dc_cfg ch)) QRefs
  | QRefs => Some (with_chain s (MkDeriv (dc_blocks ch) (sled_flush (dc_refs ch)) (dc_height ch) (dc_genesis ch) (dc_difficulty ch) (dc_cfg ch)), QDone DFlush (Ok DUnit))
  | QDone _ _ => None
  end.
