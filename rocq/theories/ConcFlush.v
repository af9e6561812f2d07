(** [flush] as one of the calls on a shared tree, step by step, next to the calls of ConcTree.v.
    [flush] takes [&self] (chain.rs:180), so several can run at once, each through its own file handle with
    its own position.  Simplifications: opening with truncation, each [write_all] and each database flush is one
    step; the writes to the config file are made in program order (tokio may finish the last one
    after [flush] has returned); no I/O errors.  The tree's [flush] (blockchaintree.rs:516-542) is this flush
    followed by four flushes of the balance databases, which no call here reads from disk.
    Model file: definitions only. *)
From Verif Require Import Base Tools Sled Chain Tree Conc ConcTree.

(** A write through a handle at its own position [off]; whatever is there is overwritten, a gap reads as
    zeros (POSIX [write], used by tokio's [write_all] at chain.rs:161 and 167). *)
Definition overwrite (off : nat) (d c : bytes) : bytes :=
  firstn off (c ++ repeat 0 (off - length c)) ++ d ++ skipn (off + length d) c.
Definition file_bytes (f : file) : bytes := match file_cur f with Some c => c | None => [] end.
Definition file_write_at (off : nat) (d : bytes) (f : file) : file :=
  MkFile (f_dur f) (f_pend f ++ [Some (overwrite off d (file_bytes f))]).
Definition with_cfg (f : file) (m : main_chain) : main_chain :=
  MkMain (mc_blocks m) (mc_refs m) (mc_txs m) (mc_height m) (mc_difficulty m) f.

Inductive fcall := FCall (c : call) | FFlush.
(** A call in progress; chain.rs:148-201 for the phases of a flush. *)
Inductive fthread :=
| FTh (th : thread)
| FOpen                  (* next: open the config file, truncating it (:151-157) *)
| FHeight                (* next: read the height under its lock (:159) *)
| FWriteHeight (h : N)   (* next: write it (:160-163) *)
| FWriteDiff             (* next: read and write the difficulty (:165-169) *)
| FBlocks                (* next: flush the block database (:183-187) *)
| FRefs                  (* next: flush the references (:189-193) *)
| FTxs                   (* next: flush the transactions (:195-199) *)
| FDone.
Definition fstart (c : fcall) : fthread := match c with FCall c => FTh (TStart c) | FFlush => FOpen end.

Definition flush_step (s : shared) (th : fthread) : option (shared * fthread) :=
  let t := sh_tree s in let m := t_main t in
  let to (m' : main_chain) (th' : fthread) := Some (with_tree s (with_main t m'), th') in
  match th with
  | FTh th => match tree_step s th with Some (s', th') => Some (s', FTh th') | None => None end
  | FOpen => to (with_cfg (file_truncate (mc_cfg m)) m) FHeight
  | FHeight => if sh_locked s then None else Some (s, FWriteHeight (mc_height m))
  | FWriteHeight h => to (with_cfg (file_write_at 0 (height_key h) (mc_cfg m)) m) FWriteDiff
  | FWriteDiff => to (with_cfg (file_write_at 32 (mc_difficulty m) (mc_cfg m)) m) FBlocks
  | FBlocks => to (mc_flush_blocks m) FRefs
  | FRefs => to (mc_flush_refs m) FTxs
  | FTxs => to (mc_flush_txs m) FDone
  | FDone => None
  end.
