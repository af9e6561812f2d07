(** The calls on a tree when I/O operations can fail.  A list of faults says what happens to the I/O operations in
    the order in which they are made; after its end nothing fails.  A failing database operation or directory
    operation may have had its effect or not, a failing write to the config file has written some prefix.
    tokio makes the writes to the config file in the background and reports the failure of one at the next write
    (chain.rs:160-169), so the failure of the last one is not reported: the file is not flushed.
    Simplifications: each read, insert, transaction, flush and opening of a database, each operation on a directory and each
    write is one operation; a transaction that fails has made all its writes or none; a database can still be used after an
    operation on it has failed; nothing is said about the contents of the old_* databases after a rotation that failed (no
    call reads them); opening a tree is [t_new_io].  Model file: definitions only. *)
From Verif Require Import Base Tools Sha256 Merkle Transaction Block Sled Chain Tree Conc ConcTree ConcFlush ConcEmit Cancel ConcDeriv.

(** [Fails n]: the operation reports an error.  Database or directory: its effect was made unless [n] is 0.
    File: the first [n] bytes were written. *)
Inductive fault := Fine | Fails (n : nat).

(** A call: takes the faults to come and the state, returns those that remain, the state and the outcome. *)
Definition io (St A : Type) := list fault -> St -> list fault * St * out A.
Definition io_out {St A} (x : out A) : io St A := fun fs s => (fs, s, x).
Definition io_bind {St A B} (x : io St A) (f : A -> io St B) : io St B := fun fs s =>
  let '(fs', s', r) := x fs s in
  match r with
  | Ok a => f a fs' s'
  | Err e => (fs', s', Err e) | Panic => (fs', s', Panic) | UB => (fs', s', UB)
  end.
Notation "'do!' x := e1 'in' e2" := (io_bind e1 (fun x => e2))
  (at level 200, x pattern, e1 at level 100, e2 at level 200).
Definition io_get {St} : io St St := fun fs s => (fs, s, Ok s).
(** Computation without I/O. *)
Definition io_put {St} (f : St -> St) : io St unit := fun fs s => (fs, f s, Ok tt).
(** What the next operation will do. *)
Definition next_fault (fs : list fault) : fault := match fs with f :: _ => f | [] => Fine end.
(** An operation with effect [f]; [failed] is what the code makes of its error. *)
Definition io_op {St A} (failed : out A) (f : St -> St * out A) : io St A := fun fs s =>
  match next_fault fs with
  | Fails O => (tl fs, s, failed)
  | Fails (S _) => (tl fs, fst (f s), failed)
  | Fine => (tl fs, fst (f s), snd (f s))
  end.
(** An operation that only reads, or only opens something. *)
Definition io_read {St A} (failed : out A) (f : St -> A) : io St A := io_op failed (fun s => (s, Ok (f s))).
(** An operation whose error is taken for "there is none". *)
Definition io_try {St} : io St bool := fun fs s =>
  (tl fs, s, Ok (match next_fault fs with Fine => true | Fails _ => false end)).

(** An open tree and whether the directories of the old databases exist. *)
Record host := MkHost { h_tree : bct; h_old : bool; h_old_gas : bool }.
Definition with_host (n : host) (t : bct) : host := MkHost t (h_old n) (h_old_gas n).
Definition lift_tree {A} (f : bct -> bct * out A) (n : host) : host * out A :=
  (with_host n (fst (f (h_tree n))), snd (f (h_tree n))).
Definition tree_op {A} (failed : out A) (f : bct -> bct * out A) : io host A := io_op failed (lift_tree f).
Definition main_op (failed : error) (f : main_chain -> main_chain) : io host unit :=
  tree_op (Err failed) (fun t => (with_main t (f (t_main t)), Ok tt)).
Definition main_put (f : main_chain -> main_chain) : io host unit :=
  io_put (fun n => with_host n (with_main (h_tree n) (f (t_main (h_tree n))))).
Definition main_get : io host main_chain := fun fs n => (fs, n, Ok (t_main (h_tree n))).

(** ** Main chain *)

(** chain.rs:319-340; beyond the height nothing is read.  [e]: what the caller makes of the error. *)
Definition find_raw_io (e : error) (h : N) : io host (option bytes) :=
  do! m := main_get in
  if mc_height m <? h then io_out (Ok None)
  else io_read (Err e) (fun n => sled_get (height_key h) (mc_blocks (t_main (h_tree n)))).
(** chain.rs:388-413 [get_last_block] *)
Definition last_block_io : io host (option block) :=
  do! m := main_get in
  do! i := io_out (u256_sub (mc_height m) 1) in
  do! d := find_raw_io EChainFindByHeight i in
  io_out (mc_decode d).
(** chain.rs:343-385 [find_by_hash] *)
Definition find_by_hash_io (h : bytes) : io host (option block) :=
  do! r := io_read (Err EChainFindByHash) (fun n => sled_get h (mc_refs (t_main (h_tree n)))) in
  match r with
  | None => io_out (mc_decode None)
  | Some hb =>
      if Nat.ltb 32 (length hb) then io_out Panic
      else do! d := find_raw_io EChainFindByHash (from_be hb) in io_out (mc_decode d)
  end.
(** chain.rs:285-316 [add_block] *)
Definition add_block_io (b : block) : io host unit :=
  do! m := main_get in
  if negb (bi_height (get_info b) =? mc_height m) then io_out (Err EChainAddingBlock)
  else
    do! _ := main_op EChainAddingBlock (put_block b) in
    do! _ := main_op EChainAddingBlock (put_ref b) in
    do! h := io_out (u256_add (mc_height m) 1) in
    main_put (put_height h).
(** chain.rs:223-239 [add_transaction], :203-221 [add_transactions] *)
Definition add_tx_io (tx : transaction) : io host unit := main_op EChainAddingTx (mc_add_transaction tx).
Fixpoint add_txs_io (txs : list transaction) : io host unit :=
  match txs with
  | [] => io_out (Ok tt)
  | tx :: txs => do! _ := add_tx_io tx in add_txs_io txs
  end.
(** A write to the config file; [told]: its failure is reported (at the next write). *)
Definition write_cfg_io (told : bool) (d : bytes) : io host unit := fun fs n =>
  let put d := let t := h_tree n in let m := t_main t in
    with_host n (with_main t (with_cfg (file_append d (mc_cfg m)) m)) in
  match next_fault fs with
  | Fails k => (tl fs, put (firstn k d), if told then Err EChainDumpConfig else Ok tt)
  | Fine => (tl fs, put d, Ok tt)
  end.
(** chain.rs:148-201 [dump_config], [flush] *)
Definition main_flush_io : io host unit :=
  do! m := main_get in
  do! _ := main_op EChainDumpConfig (fun m => with_cfg (file_truncate (mc_cfg m)) m) in
  do! _ := write_cfg_io true (height_key (mc_height m)) in
  do! _ := write_cfg_io false (mc_difficulty m) in
  do! _ := main_op EChainDumpConfig mc_flush_blocks in
  do! _ := main_op EChainDumpConfig mc_flush_refs in
  main_op EChainDumpConfig mc_flush_txs.

(** ** Derivative chains *)

(** A handle's chain is the one in the map. *)
Definition deriv_of (w : bytes) (t : bct) : deriv_chain :=
  match assoc_get w (t_derivs t) with
  | Some c => c | None => MkDeriv sled_empty sled_empty 0 [] BEGINNING_DIFFICULTY file_absent end.
Definition set_deriv (w : bytes) (f : deriv_chain -> deriv_chain) (t : bct) : bct :=
  with_derivs t (assoc_set w (f (deriv_of w t)) (t_derivs t)).
Definition deriv_op (failed : error) (w : bytes) (f : deriv_chain -> deriv_chain) : io host unit :=
  tree_op (Err failed) (fun t => (set_deriv w f t, Ok tt)).
Definition deriv_put (w : bytes) (f : deriv_chain -> deriv_chain) : io host unit :=
  io_put (fun n => with_host n (set_deriv w f (h_tree n))).
(** chain.rs:451-518 [DerivativeChain::new]: two databases are opened, a config file that cannot be opened
    counts as absent, reading it can fail. *)
Definition deriv_new_io (d : deriv_disk) (genesis : bytes) : io host deriv_chain :=
  do! _ := io_read (Err EChainInit) (fun _ => tt) in
  do! _ := io_read (Err EChainInit) (fun _ => tt) in
  do! opened := io_try in
  match file_cur (dd_cfg d), opened with
  | Some _, true => do! _ := io_read (Err EChainInit) (fun _ => tt) in io_out (dc_new d genesis)
  | _, _ => io_out (Ok (MkDeriv (dd_blocks d) (dd_refs d) 0 genesis BEGINNING_DIFFICULTY (dd_cfg d)))
  end.
(** blockchaintree.rs:85-101 [get_derivative_chain] *)
Definition get_deriv_io (w : bytes) : io host deriv_chain :=
  do! n := io_get in
  match assoc_get w (t_derivs (h_tree n)) with
  | Some c => io_out (Ok c)
  | None =>
      do! last := last_block_io in
      do! b := io_out (unwrap_opt last) in
      do! c := deriv_new_io (match assoc_get (hex_encode w) (t_closed (h_tree n)) with
                             | Some d => d | None => deriv_disk_empty end) (block_hash b) in
      do! _ := io_put (fun n => with_host n (with_derivs (h_tree n) (assoc_set w c (t_derivs (h_tree n))))) in
      io_out (Ok c)
  end.
(** chain.rs:686-714 [get_last_block] *)
Definition deriv_last_io (w : bytes) : io host (option block) :=
  do! n := io_get in
  let c := deriv_of w (h_tree n) in
  if dc_height c =? 0 then io_out (dc_decode None)
  else
    do! i := io_out (u256_sub (dc_height c) 1) in
    do! d := (if dc_height c <? i then io_out (Ok None)
              else io_read (Err EChainFindByHeight) (fun _ => sled_get (height_key i) (dc_blocks c))) in
    io_out (dc_decode d).
(** chain.rs:582-614 [add_block] *)
Definition deriv_add_io (w : bytes) (i : basic_info) : io host unit :=
  do! n := io_get in
  let c := deriv_of w (h_tree n) in
  if negb (bi_height i =? dc_height c) then io_out (Err EChainAddingBlock)
  else
    do! _ := deriv_op EChainAddingBlock w (put_dblock i) in
    do! _ := deriv_op EChainAddingBlock w (put_dref i) in
    do! h := io_out (u256_add (dc_height c) 1) in
    deriv_put w (put_dheight h).
(** chain.rs:527-575 [flush] *)
Definition dc_flush_blocks (c : deriv_chain) : deriv_chain :=
  MkDeriv (sled_flush (dc_blocks c)) (dc_refs c) (dc_height c) (dc_genesis c) (dc_difficulty c) (dc_cfg c).
Definition dc_flush_refs (c : deriv_chain) : deriv_chain :=
  MkDeriv (dc_blocks c) (sled_flush (dc_refs c)) (dc_height c) (dc_genesis c) (dc_difficulty c) (dc_cfg c).
Definition write_dcfg_io (told : bool) (w d : bytes) : io host unit := fun fs n =>
  let put d := with_host n (set_deriv w (fun c => deriv_with_cfg (file_append d (dc_cfg c)) c) (h_tree n)) in
  match next_fault fs with
  | Fails k => (tl fs, put (firstn k d), if told then Err EChainDumpConfig else Ok tt)
  | Fine => (tl fs, put d, Ok tt)
  end.
Definition deriv_flush_io (w : bytes) : io host unit :=
  do! n := io_get in
  let c := deriv_of w (h_tree n) in
  do! _ := deriv_op EChainDumpConfig w (fun c => deriv_with_cfg (file_truncate (dc_cfg c)) c) in
  do! _ := write_dcfg_io true w (height_key (dc_height c)) in
  do! _ := write_dcfg_io true w (dc_difficulty c) in
  do! _ := write_dcfg_io false w (dc_genesis c) in
  do! _ := deriv_op EChainDumpConfig w dc_flush_blocks in
  deriv_op EChainDumpConfig w dc_flush_refs.

(** ** The tree *)

(** blockchaintree.rs:107-324: one transaction, [.unwrap()] makes its error a panic. *)
Definition ledger_io (f : bct -> bct * out unit) : io host unit := tree_op Panic f.
(** :190-230; equal parties return before the transaction *)
Definition send_amount_io (from to : bytes) (a : N) : io host unit :=
  if bytes_eqb from to then io_out (Ok tt) else ledger_io (t_on_summary (led_send from to a)).
(** :176-188, :273-285 *)
Definition get_amount_io (w : bytes) : io host N := tree_op (Err ETreeGetFunds) (fun t => (t, t_get_amount w t)).
Definition get_gas_io (w : bytes) : io host N := tree_op (Err ETreeGetFunds) (fun t => (t, t_get_gas w t)).

(** :326-334 [add_new_block] *)
Definition add_new_block_io (b : block) (txs : list transaction) : io host unit :=
  do! _ := add_block_io b in add_txs_io txs.

(** :516-543 [flush] *)
Definition oh_old (f : sled -> sled) (t : bct) : bct :=
  MkTree0 (t_main t) (t_derivs t) (t_summary t) (f (t_old_summary t)) (t_gas t) (t_old_gas t) (t_closed t).
Definition oh_old_gas (f : sled -> sled) (t : bct) : bct :=
  MkTree0 (t_main t) (t_derivs t) (t_summary t) (t_old_summary t) (t_gas t) (f (t_old_gas t)) (t_closed t).
Definition flush_op (f : bct -> bct) : io host unit := tree_op (Err ETreeDumpDb) (fun t => (f t, Ok tt)).
Definition flush_io : io host unit :=
  do! _ := main_flush_io in
  do! _ := flush_op (fun t => with_summary t (sled_flush (t_summary t))) in
  do! _ := flush_op (oh_old sled_flush) in
  do! _ := flush_op (fun t => with_gas t (sled_flush (t_gas t))) in
  flush_op (oh_old_gas sled_flush).

(** :555-577: removing a directory that is missing and creating one that exists are errors.  [there] and [set] select the directory. *)
Definition remove_dir_io (there : host -> bool) (set : bool -> host -> host) : io host unit :=
  io_op (Err ETreeMoveSummary) (fun n => if there n then (set false n, Ok tt) else (n, Err ETreeMoveSummary)).
Definition create_dir_io (there : host -> bool) (set : bool -> host -> host) : io host unit :=
  io_op (Err ETreeMoveSummary) (fun n => if there n then (n, Err ETreeMoveSummary) else (set true n, Ok tt)).
Definition set_old (b : bool) (n : host) : host := MkHost (h_tree n) b (h_old_gas n).
Definition set_old_gas (b : bool) (n : host) : host := MkHost (h_tree n) (h_old n) b.
(** :545-600 [rotate_dbs]: flush, replace the two directories, copy (:579-589), open the copies (:591-597) *)
Definition rotate_io : io host unit :=
  do! _ := flush_io in
  do! _ := remove_dir_io h_old set_old in
  do! _ := create_dir_io h_old set_old in
  do! _ := remove_dir_io h_old_gas set_old_gas in
  do! _ := create_dir_io h_old_gas set_old_gas in
  do! _ := io_read (Err ETreeMoveSummary) (fun _ => tt) in
  do! _ := io_read (Err ETreeMoveSummary) (fun _ => tt) in
  do! _ := io_read (Err ETreeInit) (fun _ => tt) in
  do! _ := io_put (fun n => with_host n (oh_old (fun _ => sled_flush (t_summary (h_tree n))) (h_tree n))) in
  do! _ := io_read (Err ETreeInit) (fun _ => tt) in
  io_put (fun n => with_host n (oh_old_gas (fun _ => sled_flush (t_gas (h_tree n))) (h_tree n))).

(** :369-413 [emmit_new_derivative_block] *)
Definition emit_deriv_io (p : profile) (pow founder : bytes) (ts : N) : io host block :=
  do! c := get_deriv_io founder in
  do! last := deriv_last_io founder in
  do! info := match last with
              | Some b =>
                  io_out (let! h := u256_add (bi_height (get_info b)) 1 in
                          next_info p founder pow ts (block_hash b) (bi_difficulty (get_info b)) (bi_timestamp (get_info b)) h)
              | None =>
                  do! g := find_by_hash_io (dc_genesis c) in
                  match g with
                  | None => io_out (Err EChainFindByHash)
                  | Some b => io_out (next_info p founder pow ts (block_hash b) BEGINNING_DIFFICULTY (bi_timestamp (get_info b)) 0)
                  end
              end in
  do! _ := deriv_add_io founder info in
  io_out (Ok (DerivBlock info)).

(** :415-482 [emmit_new_main_block]; the reads of [summarize] (:338-351) are one operation *)
Definition emit_main_io (p : profile) (pow founder : bytes) (txs : list bytes) (ts : N) : io host block :=
  do! m := main_get in
  do! i := io_out (u256_sub (mc_height m) 1) in
  do! d := find_raw_io EChainFindByHeight i in
  do! n := io_get in
  do! b := io_out (emit_block p pow founder txs ts d (h_tree n)) in
  do! _ := match b with
           | SummBlock _ _ =>
               do! _ := io_read (Err ETreeGetFunds) (fun _ => tt) in
               do! _ := rotate_io in
               ledger_io (t_set_amount ROOT_PUBLIC_ADDRESS COINS_PER_CYCLE)
           | _ => io_out (Ok tt)
           end in
  do! _ := add_block_io b in
  io_out (Ok b).

(** :484-514 [send_transaction] *)
Definition send_tx_io (tx : transaction) : io host unit :=
  do! gas := get_gas_io (tx_sender tx) in
  do! amount := get_amount_io (tx_sender tx) in
  do! gas_required := io_out (u256_mul BYTE_GAS_PRICE (N.of_nat (tx_get_dump_size tx))) in
  if gas <? gas_required then io_out (Err ETreeNewTransaction)
  else
    do! last := last_block_io in
    do! b := io_out (unwrap_opt last) in
    do! fee := io_out (recalculate_fee (bi_difficulty (get_info b))) in
    do! need := io_out (u256_add fee (tx_amount tx)) in
    if amount <? need then io_out (Err ETreeNewTransaction)
    else
      do! _ := add_tx_io tx in
      do! _ := send_amount_io (tx_sender tx) (tx_receiver tx) (tx_amount tx) in
      ledger_io (t_sub_gas (tx_sender tx) gas_required).

Definition io_unit {St} (x : io St unit) : io St result := do! _ := x in io_out (Ok RUnit).
Definition io_block {St} (x : io St block) : io St result := do! b := x in io_out (Ok (RBlock b)).
Definition io_step (p : profile) (o : op) : io host result :=
  match o with
  | OAddAmount w a => io_unit (ledger_io (t_add_amount w a))
  | OSetAmount w a => io_unit (ledger_io (t_set_amount w a))
  | OSubAmount w a => io_unit (ledger_io (t_sub_amount w a))
  | OSendAmount f w a => io_unit (send_amount_io f w a)
  | OAddGas w a => io_unit (ledger_io (t_add_gas w a))
  | OSubGas w a => io_unit (ledger_io (t_sub_gas w a))
  | OSendGas f w a => io_unit (ledger_io (t_send_gas f w a))
  | OSendTx tx => io_unit (send_tx_io tx)
  | OEmitMain pow founder txs ts => io_block (emit_main_io p pow founder txs ts)
  | OEmitDeriv pow founder ts => io_block (emit_deriv_io p pow founder ts)
  | OGetDeriv w => do! c := get_deriv_io w in io_out (Ok (RChain c))
  | OAddNewBlock b txs => io_unit (add_new_block_io b txs)
  | OAddTxs txs => io_unit (add_txs_io txs)
  | ODerivAddBlock w i => fun fs n =>
      match assoc_get w (t_derivs (h_tree n)) with
      | None => (fs, n, Ok RUnit) (* no such handle exists *)
      | Some _ => io_unit (deriv_add_io w i) fs n
      end
  | OFlush => io_unit flush_io
  | OMainFlush => io_unit main_flush_io
  | ODerivFlush w => fun fs n =>
      match assoc_get w (t_derivs (h_tree n)) with
      | None => (fs, n, Ok RUnit)
      | Some _ => io_unit (deriv_flush_io w) fs n
      end
  end.

(** A history: every call comes with the faults it meets. *)
Definition io_run (p : profile) (n : host) (calls : list (op * list fault)) : host :=
  fold_left (fun n c => snd (fst (io_step p (fst c) (snd c) n))) calls n.

(** ** Opening a tree *)

Definition disk_main (f : main_disk -> main_disk) (d : disk) : disk :=
  MkDisk (f (k_main d)) (k_summary d) (k_old_summary d) (k_gas d) (k_old_gas d) (k_derivs d).
Definition disk_blocks (f : sled -> sled) (m : main_disk) : main_disk := MkMainDisk (f (md_blocks m)) (md_refs m) (md_txs m) (md_cfg m).
Definition disk_refs (f : sled -> sled) (m : main_disk) : main_disk := MkMainDisk (md_blocks m) (f (md_refs m)) (md_txs m) (md_cfg m).
Definition disk_summary (f : sled -> sled) (d : disk) : disk :=
  MkDisk (k_main d) (f (k_summary d)) (k_old_summary d) (k_gas d) (k_old_gas d) (k_derivs d).
Definition disk_op (failed : out unit) (f : disk -> disk) : io disk unit := io_op failed (fun d => (f d, Ok tt)).
Fixpoint opens (n : nat) (e : error) : io disk unit :=
  match n with O => io_out (Ok tt) | S n => do! _ := io_read (Err e) (fun _ => tt) in opens n e end.
(** blockchaintree.rs:33-83 [BlockChainTree::new] with chain.rs:62-144 [MainChain::new]: seven databases are opened, a config
    file that cannot be opened counts as absent (chain.rs:90-107), reading it can fail; height 0: the genesis block is
    added; height 1 then: the root account is set. *)
Definition t_new_io : io disk bct :=
  do! _ := opens 4 ETreeInit in
  do! _ := opens 3 EChainInit in
  do! opened := io_try in
  do! d := io_get in
  do! (h, df) := match file_cur (md_cfg (k_main d)), opened with
                 | Some _, true =>
                     do! _ := io_read (Err EChainInit) (fun _ => tt) in io_out (mc_read_config (md_cfg (k_main d)))
                 | _, _ => io_out (Ok (0, BEGINNING_DIFFICULTY))
                 end in
  do! h' := (if h =? 0 then
               do! g := io_out genesis_block in
               do! _ := disk_op (Err EChainInit) (disk_main (disk_blocks (sled_insert (height_key 0) (block_dump g)))) in
               do! _ := disk_op (Err EChainInit) (disk_main (disk_refs (sled_insert (sha256 (block_dump g)) (height_key 0)))) in
               io_out (Ok 1)
             else io_out (Ok h)) in
  do! _ := (if h' =? 1 then disk_op Panic (disk_summary (sled_commit [(ROOT_PUBLIC_ADDRESS, led_encode COINS_PER_CYCLE)]))
            else io_out (Ok tt)) in
  do! d := io_get in
  let m := k_main d in
  io_out (Ok (MkTree0 (MkMain (md_blocks m) (md_refs m) (md_txs m) h' df (md_cfg m)) [] (k_summary d) (k_old_summary d)
                (k_gas d) (k_old_gas d) (k_derivs d))).
(** The handles are dropped when opening fails. *)
Definition disk_settle (d : disk) : disk :=
  let m := k_main d in
  MkDisk (MkMainDisk (sled_flush (md_blocks m)) (sled_flush (md_refs m)) (sled_flush (md_txs m)) (md_cfg m))
    (sled_flush (k_summary d)) (sled_flush (k_old_summary d)) (sled_flush (k_gas d)) (sled_flush (k_old_gas d)) (k_derivs d).
