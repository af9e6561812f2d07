(** Model of src/blockchaintree.rs.  Model file: definitions only. *)
From Verif Require Import Base Sha256 Merkle Tools Transaction Block Sled Chain.

(** ** Ledger databases (summary_db holds amounts, gas_db holds gas) *)

(** blockchaintree.rs:115-118 and the same lines elsewhere:
    [Some(v) => load_u256(&v).unwrap().0, None => 0] *)
Definition led_decode (v : option bytes) : out N :=
  match v with
  | None => Ok 0
  | Some v => let! r := unwrap (load_u256 v) in Ok (fst r)
  end.
Definition led_encode (x : N) : bytes := dump_u256 x [].

(** blockchaintree.rs:176-188 [get_amount], :273-285 [get_gas] *)
Definition led_get (owner : bytes) (s : sled) : out N := led_decode (sled_get owner s).

(** A ledger call: the database after it and the outcome.  The closure of a
    sled transaction either commits all its inserts or none; [.unwrap()] turns
    [Abort] into a panic (blockchaintree.rs:126, 172, 227, 247, 269, 321). *)
Definition led_tx (s : sled) (r : out (list (bytes * bytes))) : sled * out unit :=
  match r with
  | Ok b => (sled_commit b s, Ok tt)
  | Err _ => (s, Panic)
  | Panic => (s, Panic)
  | UB => (s, UB)
  end.
(** [ConflictableTransactionError::Abort(())]; any error constructor would do. *)
Definition abort {A} : out A := Err ETreeDecreaseFunds.

(** blockchaintree.rs:107-129 [add_amount], :232-250 [add_gas] *)
Definition led_add (owner : bytes) (amount : N) (s : sled) : sled * out unit :=
  led_tx s (let! prev := led_get owner s in
            let! new := u256_add prev amount in
            Ok [(owner, led_encode new)]).
(** blockchaintree.rs:131-148 [set_amount] *)
Definition led_set (owner : bytes) (amount : N) (s : sled) : sled * out unit :=
  led_tx s (Ok [(owner, led_encode amount)]).
(** blockchaintree.rs:150-175 [sub_amount], :251-272 [sub_gas] *)
Definition led_sub (owner : bytes) (amount : N) (s : sled) : sled * out unit :=
  led_tx s (let! prev := led_get owner s in
            if prev <? amount then abort
            else let! new := u256_sub prev amount in
                 Ok [(owner, led_encode new)]).
(** blockchaintree.rs:199-229 body of [send_amount], :293-323 [send_gas] *)
Definition led_send (from to : bytes) (amount : N) (s : sled) : sled * out unit :=
  led_tx s (let! from_amount := led_get from s in
            let! to_amount := led_get to s in
            if from_amount <? amount then abort
            else
              let! from' := u256_sub from_amount amount in
              let! to' := u256_add to_amount amount in
              Ok [(from, led_encode from'); (to, led_encode to')]).

(** ** The tree *)

(** blockchaintree.rs:22-30.  [t_derivs]: the loaded derivative chains.
    [t_closed]: derivative chain directories on disk that are not loaded,
    keyed by directory name. *)
Record bct := MkTree0 {
  t_main : main_chain;
  t_derivs : list (bytes * deriv_chain);
  t_summary : sled;
  t_old_summary : sled;
  t_gas : sled;
  t_old_gas : sled;
  t_closed : list (bytes * deriv_disk)
}.

Definition with_main t m :=
  MkTree0 m (t_derivs t) (t_summary t) (t_old_summary t) (t_gas t) (t_old_gas t) (t_closed t).
Definition with_derivs t d :=
  MkTree0 (t_main t) d (t_summary t) (t_old_summary t) (t_gas t) (t_old_gas t) (t_closed t).
Definition with_summary t s :=
  MkTree0 (t_main t) (t_derivs t) s (t_old_summary t) (t_gas t) (t_old_gas t) (t_closed t).
Definition with_gas t g :=
  MkTree0 (t_main t) (t_derivs t) (t_summary t) (t_old_summary t) g (t_old_gas t) (t_closed t).

(** What is on disk while the tree is closed. *)
Record disk := MkDisk {
  k_main : main_disk;
  k_summary : sled;
  k_old_summary : sled;
  k_gas : sled;
  k_old_gas : sled;
  k_derivs : list (bytes * deriv_disk)
}.
Definition disk_empty : disk :=
  MkDisk (MkMainDisk sled_empty sled_empty sled_empty file_absent)
    sled_empty sled_empty sled_empty sled_empty [].

(** blockchaintree.rs:33-83 [BlockChainTree::new] *)
Definition t_new (d : disk) : out bct :=
  let! main := mc_new (k_main d) in
  let summary :=
    if mc_get_height main =? 1 then
      sled_commit [(ROOT_PUBLIC_ADDRESS, led_encode COINS_PER_CYCLE)] (k_summary d)
    else k_summary d in
  Ok (MkTree0 main [] summary (k_old_summary d) (k_gas d) (k_old_gas d) (k_derivs d)).

(** Association lists keyed by byte strings (HashMap; directory listing). *)
Fixpoint assoc_get {A} (k : bytes) (l : list (bytes * A)) : option A :=
  match l with
  | [] => None
  | (k', v) :: t => if bytes_eqb k k' then Some v else assoc_get k t
  end.
Fixpoint assoc_set {A} (k : bytes) (v : A) (l : list (bytes * A)) : list (bytes * A) :=
  match l with
  | [] => [(k, v)]
  | (k', v') :: t => if bytes_eqb k k' then (k, v) :: t else (k', v') :: assoc_set k v t
  end.

(** [hex::encode]: two lower-case hex digits per byte. *)
Definition hex_digit (n : N) : N := if n <? 10 then 48 + n else 87 + n.
Definition hex_encode (l : bytes) : bytes :=
  concat (map (fun b => [hex_digit (b / 16); hex_digit (b mod 16)]) l).

(** blockchaintree.rs:85-101 [get_derivative_chain] *)
Definition t_get_derivative_chain (owner : bytes) (t : bct) : bct * out deriv_chain :=
  match assoc_get owner (t_derivs t) with
  | Some c => (t, Ok c)
  | None =>
      let r :=
        let! last := mc_get_last_block (t_main t) in
        let! last_block := unwrap_opt last in
        dc_new (match assoc_get (hex_encode owner) (t_closed t) with
                | Some d => d | None => deriv_disk_empty end)
               (block_hash last_block) in
      match r with
      | Ok c => (with_derivs t (assoc_set owner c (t_derivs t)), Ok c)
      | Err e => (t, Err e) | Panic => (t, Panic) | UB => (t, UB)
      end
  end.

(** blockchaintree.rs:107-324: ledger entry points *)
Definition t_on_summary (f : sled -> sled * out unit) (t : bct) : bct * out unit :=
  let '(s, r) := f (t_summary t) in (with_summary t s, r).
Definition t_on_gas (f : sled -> sled * out unit) (t : bct) : bct * out unit :=
  let '(s, r) := f (t_gas t) in (with_gas t s, r).
Definition t_add_amount owner amount := t_on_summary (led_add owner amount).
Definition t_set_amount owner amount := t_on_summary (led_set owner amount).
Definition t_sub_amount owner amount := t_on_summary (led_sub owner amount).
Definition t_get_amount owner (t : bct) : out N := led_get owner (t_summary t).
(** :190-230; equal parties return at once (:196-198) *)
Definition t_send_amount from to amount (t : bct) : bct * out unit :=
  if bytes_eqb from to then (t, Ok tt) else t_on_summary (led_send from to amount) t.
Definition t_add_gas owner amount := t_on_gas (led_add owner amount).
Definition t_sub_gas owner amount := t_on_gas (led_sub owner amount).
Definition t_get_gas owner (t : bct) : out N := led_get owner (t_gas t).
(** :287-324; no test for equal parties *)
Definition t_send_gas from to amount := t_on_gas (led_send from to amount).

(** blockchaintree.rs:326-334 [add_new_block] *)
Definition t_add_new_block (b : block) (txs : list transaction) (t : bct) : bct * out unit :=
  let '(m, r) := mc_add_block b (t_main t) in
  match r with
  | Ok _ => (with_main t (mc_add_transactions txs m), Ok tt)
  | e => (with_main t m, e)
  end.

(** blockchaintree.rs:336-367 [summarize] *)
Definition summary_entry (gas : sled) (e : bytes * bytes) : bytes :=
  let '(address, amount) := e in
  let gas_amount := match sled_get address gas with Some g => g | None => [] end in
  address ++ [124] ++ amount ++ [124] ++ gas_amount.
Definition t_summarize (t : bct) : out bytes :=
  let hashes := map (fun e => sha256 (summary_entry (t_gas t) e)) (sled_iter (t_summary t)) in
  let! tree := build_tree hashes in
  get_root tree.

(** blockchaintree.rs:516-543 [flush].  Derivative chains are not flushed. *)
Definition t_flush (t : bct) : bct :=
  MkTree0 (mc_flush (t_main t)) (t_derivs t) (sled_flush (t_summary t))
    (sled_flush (t_old_summary t)) (sled_flush (t_gas t)) (sled_flush (t_old_gas t)) (t_closed t).

(** blockchaintree.rs:545-600 [rotate_dbs].  The directory copy (Fs.v) of a
    flushed database is a database with the same contents. *)
Definition t_rotate_dbs (t : bct) : bct :=
  let t := t_flush t in
  MkTree0 (t_main t) (t_derivs t) (t_summary t) (sled_flush (t_summary t))
    (t_gas t) (sled_flush (t_gas t)) (t_closed t).

(** blockchaintree.rs:369-413 [emmit_new_derivative_block] *)
Definition t_emmit_new_derivative_block (p : profile) (pow founder : bytes) (timestamp : N)
    (t : bct) : bct * out block :=
  let '(t1, rc) := t_get_derivative_chain founder t in
  match rc with
  | Ok dc =>
      let r :=
        let! last := dc_get_last_block dc in
        let! (prev_hash, difficulty, prev_timestamp, height) :=
          match last with
          | Some b =>
              let! h := u256_add (bi_height (get_info b)) 1 in
              Ok (block_hash b, bi_difficulty (get_info b), bi_timestamp (get_info b), h)
          | None =>
              let! g := mc_find_by_hash (dc_genesis dc) (t_main t1) in
              match g with
              | None => Err EChainFindByHash
              | Some b => Ok (block_hash b, BEGINNING_DIFFICULTY, bi_timestamp (get_info b), 0)
              end
          end in
        let! ok := check_pow prev_hash difficulty [] pow in
        if negb ok then Err ETreeWrongPow
        else
          let! difficulty := recalculate_difficulty p prev_timestamp timestamp difficulty in
          Ok (MkInfo timestamp pow prev_hash height difficulty founder) in
      match r with
      | Ok info =>
          let '(dc', ra) := dc_add_block info dc in
          (with_derivs t1 (assoc_set founder dc' (t_derivs t1)),
           match ra with
           | Ok _ => Ok (DerivBlock info) | Err e => Err e | Panic => Panic | UB => UB
           end)
      | Err e => (t1, Err e) | Panic => (t1, Panic) | UB => (t1, UB)
      end
  | Err e => (t1, Err e) | Panic => (t1, Panic) | UB => (t1, UB)
  end.

(** blockchaintree.rs:415-482 [emmit_new_main_block] *)
Definition t_emmit_new_main_block (p : profile) (pow founder : bytes)
    (transactions : list bytes) (timestamp : N) (t : bct) : bct * out block :=
  let prepare :=
    let! last := mc_get_last_block (t_main t) in
    let! last_block := unwrap_opt last in
    let prev_hash := block_hash last_block in
    let difficulty := bi_difficulty (get_info last_block) in
    let! ok := check_pow prev_hash difficulty transactions pow in
    if negb ok then Err ETreeWrongPow
    else
      let! difficulty :=
        recalculate_difficulty p (bi_timestamp (get_info last_block)) timestamp difficulty in
      let! fee := recalculate_fee difficulty in
      let! height := u256_add (bi_height (get_info last_block)) 1 in
      Ok (fee, MkInfo timestamp pow prev_hash height difficulty founder) in
  match prepare with
  | Ok (fee, info) =>
      let build : bct * out block :=
        if (bi_height info mod BLOCKS_PER_EPOCH) =? 0 then
          match transactions with
          | _ :: _ => (t, Err ETreeSummarizeWrongTxAmount)
          | [] =>
              match t_summarize t with
              | Ok root =>
                  let t' := t_rotate_dbs t in
                  let '(t'', r) := t_set_amount ROOT_PUBLIC_ADDRESS COINS_PER_CYCLE t' in
                  match r with
                  | Ok _ => (t'', Ok (SummBlock info root))
                  | Err e => (t'', Err e) | Panic => (t'', Panic) | UB => (t'', UB)
                  end
              | Err e => (t, Err e) | Panic => (t, Panic) | UB => (t, UB)
              end
          end
        else
          match transactions with
          | [] => (t, Err ETreeCreateMainChainBlock)
          | _ :: _ =>
              match (let! tree := build_tree transactions in get_root tree) with
              | Ok root => (t, Ok (TxBlock fee root info transactions))
              | Err e => (t, Err e) | Panic => (t, Panic) | UB => (t, UB)
              end
          end in
      let '(t1, rb) := build in
      match rb with
      | Ok b =>
          let '(m, ra) := mc_add_block b (t_main t1) in
          (with_main t1 m,
           match ra with Ok _ => Ok b | Err e => Err e | Panic => Panic | UB => UB end)
      | e => (t1, e)
      end
  | Err e => (t, Err e) | Panic => (t, Panic) | UB => (t, UB)
  end.

(** blockchaintree.rs:484-514 [send_transaction] (no call to [verify]).
    [get_amount()] of a [Transaction] is always [Some] (transaction.rs:368-370). *)
Definition t_send_transaction (tx : transaction) (t : bct) : bct * out unit :=
  let checks :=
    let! sender_gas_amount := t_get_gas (tx_sender tx) t in
    let! sender_amount := t_get_amount (tx_sender tx) t in
    let amount_of_bytes := N.of_nat (tx_get_dump_size tx) in
    let! gas_required := u256_mul BYTE_GAS_PRICE amount_of_bytes in
    if sender_gas_amount <? gas_required then Err ETreeNewTransaction
    else
      let! last := mc_get_last_block (t_main t) in
      let! last_block := unwrap_opt last in
      let! fee := recalculate_fee (bi_difficulty (get_info last_block)) in
      let! need := u256_add fee (tx_amount tx) in
      if sender_amount <? need then Err ETreeNewTransaction
      else Ok gas_required in
  match checks with
  | Ok gas_required =>
      let t1 := with_main t (mc_add_transaction tx (t_main t)) in
      let '(t2, r) := t_send_amount (tx_sender tx) (tx_receiver tx) (tx_amount tx) t1 in
      match r with
      | Ok _ => t_sub_gas (tx_sender tx) gas_required t2
      | e => (t2, e)
      end
  | Err e => (t, Err e) | Panic => (t, Panic) | UB => (t, UB)
  end.

(** ** Closing and crashing *)

Definition dc_close (c : deriv_chain) : deriv_disk :=
  MkDerivDisk (sled_flush (dc_blocks c)) (sled_flush (dc_refs c)) (file_settle (dc_cfg c)).
Definition mc_close (m : main_chain) : main_disk :=
  MkMainDisk (sled_flush (mc_blocks m)) (sled_flush (mc_refs m)) (sled_flush (mc_txs m))
    (file_settle (mc_cfg m)).
Definition close_derivs (f : bytes -> deriv_chain -> deriv_disk) (t : bct)
  : list (bytes * deriv_disk) :=
  fold_left (fun l oc => assoc_set (hex_encode (fst oc)) (f (fst oc) (snd oc)) l)
    (t_derivs t) (t_closed t).
(** All handles dropped: sled flushes on drop, background file writes finish. *)
Definition t_close (t : bct) : disk :=
  MkDisk (mc_close (t_main t)) (sled_flush (t_summary t)) (sled_flush (t_old_summary t))
    (sled_flush (t_gas t)) (sled_flush (t_old_gas t)) (close_derivs (fun _ => dc_close) t).

(** Crash: how many unflushed batches / pending file contents survive, for
    every database separately. *)
Record survivors := MkSurv {
  sv_blocks : nat; sv_refs : nat; sv_txs : nat; sv_cfg : nat;
  sv_summary : nat; sv_old_summary : nat; sv_gas : nat; sv_old_gas : nat;
  sv_deriv : bytes -> nat * nat * nat
}.
Definition mc_crash (s : survivors) (m : main_chain) : main_disk :=
  MkMainDisk (sled_crash (sv_blocks s) (mc_blocks m)) (sled_crash (sv_refs s) (mc_refs m))
    (sled_crash (sv_txs s) (mc_txs m)) (file_crash (sv_cfg s) (mc_cfg m)).
Definition dc_crash (n : nat * nat * nat) (c : deriv_chain) : deriv_disk :=
  let '(b, r, f) := n in
  MkDerivDisk (sled_crash b (dc_blocks c)) (sled_crash r (dc_refs c)) (file_crash f (dc_cfg c)).
Definition t_crash (s : survivors) (t : bct) : disk :=
  MkDisk (mc_crash s (t_main t)) (sled_crash (sv_summary s) (t_summary t))
    (sled_crash (sv_old_summary s) (t_old_summary t)) (sled_crash (sv_gas s) (t_gas t))
    (sled_crash (sv_old_gas s) (t_old_gas t))
    (close_derivs (fun o c => dc_crash (sv_deriv s o) c) t).

(** ** Histories of API calls *)

(** State-changing calls of the public API on an open tree and on the handles
    it gives out ([get_main_chain], [get_derivative_chain]).  Reads do not
    change the state. *)
Inductive op :=
| OAddAmount (owner : bytes) (a : N)
| OSetAmount (owner : bytes) (a : N)
| OSubAmount (owner : bytes) (a : N)
| OSendAmount (from to : bytes) (a : N)
| OAddGas (owner : bytes) (a : N)
| OSubGas (owner : bytes) (a : N)
| OSendGas (from to : bytes) (a : N)
| OSendTx (tx : transaction)
| OEmitMain (pow founder : bytes) (txs : list bytes) (ts : N)
| OEmitDeriv (pow founder : bytes) (ts : N)
| OGetDeriv (owner : bytes)
| OAddNewBlock (b : block) (txs : list transaction)
| OAddTxs (txs : list transaction)          (* MainChain::add_transactions *)
| ODerivAddBlock (owner : bytes) (i : basic_info) (* DerivativeChain::add_block on a handle *)
| OFlush
| OMainFlush                                (* MainChain::flush on a handle *)
| ODerivFlush (owner : bytes).              (* DerivativeChain::flush on a handle *)

Inductive result := RUnit | RBlock (b : block) | RChain (c : deriv_chain).
Definition ret_unit (x : bct * out unit) : bct * out result :=
  (fst x, let! _ := snd x in Ok RUnit).
Definition ret_block (x : bct * out block) : bct * out result :=
  (fst x, let! b := snd x in Ok (RBlock b)).

Definition step (p : profile) (t : bct) (o : op) : bct * out result :=
  match o with
  | OAddAmount w a => ret_unit (t_add_amount w a t)
  | OSetAmount w a => ret_unit (t_set_amount w a t)
  | OSubAmount w a => ret_unit (t_sub_amount w a t)
  | OSendAmount f w a => ret_unit (t_send_amount f w a t)
  | OAddGas w a => ret_unit (t_add_gas w a t)
  | OSubGas w a => ret_unit (t_sub_gas w a t)
  | OSendGas f w a => ret_unit (t_send_gas f w a t)
  | OSendTx tx => ret_unit (t_send_transaction tx t)
  | OEmitMain pow founder txs ts => ret_block (t_emmit_new_main_block p pow founder txs ts t)
  | OEmitDeriv pow founder ts => ret_block (t_emmit_new_derivative_block p pow founder ts t)
  | OGetDeriv w =>
      let '(t', r) := t_get_derivative_chain w t in (t', let! c := r in Ok (RChain c))
  | OAddNewBlock b txs => ret_unit (t_add_new_block b txs t)
  | OAddTxs txs => (with_main t (mc_add_transactions txs (t_main t)), Ok RUnit)
  | ODerivAddBlock w i =>
      match assoc_get w (t_derivs t) with
      | None => (t, Ok RUnit) (* no such handle exists: nothing is called *)
      | Some c =>
          let '(c', r) := dc_add_block i c in
          (with_derivs t (assoc_set w c' (t_derivs t)), let! _ := r in Ok RUnit)
      end
  | OFlush => (t_flush t, Ok RUnit)
  | OMainFlush => (with_main t (mc_flush (t_main t)), Ok RUnit)
  | ODerivFlush w =>
      match assoc_get w (t_derivs t) with
      | None => (t, Ok RUnit)
      | Some c => (with_derivs t (assoc_set w (dc_flush c) (t_derivs t)), Ok RUnit)
      end
  end.

(** A history: every call is made, whatever the previous ones returned. *)
Definition run (p : profile) (t : bct) (ops : list op) : bct :=
  fold_left (fun t o => fst (step p t o)) ops t.
