(** The node in the abstract: lists of blocks and transactions, accounts with numbers, no databases, files or
    encodings of balances.  Definitions only. *)
From Verif Require Import Base Sha256 Tools Transaction Block Sled Chain Tree Spec Reach LedgerSpec.

(** ** Accounts, in ascending order *)
Definition accounts := list (bytes * N).
Definition entry (w : bytes) (l : accounts) : option N := option_map snd (find (fun e => bytes_eqb w (fst e)) l).
Definition held (w : bytes) (l : accounts) : N := match entry w l with Some x => x | None => 0 end.
Fixpoint put (w : bytes) (x : N) (l : accounts) : accounts :=
  match l with
  | [] => [(w, x)]
  | e :: t => match bytes_cmp w (fst e) with Lt => (w, x) :: l | Eq => (w, x) :: t | Gt => e :: put w x t end
  end.

(** ** The state *)

(** A derivative chain: the hash of the main block it starts at, and its blocks, oldest first. *)
Definition side_chain := (bytes * list basic_info)%type.
Record anode := MkNode {
  n_blocks : list block;                     (* oldest first *)
  n_txs : list transaction;                  (* newest first *)
  n_amounts : accounts;
  n_gas : accounts;
  n_old_amounts : accounts;                  (* when the last epoch ended *)
  n_old_gas : accounts;
  n_chains : list (bytes * side_chain);      (* by owner *)
  n_open : list bytes                        (* owners whose chains were asked for since the start of the process *)
}.
Definition with_blocks n x := MkNode x (n_txs n) (n_amounts n) (n_gas n) (n_old_amounts n) (n_old_gas n) (n_chains n) (n_open n).
Definition with_txs n x := MkNode (n_blocks n) x (n_amounts n) (n_gas n) (n_old_amounts n) (n_old_gas n) (n_chains n) (n_open n).
Definition with_amounts n x := MkNode (n_blocks n) (n_txs n) x (n_gas n) (n_old_amounts n) (n_old_gas n) (n_chains n) (n_open n).
Definition with_gases n x := MkNode (n_blocks n) (n_txs n) (n_amounts n) x (n_old_amounts n) (n_old_gas n) (n_chains n) (n_open n).
Definition with_chain n w c := MkNode (n_blocks n) (n_txs n) (n_amounts n) (n_gas n) (n_old_amounts n) (n_old_gas n)
  (assoc_set w c (n_chains n)) (w :: n_open n).

Inductive answer := AUnit | ABlock (b : block) | AChain (c : side_chain).

(** ** Arithmetic *)

(** The target after a block that came earlier than, exactly at, or later than 600 seconds after its predecessor.
    Targets are 2^m-1 with m < 256; the target 0 is eased to 2^248 and from then on counts in the first byte only. *)
Definition next_target (c : comparison) (v : N) : N :=
  match c with
  | Eq => v
  | Lt => if v mod 2 ^ 248 =? 0 then (v / 2 ^ 249) * 2 ^ 248 else v / 2
  | Gt => if v mod 2 ^ 248 =? 0 then N.min 127 (2 * (v / 2 ^ 248) + 1) * 2 ^ 248 else N.min (2 ^ 255 - 1) (2 * v + 1)
  end.
(** Seconds between two blocks; checked builds panic on a negative number, others wrap. *)
Definition seconds (p : profile) (prev_ts ts : N) : option N :=
  if prev_ts <=? ts then Some (ts - prev_ts) else match p with Debug => None | Release => Some (ts + 2 ^ 64 - prev_ts) end.
Definition enough_work (hash difficulty root pow : bytes) : bool :=
  leading_zero_bits difficulty <=? leading_zero_bits (sha256 (hash ++ root ++ pow)).
(** Root of the padded tree over [items]. *)
Definition root_of (items : list bytes) : bytes :=
  let k := N.size_nat (N.of_nat (length items)) in and_tree k (padded k items).

(** ** Reading *)
Definition n_height (n : anode) : N := N.of_nat (length (n_blocks n)).
Definition first_block : block :=
  SummBlock (MkInfo 1597924800 (repeat 0 32) (repeat 0 32) 0 (127 :: repeat 255 31) ROOT_PUBLIC_ADDRESS)
    (root_of [sha256 (ROOT_PUBLIC_ADDRESS ++ [124] ++ u256_to_string COINS_PER_CYCLE ++ [124] ++ [48])]).
Definition n_last (n : anode) : block := last (n_blocks n) first_block.
(** The newest one with a given hash. *)
Definition block_by_hash (h : bytes) (l : list block) : option block := find (fun b => bytes_eqb h (block_hash b)) (rev l).
Definition tx_by_hash (h : bytes) (n : anode) : option transaction := find (fun x => bytes_eqb h (sha256 (tx_dump x))) (n_txs n).
(** A stored transaction read back: its hash is computed again and empty data is no data. *)
Definition reread (x : transaction) : transaction :=
  MkTx (tx_sender x) (tx_receiver x) (tx_timestamp x) (tx_signature x) (tx_amount x)
    (match tx_data x with Some [] => None | d => d end) (sha256 (tx_dump x)).
(** What the summary of an epoch commits to. *)
Definition summary_leaves (n : anode) : list bytes :=
  map (fun e => sha256 (leaf_text (fst e) (snd e) (entry (fst e) (n_gas n)))) (n_amounts n).

(** ** Calls *)
Definition give (w : bytes) (a : N) (l : accounts) : option accounts :=
  if held w l + a <? 2 ^ 256 then Some (put w (held w l + a) l) else None.
Definition take (w : bytes) (a : N) (l : accounts) : option accounts :=
  if a <=? held w l then Some (put w (held w l - a) l) else None.
(* both balances are read before either is written *)
Definition move (x y : bytes) (a : N) (l : accounts) : option accounts :=
  if (a <=? held x l) && (held y l + a <? 2 ^ 256) then Some (put y (held y l + a) (put x (held x l - a) l)) else None.
Definition do_amounts (f : accounts -> option accounts) (n : anode) : anode * out answer :=
  match f (n_amounts n) with Some l => (with_amounts n l, Ok AUnit) | None => (n, Panic) end.
Definition do_gas (f : accounts -> option accounts) (n : anode) : anode * out answer :=
  match f (n_gas n) with Some l => (with_gases n l, Ok AUnit) | None => (n, Panic) end.

Definition n_send (tx : transaction) (n : anode) : anode * out answer :=
  let s := tx_sender tx in let r := tx_receiver tx in let a := tx_amount tx in
  let gas := gas_for (N.of_nat (length (tx_dump tx)) + (if a =? 0 then 1 else 0)) in
  let need := fee_after (n_last n) + a in
  if held s (n_gas n) <? gas then (n, Err ETreeNewTransaction)
  else if 2 ^ 256 <=? need then (n, Panic)
  else if held s (n_amounts n) <? need then (n, Err ETreeNewTransaction)
  else
    let n := with_txs n (tx :: n_txs n) in
    let paid := with_gases n (put s (held s (n_gas n) - gas) (n_gas n)) in
    if bytes_eqb s r then (paid, Ok AUnit)
    else match move s r a (n_amounts n) with
         | Some l => (with_amounts paid l, Ok AUnit)
         | None => (n, Panic)
         end.

(** The header after a block with hash [h], difficulty [d] and timestamp [prev_ts]. *)
Definition n_header (p : profile) (h d : bytes) (prev_ts height : N) (root pow founder : bytes) (ts : N) : out basic_info :=
  if negb (enough_work h d root pow) then Err ETreeWrongPow
  else match seconds p prev_ts ts with
       | None => Panic
       | Some s => Ok (MkInfo ts pow h height (to_be 32 (next_target (s ?= 600) (be_val d))) founder)
       end.

Definition n_emit (p : profile) (pow founder : bytes) (txs : list bytes) (ts : N) (n : anode) : anode * out answer :=
  let prev := n_last n in let pi := get_info prev in
  match n_header p (block_hash prev) (bi_difficulty pi) (bi_timestamp pi) (n_height n) (root_of txs) pow founder ts with
  | Ok i =>
      if n_height n mod 1000000 =? 0 then
        match txs with
        | [] =>
            let b := SummBlock i (root_of (summary_leaves n)) in
            (MkNode (n_blocks n ++ [b]) (n_txs n) (put ROOT_PUBLIC_ADDRESS COINS_PER_CYCLE (n_amounts n)) (n_gas n)
               (n_amounts n) (n_gas n) (n_chains n) (n_open n), Ok (ABlock b))
        | _ => (n, Err ETreeSummarizeWrongTxAmount)
        end
      else
        match txs with
        | [] => (n, Err ETreeCreateMainChainBlock)
        | _ =>
            let b := TxBlock (62500 * leading_zero_bits (bi_difficulty i)) (root_of txs) i txs in
            (with_blocks n (n_blocks n ++ [b]), Ok (ABlock b))
        end
  | Err e => (n, Err e) | Panic => (n, Panic) | UB => (n, UB)
  end.

(** The chain of an owner; a new one starts at the last main block. *)
Definition n_chain (w : bytes) (n : anode) : side_chain :=
  match assoc_get w (n_chains n) with Some c => c | None => (block_hash (n_last n), []) end.
Definition n_emit_side (p : profile) (pow founder : bytes) (ts : N) (n : anode) : anode * out answer :=
  let c := n_chain founder n in
  let opened := with_chain n founder c in
  let made :=
    match snd c with
    | [] =>
        match block_by_hash (fst c) (n_blocks n) with
        | None => Err EChainFindByHash
        | Some b => n_header p (block_hash b) (127 :: repeat 255 31) (bi_timestamp (get_info b)) 0 ff32 pow founder ts
        end
    | x :: _ =>
        let i := last (snd c) x in
        n_header p (block_hash (DerivBlock i)) (bi_difficulty i) (bi_timestamp i) (N.of_nat (length (snd c))) ff32 pow founder ts
    end in
  match made with
  | Ok i => (with_chain n founder (fst c, snd c ++ [i]), Ok (ABlock (DerivBlock i)))
  | Err e => (opened, Err e) | Panic => (opened, Panic) | UB => (opened, UB)
  end.

Definition is_open (w : bytes) (n : anode) : bool := existsb (bytes_eqb w) (n_open n).

Definition n_step (p : profile) (n : anode) (o : op) : anode * out answer :=
  match o with
  | OAddAmount w a => do_amounts (give w a) n
  | OSetAmount w a => do_amounts (fun l => Some (put w a l)) n
  | OSubAmount w a => do_amounts (take w a) n
  | OSendAmount x y a => if bytes_eqb x y then (n, Ok AUnit) else do_amounts (move x y a) n
  | OAddGas w a => do_gas (give w a) n
  | OSubGas w a => do_gas (take w a) n
  | OSendGas x y a => do_gas (move x y a) n
  | OSendTx tx => n_send tx n
  | OEmitMain pow founder txs ts => n_emit p pow founder txs ts n
  | OEmitDeriv pow founder ts => n_emit_side p pow founder ts n
  | OGetDeriv w => (with_chain n w (n_chain w n), Ok (AChain (n_chain w n)))
  | OAddNewBlock b txs =>
      if bi_height (get_info b) =? n_height n
      then (with_txs (with_blocks n (n_blocks n ++ [b])) (rev txs ++ n_txs n), Ok AUnit)
      else (n, Err EChainAddingBlock)
  | OAddTxs txs => (with_txs n (rev txs ++ n_txs n), Ok AUnit)
  | ODerivAddBlock w i =>
      let c := n_chain w n in
      if negb (is_open w n) then (n, Ok AUnit) (* no such handle exists: nothing is called *)
      else if bi_height i =? N.of_nat (length (snd c)) then (with_chain n w (fst c, snd c ++ [i]), Ok AUnit)
      else (n, Err EChainAddingBlock)
  | OFlush | OMainFlush | ODerivFlush _ => (n, Ok AUnit)
  end.

(** A restart changes nothing, except that with only the first block in the chain the root account gets its coins again. *)
Definition n_restart (n : anode) : anode :=
  MkNode (n_blocks n) (n_txs n)
    (if n_height n =? 1 then put ROOT_PUBLIC_ADDRESS COINS_PER_CYCLE (n_amounts n) else n_amounts n)
    (n_gas n) (n_old_amounts n) (n_old_gas n) (n_chains n) [].
Definition n_start : anode := MkNode [first_block] [] [(ROOT_PUBLIC_ADDRESS, COINS_PER_CYCLE)] [] [] [] [] [].

(** ** Runs of the node and of the code *)
Inductive event := Call (o : op) | Restart.

Fixpoint n_run (p : profile) (n : anode) (evs : list event) : anode * list (out answer) :=
  match evs with
  | [] => (n, [])
  | Call o :: evs => let '(n1, a) := n_step p n o in let '(n2, l) := n_run p n1 evs in (n2, a :: l)
  | Restart :: evs => n_run p (n_restart n) evs
  end.

(** Shutting down with care: every open derivative chain is flushed, then the tree, then everything is closed. *)
Definition shut_down (p : profile) (t : bct) : disk :=
  t_close (run p t (map (fun wc => ODerivFlush (fst wc)) (t_derivs t) ++ [OFlush])).
Fixpoint code_run (p : profile) (t : bct) (evs : list event) : option (bct * list (out result)) :=
  match evs with
  | [] => Some (t, [])
  | Call o :: evs =>
      let '(t1, r) := step p t o in
      match code_run p t1 evs with Some (t2, l) => Some (t2, r :: l) | None => None end
  | Restart :: evs => match t_new (shut_down p t) with Ok t1 => code_run p t1 evs | _ => None end
  end.

(** Blocks added by hand are of the right kind and have a difficulty that retargeting can produce. *)
Definition sane (p : profile) (e : event) : Prop :=
  match e with
  | Restart => True
  | Call o => op_wf o /\
      match o with
      | OAddNewBlock b _ => match b with DerivBlock _ => False | _ => True end /\ difficulty_reachable p (bi_difficulty (get_info b))
      | ODerivAddBlock _ i => difficulty_reachable p (bi_difficulty i)
      | OSendTx tx => N.of_nat (length (tx_dump tx)) < 2 ^ 63
      | _ => True
      end
  end.

(** ** The same answers *)
Definition chain_answers (c : deriv_chain) (s : side_chain) : Prop :=
  let B := map DerivBlock (snd s) in
  dc_get_height c = N.of_nat (length B) /\ dc_genesis c = fst s /\ dc_difficulty c = 127 :: repeat 255 31 /\
  (forall i, dc_find_raw_by_height i c = option_map block_dump (nth_error B (N.to_nat i)) /\
             dc_find_by_height i c = Ok (nth_error B (N.to_nat i))) /\
  (forall h, dc_find_raw_by_hash h c = Ok (option_map block_dump (block_by_hash h B)) /\ dc_find_by_hash h c = Ok (block_by_hash h B)) /\
  dc_get_last_raw_block c = Ok (option_map block_dump (nth_error B (length B - 1))) /\
  dc_get_last_block c = Ok (nth_error B (length B - 1)).

Definition same_answer (r : out result) (a : out answer) : Prop :=
  match r, a with
  | Ok RUnit, Ok AUnit => True
  | Ok (RBlock b), Ok (ABlock b') => b = b'
  | Ok (RChain c), Ok (AChain s) => chain_answers c s
  | Err e, Err e' => e = e'
  | Panic, Panic => True
  | _, _ => False
  end.

(** Every question about the tree [t] is answered by the node [n]. *)
Definition answers (t : bct) (n : anode) : Prop :=
  mc_get_height (t_main t) = n_height n /\
  (forall i, mc_find_raw_by_height i (t_main t) = option_map block_dump (nth_error (n_blocks n) (N.to_nat i)) /\
             mc_find_by_height i (t_main t) = Ok (nth_error (n_blocks n) (N.to_nat i))) /\
  (forall h, mc_find_raw_by_hash h (t_main t) = Ok (option_map block_dump (block_by_hash h (n_blocks n))) /\
             mc_find_by_hash h (t_main t) = Ok (block_by_hash h (n_blocks n))) /\
  mc_get_last_raw_block (t_main t) = Ok (Some (block_dump (n_last n))) /\
  mc_get_last_block (t_main t) = Ok (Some (n_last n)) /\
  (forall h, mc_transaction_exists h (t_main t) = match tx_by_hash h n with Some _ => true | None => false end /\
             mc_get_transaction_raw h (t_main t) = option_map tx_dump (tx_by_hash h n) /\
             mc_get_transaction h (t_main t) = Ok (option_map reread (tx_by_hash h n))) /\
  (forall w, t_get_amount w t = Ok (held w (n_amounts n)) /\ t_get_gas w t = Ok (held w (n_gas n)) /\
             led_get w (t_old_summary t) = Ok (held w (n_old_amounts n)) /\ led_get w (t_old_gas t) = Ok (held w (n_old_gas n))) /\
  t_summarize t = Ok (root_of (summary_leaves n)) /\
  (forall w, is_array 33 w -> exists c, snd (t_get_derivative_chain w t) = Ok c /\ chain_answers c (n_chain w n)).
