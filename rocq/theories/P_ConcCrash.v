(** Property C115: processes killed while calls run at the same time.
    Only theorem statements (closed by [exact]), examples showing that their
    premises are met, and the assumptions of each theorem. *)
From Coq Require Import Lia ZifyBool ZifyNat ZifyN Permutation.
From Verif Require Import Base Sha256 Tools Transaction Block Sled Chain Tree Spec Reach LedgerSpec CrashSpec Conc ConcTree ConcSpec ConcFlush FlushSpec ConcCrashSpec Demo.
From Verif Require Import BaseFacts ToolsFacts CodecFacts SledFacts ChainFacts TreeFacts LedgerFacts CrashFacts CrashProps LedgerProps ConcFacts ConcProps FlushProps.
From Verif Require Import ConcCrashProps.

(** C115.  After a flush, any number of calls (transfers, transactions, block additions, reads, flushes of the main chain) run at the same time, in any schedule; the
   process is killed between any two of their steps, and any part of the unflushed writes survives.  If the directory opens again, the amounts of all accounts are those
   of one moment of this very execution, and the gas is that of one moment: no half-made transfer, no mix of several calls.  (The root account is the exception of C68.) *)
Theorem C115_balances_of_one_moment : forall ok p n t calls schedule sv t', reachable ok p n t -> few n ->
  let at_ k := sh_tree (fst (flush_exec (firstn k schedule) (t_flush t) calls)) in
  t_new (t_crash sv (sh_tree (fst (flush_exec schedule (t_flush t) calls)))) = Ok t' ->
  (exists k, (k <= length schedule)%nat /\ forall w, w <> ROOT_PUBLIC_ADDRESS \/ mc_get_height (t_main t') <> 1 -> t_get_amount w t' = t_get_amount w (at_ k)) /\
  (exists k, (k <= length schedule)%nat /\ forall w, t_get_gas w t' = t_get_gas w (at_ k)).
Proof. exact p_C115_balances_of_one_moment. Qed.
Print Assumptions C115_balances_of_one_moment.

(** Two transfers and a flush of the main chain at the same time, killed when all have returned: the first transfer survives. *)
Example C115_ex_balances :
  let calls := [FCall (CLedger (LSend addrA addrB 5)); FFlush; FCall (CLedger (LSend addrA addrB 7))] in
  let s := sh_tree (fst (flush_exec [1; 1; 0; 1; 2; 1; 1; 1; 1]%nat (t_flush funded) calls)) in
  map (fun k => match t_new (t_crash (svs 0 0 0 3 k 0) s) with Ok t' => (t_get_amount addrA t', t_get_amount addrB t') | _ => (Panic, Panic) end) [0; 1; 2]%nat =
  [(Ok 1000000000, Ok 0); (Ok 999999995, Ok 5); (Ok 999999988, Ok 12)].
Proof. vm_compute. reflexivity. Qed.

(** C115.  Calls that create or destroy nothing (transfers, transactions, block additions, reads), killed in the middle: the amounts after reopening are those
   before the calls with some of the transfers made, each as a whole, and only such as had been made when the process was killed, never one of a call that had returned an error; so the sum over any accounts
   containing all parties is what it was.  The gas is what it was less the charges of the transactions that had been accepted at some moment.
   (The root account is the exception of C68.) *)
Theorem C115_conserved : forall ok p n t calls schedule sv t', reachable ok p n t -> few n -> Forall keeps_funds calls ->
  let threads k := snd (tree_exec (firstn k schedule) (t_flush t) calls) in
  t_new (t_crash sv (sh_tree (fst (tree_exec schedule (t_flush t) calls)))) = Ok t' ->
  exists f g f' g' done k, amounts t f /\ gases t g /\
    (forall w, w <> ROOT_PUBLIC_ADDRESS \/ mc_get_height (t_main t') <> 1 -> t_get_amount w t' = Ok (f' w)) /\ gases t' g' /\
    length done = length calls /\
    (forall w, f' w + total (sent w) (combine done calls) = f w + total (received w) (combine done calls)) /\
    (forall i th, nth_error (threads (length schedule)) i = Some th -> nth_error done i = Some true -> past_transfer th = true) /\
    (forall A, NoDup A -> (forall c x y a, In c calls -> transfer c = Some (x, y, a) -> In x A /\ In y A) -> sum_over f' A = sum_over f A) /\
    (k <= length schedule)%nat /\ (forall w, g w = g' w + total (paid w) (threads k)).
Proof. exact p_C115_conserved. Qed.
Print Assumptions C115_conserved.

(** Two transactions, killed when both have moved their amounts and one has paid: the crash can keep one of the transfers and no payment. *)
Example C115_ex_conserved : let tx1 := demo_tx 3 (repeat 1 64) in let tx2 := demo_tx 4 (repeat 1 64) in
  let '(s, ts) := tree_exec (concat (repeat [0; 1]%nat 7) ++ [1]%nat) (t_flush funded) [CSendTx tx1; CSendTx tx2] in
  map past_transfer ts = [true; true] /\
  match t_new (t_crash (svs 0 0 0 3 1 0) (sh_tree s)) with
  | Ok t' => (t_get_amount addrA t', t_get_amount addrB t', t_get_gas addrA t') | _ => (Panic, Panic, Panic) end = (Ok 999999997, Ok 3, Ok (10 ^ 18)).
Proof. vm_compute. split; reflexivity. Qed.

(** C115.  After a flush whose file writes have reached the disk, any number of calls (none of them a flush) in any schedule, killed between any two steps, whatever
   survives: the directory opens again at the flushed height, with every flushed block unchanged, the same last block, and every flushed transaction. *)
Theorem C115_flushed_survive : forall ok p n t calls schedule sv, reachable ok p n t -> few n ->
  exists t', t_new (t_crash sv (sh_tree (fst (tree_exec schedule (t_settle (t_flush t)) calls)))) = Ok t' /\
    mc_get_height (t_main t') = mc_get_height (t_main t) /\
    (forall i, i < mc_get_height (t_main t) -> mc_find_raw_by_height i (t_main t') = mc_find_raw_by_height i (t_main t) /\ mc_find_raw_by_height i (t_main t') <> None) /\
    mc_get_last_block (t_main t') = mc_get_last_block (t_main t) /\
    (forall h, mc_transaction_exists h (t_main t) = true -> mc_transaction_exists h (t_main t') = true).
Proof. exact p_C115_flushed_survive. Qed.
Print Assumptions C115_flushed_survive.

(** A block half added (written, not yet referenced) and a transaction stored, after a flush at height 1. *)
Example C115_ex_blocks : let b := emitted Debug fresh emit_good in
  let '(s, ts) := tree_exec [0; 0]%nat (t_settle (t_flush fresh)) [CAddBlock b] in
  ts = [TRef b] /\ map (fun k => match t_new (t_crash (svs k 0 0 3 0 0) (sh_tree s)) with
    | Ok t' => (mc_get_height (t_main t'), bytes_eqb (block_dump (last_of t')) (block_dump genesis), match mc_find_raw_by_height 1 (t_main t') with Some _ => true | None => false end)
    | _ => (0, false, false) end) [0; 1]%nat = [(1, true, false); (1, true, true)].
Proof. vm_compute. split; reflexivity. Qed.

