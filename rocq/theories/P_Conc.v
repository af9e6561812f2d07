(** Threads on a shared tree.
    Only theorem statements (closed by [exact]), examples showing that their
    premises are met, and the assumptions of each theorem. *)
From Coq Require Import Lia ZifyBool ZifyNat ZifyN Permutation.
From Verif Require Import Base Sha256 Tools Transaction Block Sled Chain Tree Spec Reach LedgerSpec Conc ConcTree ConcSpec Demo.
From Verif Require Import BaseFacts ToolsFacts SledFacts ChainFacts TreeFacts LedgerFacts LedgerProps ConcFacts.
From Verif Require Import ConcProps.

(** C62. A call that nobody interrupts does, step by step, what the sequential model says; for every call and tree. *)
Theorem C62_alone_is_sequential : forall t c,
  tree_exec (repeat 0%nat 9) t [c] = let '(t', r) := call_run c t in (MkShared t' false, [TDone c r]).
Proof. exact p_C62_alone_is_sequential. Qed.
Print Assumptions C62_alone_is_sequential.

(** C62. Any number of concurrent ledger calls (transfers, additions, subtractions, settings and reads of amounts and gas) in any
   schedule end as if made one after the other, in the order of their single steps, each step lying between the start and the
   return of its call: same balances, and every call that has made its step has returned the result of that sequence. *)
Theorem C62_linearizable : forall t lcalls schedule, let calls := map CLedger lcalls in
  let order := firsts (length calls) schedule in
  let '(s, ts) := tree_exec schedule t calls in
  let '(t', results) := in_order calls order t in
  NoDup order /\ sh_tree s = t' /\ length ts = length calls /\
  forall i c, nth_error calls i = Some c ->
    (In i order -> exists r, In (i, r) results /\ nth_error ts i = Some (TDone c r)) /\
    (~ In i order -> nth_error ts i = Some (TStart c)).
Proof. exact p_C62_linearizable. Qed.
Print Assumptions C62_linearizable.

Example C62_ex : let calls := map CLedger [LSend addrA addrB 7; LGet addrB; LSub addrA (10 ^ 20); LSend addrB addrA 7] in
  snd (tree_exec [1; 3; 0; 0; 2]%nat funded calls) =
    [TDone (CLedger (LSend addrA addrB 7)) (Ok CRUnit); TDone (CLedger (LGet addrB)) (Ok (CRValue 0));
     TDone (CLedger (LSub addrA (10 ^ 20))) Panic; TDone (CLedger (LSend addrB addrA 7)) Panic] /\
  firsts 4 [1; 3; 0; 0; 2]%nat = [1; 3; 0; 2]%nat.
Proof. split; [vm_compute; reflexivity|reflexivity]. Qed.

(** C62 in terms of balances: in every schedule the amounts, the gas and every returned result are those of the plain
   arithmetic of the calls, taken in the order of their first steps. *)
Theorem C62_balances_and_results : forall ok p n t f g lcalls schedule, reachable ok p n t -> few n ->
  Forall lcall_wf lcalls -> amounts t f -> gases t g ->
  let '(s, ts) := tree_exec schedule t (map CLedger lcalls) in
  let order := firsts (length lcalls) schedule in
  let after k := fold_left lcall_after (picked lcalls (firstn k order)) (f, g) in
  amounts (sh_tree s) (fst (after (length order))) /\ gases (sh_tree s) (snd (after (length order))) /\
  forall k i c, nth_error order k = Some i -> nth_error lcalls i = Some c ->
    nth_error ts i = Some (TDone (CLedger c) (lcall_result (after k) c)).
Proof. exact p_C62_balances_and_results. Qed.
Print Assumptions C62_balances_and_results.

Example C62_balances_and_results_ex : let calls := [LAddGas addrB 5; LSubGas addrB 3; LSub addrA 4] in
  let s := fst (tree_exec [2; 0; 1]%nat funded (map CLedger calls)) in
  t_get_gas addrB (sh_tree s) = Ok 2 /\ t_get_amount addrA (sh_tree s) = (let! a := t_get_amount addrA funded in Ok (a - 4)).
Proof. split; vm_compute; reflexivity. Qed.

(** C64, what holds in every schedule of any number of [send_transaction] and [send_amount] calls, block additions and reads: balances stay
   256-bit numbers; the sum over any accounts containing all parties is unchanged; exactly the calls marked in [done] have moved their amount, among them
   every call that returned success and none that returned an error; gas is charged exactly for the transactions that returned
   success.
   Missing: a transfer whose charge then fails, see below. *)
Theorem C64_conserved_partial : forall ok p n t calls schedule, reachable ok p n t -> few n -> Forall keeps_funds calls ->
  let '(s, ts) := tree_exec schedule t calls in
  exists f g f' g', amounts t f /\ gases t g /\ amounts (sh_tree s) f' /\ gases (sh_tree s) g' /\
    (forall w, u256_ok (f' w) /\ u256_ok (g' w)) /\
    (forall A, NoDup A -> (forall c x y a, In c calls -> transfer c = Some (x, y, a) -> In x A /\ In y A) -> sum_over f' A = sum_over f A) /\
    (forall w, g w = g' w + total (paid w) ts) /\
    exists done, length done = length calls /\
      (forall w, f' w + total (sent w) (combine done calls) = f w + total (received w) (combine done calls)) /\
      (forall i c r, nth_error ts i = Some (TDone c r) -> transfer c <> None ->
         match r with Ok _ => nth_error done i = Some true | Err _ => nth_error done i = Some false | _ => True end).
Proof. exact p_C64_conserved_partial. Qed.
Print Assumptions C64_conserved_partial.

Example C64_ex : let tx1 := demo_tx 3 (repeat 1 64) in let tx2 := demo_tx 4 (repeat 1 64) in
  let '(s, ts) := tree_exec (concat (repeat [0; 1; 2]%nat 8)) funded [CSendTx tx1; CSendTx tx2; CLedger (LSend addrA addrB 5)] in
  ts = [TDone (CSendTx tx1) (Ok CRUnit); TDone (CSendTx tx2) (Ok CRUnit); TDone (CLedger (LSend addrA addrB 5)) (Ok CRUnit)] /\
  t_get_amount addrB (sh_tree s) = Ok 12 /\
  t_get_gas addrA (sh_tree s) = Ok (10 ^ 18 - (gas_for (N.of_nat (tx_get_dump_size tx1)) + gas_for (N.of_nat (tx_get_dump_size tx2)))).
Proof. vm_compute. repeat split; reflexivity. Qed.

(** C64 fails for the gas: gas is checked first and charged last.  Two transactions of an account with gas for one can both pass the check and both move their
   amounts; the second charge panics, and that transfer stays without gas having been paid. *)
Theorem C64_unpaid_transfer_refuted : exists t n tx1 tx2 schedule, reachable any_op Debug n t /\ few n /\ tx_wf tx1 /\ tx_wf tx2 /\
  tx_sender tx1 = addrA /\ tx_sender tx2 = addrA /\ tx_receiver tx1 = addrB /\ tx_receiver tx2 = addrB /\
  tx_amount tx1 = 3 /\ tx_amount tx2 = 4 /\ t_get_amount addrB t = Ok 0 /\
  let '(s, ts) := tree_exec schedule t [CSendTx tx1; CSendTx tx2] in
  ts = [TDone (CSendTx tx1) (Ok CRUnit); TDone (CSendTx tx2) Panic] /\
  t_get_amount addrB (sh_tree s) = Ok 7 /\
  t_get_gas addrA t = Ok (gas_for (N.of_nat (tx_get_dump_size tx1))) /\ t_get_gas addrA (sh_tree s) = Ok 0.
Proof. exact p_C64_unpaid_transfer_refuted. Qed.
Print Assumptions C64_unpaid_transfer_refuted.

(** C65. After any schedule of any calls (block additions, reads, transfers, ledger calls) the blocks whose addition returned success, in some order, have the consecutive
   heights from the initial one up to the current one, each is the block found at its height, earlier blocks are unchanged, and whenever nobody is inside
   [add_block] the chain is exactly what adding these blocks one after the other gives. *)
Theorem C65_contiguous : forall t calls schedule, mc_get_height (t_main t) + N.of_nat (length calls) < 2 ^ 256 ->
  let '(s, ts) := tree_exec schedule t calls in let m0 := t_main t in let m := t_main (sh_tree s) in
  exists accepted, Permutation accepted (accepted_blocks ts) /\
    mc_get_height m = mc_get_height m0 + N.of_nat (length accepted) /\
    (forall k b, nth_error accepted k = Some b ->
       bi_height (get_info b) = mc_get_height m0 + N.of_nat k /\
       mc_find_raw_by_height (mc_get_height m0 + N.of_nat k) m = Some (block_dump b)) /\
    (forall i, i < mc_get_height m0 -> mc_find_raw_by_height i m = mc_find_raw_by_height i m0) /\
    ((forall th, In th ts -> in_add_block th = false) -> same_chain (add_all accepted m0) m).
Proof. exact p_C65_contiguous. Qed.
Print Assumptions C65_contiguous.

Definition next_block (ts : N) : block := emitted Debug fresh (OEmitMain (repeat 3 32) addrA [txh] ts).
(** Two blocks for the same height: one is accepted. *)
Example C65_ex : let b1 := next_block 1597925000 in let b2 := next_block 1597926000 in
  mc_get_height (t_main fresh) = 1 /\ bi_height (get_info b1) = 1 /\ bi_height (get_info b2) = 1 /\
  snd (tree_exec (concat (repeat [0; 1]%nat 6)) fresh [CAddBlock b1; CAddBlock b2]) =
    [TDone (CAddBlock b1) (Ok CRUnit); TDone (CAddBlock b2) (Err EChainAddingBlock)].
Proof. vm_compute. repeat split; reflexivity. Qed.

(** C65. Whatever else is going on, [get_last_raw_block] returns the last block of some moment between its start and its return (a moment at which the lock is free). *)
Theorem C65_last_block_of_some_moment : forall s1 ts1 schedule i r,
  mc_get_height (t_main (sh_tree s1)) < 2 ^ 256 -> nth_error ts1 i = Some (TStart CLast) ->
  nth_error (snd (exec tree_step schedule (s1, ts1))) i = Some (TDone CLast r) ->
  exists before after, schedule = before ++ after /\
    let s := fst (exec tree_step before (s1, ts1)) in
    sh_locked s = false /\ r = snd (call_run CLast (sh_tree s)).
Proof. exact p_C65_last_block_of_some_moment. Qed.
Print Assumptions C65_last_block_of_some_moment.

Example C65_ex_last : let b1 := next_block 1597925000 in
  let st1 := (MkShared fresh false, map TStart [CAddBlock b1; CLast]) in
  map (fun schedule => snd (exec tree_step schedule st1)) [[1; 0; 0; 0; 0; 1; 1]; [0; 0; 0; 0; 1; 1; 1]; [0; 1; 0; 1; 0; 1]]%nat =
  [[TDone (CAddBlock b1) (Ok CRUnit); TDone CLast (Ok (CRBlock (Some (block_dump genesis))))];
   [TDone (CAddBlock b1) (Ok CRUnit); TDone CLast (Ok (CRBlock (Some (block_dump b1))))];
   [TBump b1; TStart CLast]].
Proof. vm_compute. reflexivity. Qed.

(** C75, what holds: whatever else is going on, [find_raw_by_height] for a height below that of the chain when the call starts returns what it would have returned
   then, and [get_last_raw_block] what it would have returned at some moment of the call (C65).
   Missing: the height being added, see below. *)
Theorem C75_settled_heights_partial : forall s1 ts1 schedule i h r,
  mc_get_height (t_main (sh_tree s1)) < 2 ^ 256 -> h < mc_get_height (t_main (sh_tree s1)) -> nth_error ts1 i = Some (TStart (CByHeight h)) ->
  nth_error (snd (exec tree_step schedule (s1, ts1))) i = Some (TDone (CByHeight h) r) ->
  r = snd (call_run (CByHeight h) (sh_tree s1)).
Proof. exact p_C75_settled_heights_partial. Qed.
Print Assumptions C75_settled_heights_partial.

(** C75 fails: [find_raw_by_height] can return a block that is still being added, and afterwards [find_raw_by_hash], started when that call has returned, does not find that block: no order
   of the calls explains both results, because in every tree where the block is found by height after its addition it is found by hash.  (First thread: by height; second: addition;
   third: by hash, starting after the first has returned.) *)
Theorem C75_block_seen_before_its_hash_refuted : exists t b first second,
  let h := bi_height (get_info b) in let hash := sha256 (block_dump b) in
  let calls := [CByHeight h; CAddBlock b; CByHash hash] in
  reachable any_op Debug 0 t /\ mc_find_raw_by_height h (t_main t) = None /\
  (let ts := snd (tree_exec first t calls) in
   nth_error ts 0 = Some (TDone (CByHeight h) (Ok (CRBlock (Some (block_dump b))))) /\ nth_error ts 2 = Some (TStart (CByHash hash))) /\
  nth_error (snd (tree_exec (first ++ second) t calls)) 2 = Some (TDone (CByHash hash) (Ok (CRBlock None))) /\
  (let t' := fst (call_run (CAddBlock b) t) in
   snd (call_run (CByHeight h) t') = Ok (CRBlock (Some (block_dump b))) /\ snd (call_run (CByHash hash) t') = Ok (CRBlock (Some (block_dump b)))).
Proof. exact p_C75_block_seen_before_its_hash_refuted. Qed.
Print Assumptions C75_block_seen_before_its_hash_refuted.

Example C75_ex : let b1 := next_block 1597925000 in
  snd (tree_exec [0; 1; 1; 0; 1; 1]%nat fresh [CByHeight 0; CAddBlock b1]) =
    [TDone (CByHeight 0) (Ok (CRBlock (Some (block_dump genesis)))); TDone (CAddBlock b1) (Ok CRUnit)] /\
  mc_get_height (t_main fresh) = 1.
Proof. vm_compute. split; reflexivity. Qed.

(** C76. No schedule can lead into a deadlock: from every point of every execution all calls can be brought to their end. *)
Theorem C76_no_deadlock : forall t calls schedule, exists rest,
  forall th, In th (snd (tree_exec (schedule ++ rest) t calls)) -> exists c r, th = TDone c r.
Proof. exact p_C76_no_deadlock. Qed.
Print Assumptions C76_no_deadlock.

(** A reader waiting for a writer. *)
Example C76_ex : let b1 := next_block 1597925000 in
  snd (tree_exec [0; 1; 1; 1]%nat fresh [CAddBlock b1; CLast]) = [TWrite b1; TStart CLast] /\
  snd (tree_exec ([0; 1; 1; 1] ++ [0; 0; 0; 1; 1; 1])%nat fresh [CAddBlock b1; CLast]) =
    [TDone (CAddBlock b1) (Ok CRUnit); TDone CLast (Ok (CRBlock (Some (block_dump b1))))].
Proof. vm_compute. split; reflexivity. Qed.

