(** Property C93: emission next to chain handles.
    Only theorem statements (closed by [exact]), examples showing that their
    premises are met, and the assumptions of each theorem. *)
From Coq Require Import Lia ZifyBool ZifyNat ZifyN.
From Verif Require Import Base Sha256 Merkle Tools Transaction Block Sled Chain Tree Spec Reach LedgerSpec ConcSpec Conc ConcTree ConcFlush ConcEmit EmitSpec Demo.
From Verif Require Import BaseFacts ToolsFacts MerkleFacts DiffFacts CodecFacts SledFacts ChainFacts TreeFacts LedgerFacts ConcFacts FlushProps MainProps EpochDemo EmitFacts.
From Verif Require Import ConcEmitProps.

(** C93.  An emission running alone, step by step, does what the sequential emission does. *)
Theorem C93_alone : forall p t pow founder txs ts,
  emit_exec p (repeat 0%nat 18) t [EEmission pow founder txs ts] =
    (let '(t', r) := t_emmit_new_main_block p pow founder txs ts t in (MkEs (MkShared t' false) false, [EDone r])).
Proof. exact p_C93_alone. Qed.
Print Assumptions C93_alone.

(** C93.  An emission that succeeds next to any calls on chain handles and to other emissions does so as if it were done
   at once: at some moment while it runs, with nobody inside [add_block], the sequential emission on the tree of that moment gives the same
   block; later the balances are those that the sequential emission leaves; every block up to the new one stays as the sequential emission leaves it;
   and the new block follows the one found below it. *)
Theorem C93_success : forall ok p n t calls schedule k pow founder txs ts b,
  reachable ok p n t -> few n -> Forall handle_or_emission calls ->
  nth_error calls k = Some (EEmission pow founder txs ts) ->
  state_of p schedule t calls k = Some (EDone (Ok b)) ->
  exists before during after, schedule = before ++ during ++ after /\
    let t0 := tree_after p before t calls in let t1 := tree_after p (before ++ during) t calls in let t2 := tree_after p schedule t calls in
    let '(te, r) := t_emmit_new_main_block p pow founder txs ts t0 in
    (exists i, state_of p before t calls k = Some (EGet pow founder txs ts i)) /\ sh_locked (es_sh (fst (emit_exec p before t calls))) = false /\
    r = Ok b /\ bi_height (get_info b) = mc_get_height (t_main t0) /\
    ledgers t1 = ledgers te /\ mc_get_height (t_main t1) = mc_get_height (t_main te) /\ mc_get_height (t_main t1) <= mc_get_height (t_main t2) /\
    (forall i, i <= bi_height (get_info b) -> mc_find_raw_by_height i (t_main t2) = mc_find_raw_by_height i (t_main te)) /\
    exists prev, mc_find_by_height (bi_height (get_info b) - 1) (t_main t2) = Ok (Some prev) /\ main_link p prev b.
Proof. exact p_C93_success. Qed.
Print Assumptions C93_success.

Example C93_success_ex :
  let calls := [EEmission (repeat 3 32) addrA [repeat 7 32] 1597924900; HChain FFlush; HChain (FCall (CAddBlock (filler 2))); HChain (FCall CLast)] in
  let schedule := [3; 1; 1; 0; 0; 1; 0; 2; 0; 1; 0; 0; 1; 0; 0; 0; 3; 3; 1; 1; 1]%nat in
  reachable any_op Debug 0 fresh /\ Forall handle_or_emission calls /\
  match state_of Debug schedule fresh calls 0, state_of Debug schedule fresh calls 2 with
  | Some (EDone (Ok b)), Some (HTh (FTh (TDone _ (Err _)))) => bi_height (get_info b) = 1
  | _, _ => False
  end.
Proof.
  split; [apply fresh_reachable|]. split.
  - repeat (constructor; try reflexivity); apply filler_wf; reflexivity.
  - vm_compute. reflexivity.
Qed.

(** C93.  An emission that is refused next to any calls on chain handles and to other emissions leaves the four balance databases alone,
   unless it was refused by [add_block] (or by the last possible height) after the balances had been rotated for a summarize block: then the root account has been refilled
   and the old balances replaced.  Missing from the full claim: that case. *)
Theorem C93_refused_partial : forall ok p n t calls schedule k pow founder txs ts r,
  reachable ok p n t -> few n -> Forall handle_or_emission calls ->
  nth_error calls k = Some (EEmission pow founder txs ts) ->
  state_of p schedule t calls k = Some (EDone r) -> (forall b, r <> Ok b) ->
  exists before during after, schedule = before ++ during ++ after /\
    state_of p before t calls k = Some (EStart pow founder txs ts) /\ state_of p (before ++ during) t calls k = Some (EDone r) /\
    let t0 := tree_after p before t calls in let t1 := tree_after p (before ++ during) t calls in
    ledgers t1 = ledgers t0 \/
    txs = [] /\ (r = Err EChainAddingBlock \/ r = Panic) /\
    (forall w, t_get_amount w t1 = if bytes_eqb w ROOT_PUBLIC_ADDRESS then Ok COINS_PER_CYCLE else t_get_amount w t0) /\
    (forall w, t_get_gas w t1 = t_get_gas w t0) /\ cur (t_old_summary t1) = cur (t_summary t0) /\ cur (t_old_gas t1) = cur (t_gas t0).
Proof. exact p_C93_refused_partial. Qed.
Print Assumptions C93_refused_partial.

Example C93_refused_ex :
  let calls := [EEmission (repeat 3 32) addrA [repeat 7 32] 1597924900; HChain (FCall (CAddBlock (filler 1)))] in
  let schedule := [0; 0; 0; 0; 1; 1; 1; 1; 0; 0]%nat in
  reachable any_op Debug 0 fresh /\ Forall handle_or_emission calls /\
  match state_of Debug schedule fresh calls 0 with Some (EDone (Err EChainAddingBlock)) => mc_get_height (t_main (tree_after Debug schedule fresh calls)) = 2 | _ => False end.
Proof.
  split; [apply fresh_reachable|]. split.
  - repeat (constructor; try reflexivity); apply filler_wf; reflexivity.
  - vm_compute. reflexivity.
Qed.

(** C93.  The chain next to any calls on handles and any emissions: blocks present at the start stay; every further block was added by a call
   (through a handle or by an emission) and is found at its height; no two calls added a block at the same height.  In particular a refused emission has added none. *)
Theorem C93_chain : forall ok p n t calls schedule,
  reachable ok p n t -> few n -> Forall handle_or_emission calls ->
  let t2 := tree_after p schedule t calls in
  (forall i, i < mc_get_height (t_main t) -> mc_find_raw_by_height i (t_main t2) = mc_find_raw_by_height i (t_main t)) /\
  (forall i, mc_get_height (t_main t) <= i < mc_get_height (t_main t2) ->
     exists k th b, state_of p schedule t calls k = Some th /\ added th = Some b /\ bi_height (get_info b) = i) /\
  (forall k th b, state_of p schedule t calls k = Some th -> added th = Some b ->
     mc_get_height (t_main t) <= bi_height (get_info b) < mc_get_height (t_main t2) /\
     mc_find_raw_by_height (bi_height (get_info b)) (t_main t2) = Some (block_dump b)) /\
  (forall k k' th th' b b', state_of p schedule t calls k = Some th -> state_of p schedule t calls k' = Some th' ->
     added th = Some b -> added th' = Some b' -> bi_height (get_info b) = bi_height (get_info b') -> k = k').
Proof. exact p_C93_chain. Qed.
Print Assumptions C93_chain.

(** C93.  Whenever an emission would make a summarize block, a block added through a handle at the wrong moment has it refused after
   the balances were rotated: the root account is refilled, the other balances stay, and there is no summarize block at that height. *)
Theorem C93_lost_epoch : forall p t pow founder ts i root b,
  snd (t_emmit_new_main_block p pow founder [] ts t) = Ok (SummBlock i root) -> bi_height (get_info b) = mc_get_height (t_main t) ->
  let '(st, ths) := emit_exec p (repeat 0%nat 4 ++ repeat 1%nat 4 ++ repeat 0%nat 11) t [EEmission pow founder [] ts; HChain (FCall (CAddBlock b))] in
  let t1 := sh_tree (es_sh st) in
  ths = [EDone (Err EChainAddingBlock); HTh (FTh (TDone (CAddBlock b) (Ok CRUnit)))] /\
  (forall w, t_get_amount w t1 = if bytes_eqb w ROOT_PUBLIC_ADDRESS then Ok COINS_PER_CYCLE else t_get_amount w t) /\
  mc_get_height (t_main t1) = mc_get_height (t_main t) + 1 /\
  mc_find_raw_by_height (mc_get_height (t_main t)) (t_main t1) = Some (block_dump b).
Proof. exact p_C93_lost_epoch. Qed.
Print Assumptions C93_lost_epoch.

(** C93.  A refused emission can change balances: a reachable tree, an emission and one block added through a handle. *)
Theorem C93_refused_refuted : forall p, exists t calls schedule pow founder ts,
  reachable main_kinds p (N.to_nat 1000000) t /\ Forall handle_or_emission calls /\ nth_error calls 0 = Some (EEmission pow founder [] ts) /\
  state_of p schedule t calls 0 = Some (EDone (Err EChainAddingBlock)) /\
  t_get_amount ROOT_PUBLIC_ADDRESS t = Ok 5 /\ t_get_amount ROOT_PUBLIC_ADDRESS (tree_after p schedule t calls) = Ok COINS_PER_CYCLE.
Proof. exact p_C93_refused_refuted. Qed.
Print Assumptions C93_refused_refuted.

