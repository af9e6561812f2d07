(** Property C94: calls dropped at an await point.
    Only theorem statements (closed by [exact]), examples showing that their
    premises are met, and the assumptions of each theorem. *)
From Coq Require Import Lia ZifyBool ZifyNat ZifyN.
From Verif Require Import Base Sha256 Merkle Tools Transaction Block Sled Chain Tree Spec Reach QuietSpec Conc ConcTree ConcFlush FlushSpec ConcEmit Cancel CancelSpec Demo.
From Verif Require Import BaseFacts ToolsFacts MerkleFacts DiffFacts CodecFacts SledFacts ChainFacts TreeFacts LedgerFacts DerivFacts EmitFacts QuietProps.
From Verif Require Import CancelProps.

(** C94: a dropped call is as good as one never made. In every history, whatever calls are dropped and
    wherever, the others return what they return without the dropped ones, and at the end every question
    about the open tree has the same answer. *)
Theorem C94_invisible : forall p t es,
  Forall2 same_result (event_results p t es) (results p t (made es)) /\ same_answers (happened p t es) (run p t (made es)).
Proof. exact p_C94_invisible. Qed.
Print Assumptions C94_invisible.

(** C94: a dropped call can be made again: it returns what it would have returned. *)
Theorem C94_retry : forall p t o k,
  same_result (snd (step p (drop_at p t o k) o)) (snd (step p t o)) /\
  same_answers (fst (step p (drop_at p t o k) o)) (fst (step p t o)).
Proof. exact p_C94_retry. Qed.
Print Assumptions C94_retry.

(** C94: a completed flush makes up for every dropped call: close the tree after it, and the directory opens with the main
    chain and the balances of the calls that were not dropped. *)
Theorem C94_repaired : forall p n t es, reachable any_op p n t -> Forall event_wf es -> few (n + length es) ->
  mc_get_height (t_main (happened p t es)) <> 1 ->
  exists t', t_new (t_close (t_flush (happened p t es))) = Ok t' /\
    same_main (t_main t') (t_main (run p t (made es))) /\ same_balances t' (run p t (made es)).
Proof. exact p_C94_repaired. Qed.
Print Assumptions C94_repaired.

(** C94 is false of the code when the tree is closed without another flush: from every tree, a flush or the emission of a
    summarize block dropped between emptying the config file and writing the difficulty leaves a directory that cannot be opened any more. *)
Theorem C94_unopenable_refuted : forall p t o k,
  o = OFlush \/ o = OMainFlush \/ (exists w f txs ts i r, o = OEmitMain w f txs ts /\ snd (step p t o) = Ok (RBlock (SummBlock i r))) ->
  k = 1%nat \/ k = 2%nat -> t_new (t_close (drop_at p t o k)) = Err EChainInit.
Proof. exact p_C94_unopenable_refuted. Qed.
Print Assumptions C94_unopenable_refuted.

(** C94 is false of the code also with a completed flush in between, if the operation in flight is carried out late: from every tree,
    a flush (number 0) dropped while its file is being opened, a second flush that runs to its end, and then the file opened and emptied by the blocking
    thread of the first leave a directory that cannot be opened any more. *)
Theorem C94_late_refuted : forall t,
  let '(s, calls) := flush_exec [1; 1; 1; 1; 1; 1; 1; 0]%nat t [FFlush; FFlush] in
  nth_error calls 1 = Some FDone /\ t_new (t_close (sh_tree s)) = Err EChainInit.
Proof. exact p_C94_late_refuted. Qed.
Print Assumptions C94_late_refuted.

(** C94, for calls dropped after the config file was written: the tree can be closed, and opens with the same main chain and balances. *)
Theorem C94_closed_partial : forall p n t o k, reachable any_op p n t -> few n -> mc_get_height (t_main t) <> 1 ->
  o = OFlush \/ o = OMainFlush \/ (exists w f txs ts i r, o = OEmitMain w f txs ts /\ snd (step p t o) = Ok (RBlock (SummBlock i r))) ->
  (3 <= k < length (drop_points p t o))%nat ->
  exists t', t_new (t_close (drop_at p t o k)) = Ok t' /\ same_main (t_main t') (t_main t) /\ same_balances t' t.
Proof. exact p_C94_closed_partial. Qed.
Print Assumptions C94_closed_partial.

(** C94 is false of the code for derivative chains: the flush of an open chain dropped before the last part of its config file is
    written makes the chain unusable after the next restart, even when the tree is flushed completely before it is closed. *)
Theorem C94_derivative_refuted : forall p n t w c b k, reachable any_op p n t -> few n -> mc_get_height (t_main t) <> 1 -> mc_get_last_block (t_main t) = Ok (Some b) ->
  assoc_get w (t_derivs t) = Some c -> (1 <= k <= 3)%nat ->
  exists t', t_new (t_close (t_flush (drop_at p t (ODerivFlush w) k))) = Ok t' /\ snd (t_get_derivative_chain w t') = Err EChainInit.
Proof. exact p_C94_derivative_refuted. Qed.
Print Assumptions C94_derivative_refuted.

(* a history with two dropped flushes: its calls return, the directory opens after the completed flush and not without it *)
Example C94_ex : let es := [Made (OAddGas addrA 7); Dropped OFlush 2; Made emit_good; Dropped OMainFlush 1] in
  length (event_results Debug fresh es) = 2%nat /\ mc_get_height (t_main (happened Debug fresh es)) = 2 /\
  Forall event_wf es /\
  t_new (t_close (happened Debug fresh es)) = Err EChainInit /\
  exists t', t_new (t_close (t_flush (happened Debug fresh es))) = Ok t' /\ mc_get_height (t_main t') = 2.
Proof.
  cbv zeta. split; [vm_compute; reflexivity|]. split; [vm_compute; reflexivity|].
  split; [repeat split; repeat constructor; reflexivity|]. split; [vm_compute; reflexivity|]. eexists. split; [vm_compute; reflexivity|reflexivity].
Qed.
Example C94_closed_ex : let t := run Debug fresh [emit_good] in reachable any_op Debug 1 t /\ mc_get_height (t_main t) = 2 /\ length (drop_points Debug t OFlush) = 11%nat.
Proof.
  cbv zeta. split; [|split; vm_compute; reflexivity]. apply (reach_call any_op Debug 0 fresh emit_good); [apply reach_open; vm_compute; reflexivity| |exact I].
  repeat split; repeat constructor; reflexivity.
Qed.
(* an open derivative chain *)
Example C94_derivative_ex : let t := run Debug fresh [deriv_1; emit_good] in reachable any_op Debug 2 t /\ mc_get_height (t_main t) = 2 /\
  match assoc_get addrA (t_derivs t), mc_get_last_block (t_main t) with Some _, Ok (Some _) => True | _, _ => False end.
Proof.
  cbv zeta. split; [|split; vm_compute; auto].
  apply (reach_call any_op Debug 1 (run Debug fresh [deriv_1]) emit_good); [apply (reach_call any_op Debug 0 fresh deriv_1); [apply reach_open; vm_compute; reflexivity| |exact I]| |exact I];
    repeat split; repeat constructor; reflexivity.
Qed.

