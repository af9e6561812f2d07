(** C112: checked and unchecked builds. *)
From Coq Require Import Lia ZifyBool ZifyNat ZifyN.
From Verif Require Import Base Sha256 Merkle Tools Transaction Block Sled Chain Tree Spec Reach LedgerSpec NodeSpec ProfileSpec Demo.
From Verif Require Import BaseFacts ToolsFacts MerkleFacts DiffFacts CodecFacts SledFacts ChainFacts TreeFacts.

Local Strategy 1000 [sha256 block_dump tx_dump mroot build_tree block_hash to_be root_of].

Lemma recalc_profiles a b d : recalculate_difficulty Debug a b d = Panic \/ recalculate_difficulty Debug a b d = recalculate_difficulty Release a b d.
Proof.
  rewrite !recalc_retarget. unfold u64_sub. destruct (a <=? b); cbn [bind]; [|left; reflexivity].
  unfold retarget. destruct (b - a ?= 600); [right; reflexivity..|].
  destruct (index_unchecked d (first_nonzero 0 d)) as [v|e| |]; cbn [bind]; [|right; reflexivity..].
  destruct (_ && _)%bool; [right; reflexivity|]. destruct (v =? 255); [|right; reflexivity].
  destruct (first_nonzero 0 d); [left; reflexivity|right; reflexivity].
Qed.

Lemma emit_main_profiles pow founder txs ts t :
  snd (t_emmit_new_main_block Debug pow founder txs ts t) = Panic \/
  t_emmit_new_main_block Debug pow founder txs ts t = t_emmit_new_main_block Release pow founder txs ts t.
Proof.
  unfold t_emmit_new_main_block. destruct (mc_get_last_block (t_main t)) as [l|e| |]; cbn [bind]; [|right; reflexivity..].
  destruct (unwrap_opt l) as [b|e| |]; cbn [bind]; [|right; reflexivity..].
  destruct (check_pow _ _ _ _) as [ok|e| |]; cbn [bind]; [|right; reflexivity..]. destruct (negb ok); [right; reflexivity|].
  destruct (recalc_profiles (bi_timestamp (get_info b)) ts (bi_difficulty (get_info b))) as [-> | ->]; [left; reflexivity|right; reflexivity].
Qed.
Lemma emit_deriv_profiles pow founder ts t :
  snd (t_emmit_new_derivative_block Debug pow founder ts t) = Panic \/
  t_emmit_new_derivative_block Debug pow founder ts t = t_emmit_new_derivative_block Release pow founder ts t.
Proof.
  unfold t_emmit_new_derivative_block. destruct (t_get_derivative_chain founder t) as [t1 rc]. destruct rc as [dc|e| |]; [|right; reflexivity..].
  destruct (dc_get_last_block dc) as [l|e| |]; cbn [bind]; [|right; reflexivity..].
  match goal with |- context [bind ?m _] => destruct m as [[[[h d] a] ht]|e| |] end; cbn [bind]; [|right; reflexivity..].
  destruct (check_pow _ _ _ _) as [ok|e| |]; cbn [bind]; [|right; reflexivity..]. destruct (negb ok); [right; reflexivity|].
  destruct (recalc_profiles a ts d) as [-> | ->]; [left; reflexivity|right; reflexivity].
Qed.

(*@T C112: on any tree a call has the same effect and the same result in both builds, unless it is an emission that panics in
    the checked build. *)
Lemma p_C112_call_partial : forall t o,
  step Debug t o = step Release t o \/ (emission o = true /\ snd (step Debug t o) = Panic).
Proof.
  intros t o. destruct o; try (left; reflexivity); cbn [step ret_block].
  - destruct (emit_main_profiles pow founder txs ts t) as [E|E]; [right|left; rewrite E; reflexivity].
    split; [reflexivity|]. unfold ret_block. cbn [snd]. rewrite E. reflexivity.
  - destruct (emit_deriv_profiles pow founder ts t) as [E|E]; [right|left; rewrite E; reflexivity].
    split; [reflexivity|]. unfold ret_block. cbn [snd]. rewrite E. reflexivity.
Qed.

Lemma shut_profiles t : shut_down Debug t = shut_down Release t.
Proof.
  unfold shut_down. f_equal.
  unfold run. rewrite !fold_left_app. cbn [fold_left step fst]. f_equal. generalize (t_derivs t) as l. intros l. revert t.
  induction l as [|[w c] l IH]; intros t; [reflexivity|]. cbn [map fold_left fst]. exact (IH _).
Qed.

(*@T C112: a history of calls and careful restarts in which no emission panics in the checked build goes exactly the same way in
    the unchecked build. *)
Lemma p_C112_history_partial : forall evs t t' rs, code_run Debug t evs = Some (t', rs) -> no_emission_panics (calls evs) rs ->
  code_run Release t evs = Some (t', rs).
Proof.
  induction evs as [|[o|] evs IH]; intros t t' rs E Hn; [exact E| |].
  - cbn [code_run] in *. destruct (p_C112_call_partial t o) as [S|[S1 S2]].
    + rewrite <- S. destruct (step Debug t o) as [t1 r]. destruct (code_run Debug t1 evs) as [[t2 l]|] eqn:E1; [|discriminate].
      injection E as <- <-. inversion Hn; subst. rewrite (IH t1 t2 l E1) by assumption. reflexivity.
    + exfalso. destruct (step Debug t o) as [t1 r]. cbn [snd] in S2. subst r. destruct (code_run Debug t1 evs) as [[t2 l]|]; [|discriminate].
      injection E as <- <-. inversion Hn as [|? ? ? ? Hx]; subst. apply Hx; [exact S1|reflexivity].
  - cbn [code_run] in *. rewrite <- shut_profiles. destruct (t_new (shut_down Debug t)) as [t1|e| |]; try discriminate. apply IH; assumption.
Qed.

(*@T C112: validation gives the same verdict in both builds, unless the checked build panics. *)
Lemma p_C112_validate_partial : forall b prev, validate Debug b prev = Panic \/ validate Debug b prev = validate Release b prev.
Proof.
  intros b [prev|]; [|right; reflexivity]. unfold validate. destruct (negb _); [right; reflexivity|].
  destruct (validate_merkle b) as [m|e| |]; cbn [bind]; [|right; reflexivity..]. destruct (negb m); [right; reflexivity|].
  destruct (recalc_profiles (bi_timestamp (get_info prev)) (bi_timestamp (get_info b)) (bi_difficulty (get_info prev))) as [-> | ->];
    [left; reflexivity|right; reflexivity].
Qed.

(*@T C112: but the builds differ.  With a clock that went back the checked build panics where the unchecked build makes a block,
    takes the wrapped difference for a long time without blocks and eases the work ... *)
Lemma p_C112_refuted : exists t o b, t_new disk_empty = Ok t /\ op_wf o /\ snd (step Debug t o) = Panic /\ snd (step Release t o) = Ok (RBlock b) /\
  bi_timestamp (get_info b) < bi_timestamp (get_info (last_of t)).
Proof.
  exists fresh, (OEmitMain (repeat 3 32) addrA [txh] 5), (emitted Release fresh (OEmitMain (repeat 3 32) addrA [txh] 5)).
  split; [vm_compute; reflexivity|]. split; [repeat split; try reflexivity; repeat constructor; reflexivity|].
  split; [vm_compute; reflexivity|]. split; vm_compute; reflexivity.
Qed.
(*@T ... and a checked node panics on validating a block that an unchecked node made and finds valid. *)
Lemma p_C112_validate_refuted : exists t o b, t_new disk_empty = Ok t /\ op_wf o /\ snd (step Release t o) = Ok (RBlock b) /\
  validate Release b (Some (last_of t)) = Ok true /\ validate Debug b (Some (last_of t)) = Panic.
Proof.
  exists fresh, (OEmitMain (repeat 3 32) addrA [txh] 5), (emitted Release fresh (OEmitMain (repeat 3 32) addrA [txh] 5)).
  split; [vm_compute; reflexivity|]. split; [repeat split; try reflexivity; repeat constructor; reflexivity|].
  split; [vm_compute; reflexivity|]. split; vm_compute; reflexivity.
Qed.
(*@E
Example C112_ex : let evs := [Call (OAddAmount addrA 7); Call (OSubAmount addrA 9); Restart; Call emit_good; Call emit_bad; Call deriv_2] in
  exists t' rs, code_run Debug fresh evs = Some (t', rs) /\ no_emission_panics (calls evs) rs /\ code_run Release fresh evs = Some (t', rs) /\
  map (fun r => match r with Ok (RBlock _) => 2 | Ok _ => 1 | Err _ => 4 | Panic => 5 | UB => 6 end) rs = [1; 5; 2; 4; 2].
Proof.
  cbv zeta. do 2 eexists. split; [vm_compute; reflexivity|]. split; [|split; [vm_compute; reflexivity|vm_compute; reflexivity]].
  repeat (apply Forall2_cons; [vm_compute; discriminate|]). constructor.
Qed.
@*)
