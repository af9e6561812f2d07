(** Properties C78-C81: outcome of emission, undefined behaviour, panics.
    Only theorem statements (closed by [exact]), examples showing that their
    premises are met, and the assumptions of each theorem. *)
From Coq Require Import Lia ZifyBool ZifyNat ZifyN.
From Verif Require Import Base Sha256 Merkle Tools Transaction Block Sled Chain Tree Spec Reach LedgerSpec LiveSpec Demo.
From Verif Require Import BaseFacts ToolsFacts MerkleFacts DiffFacts CodecFacts SledFacts ChainFacts TreeFacts LedgerFacts DerivFacts ValidateProps MainProps LedgerProps DerivProps.
From Verif Require Import LiveProps.

(** C78 *)
Theorem C78_emission_decision : forall p n t pow founder txs ts root,
  reachable no_raw_main p n t -> few n ->
  is_array 32 pow -> is_array 33 founder -> Forall (is_array 32) txs -> u64_ok ts ->
  merkle_root_of txs root ->
  exists prev, mc_get_last_block (t_main t) = Ok (Some prev) /\
  let h := mc_get_height (t_main t) in
  let prev_ts := bi_timestamp (get_info prev) in
  let valid := work (block_hash prev) (bi_difficulty (get_info prev)) root pow in
  let r := snd (t_emmit_new_main_block p pow founder txs ts t) in
  (~ valid -> r = Err ETreeWrongPow) /\
  (valid -> ~ time_ok p prev_ts ts -> r = Panic) /\
  (valid -> time_ok p prev_ts ts -> txs = [] -> h mod 1000000 <> 0 -> r = Err ETreeCreateMainChainBlock) /\
  (valid -> time_ok p prev_ts ts -> txs <> [] -> h mod 1000000 = 0 -> r = Err ETreeSummarizeWrongTxAmount) /\
  (valid -> time_ok p prev_ts ts -> (txs = [] <-> h mod 1000000 = 0) -> exists b, r = Ok b).
Proof. exact p_C78_emission_decision. Qed.
Print Assumptions C78_emission_decision.

Example C78_ex : reachable no_raw_main Debug 0 fresh /\
  snd (t_emmit_new_main_block Debug (repeat 3 32) addrA [txh] 1597925000 fresh) <> Err ETreeWrongPow /\
  snd (t_emmit_new_main_block Debug (repeat 1 32) addrA [txh] 1597925000 fresh) = Err ETreeWrongPow /\
  snd (t_emmit_new_main_block Debug (repeat 3 32) addrA [txh] 5 fresh) = Panic /\
  snd (t_emmit_new_main_block Debug (repeat 1 32) addrA [] 1597925000 fresh) = Err ETreeCreateMainChainBlock.
Proof.
  split; [apply reach_open; vm_compute; reflexivity|]. split; [vm_compute; discriminate|]. vm_compute. auto.
Qed.

(** C79 *)
Theorem C79_derivative_emission_decision : forall p n t pow founder ts,
  reachable emission_only p n t -> few n ->
  is_array 32 pow -> is_array 33 founder -> u64_ok ts ->
  exists c h d prev_ts, snd (t_get_derivative_chain founder t) = Ok c /\ deriv_predecessor t c h d prev_ts /\
  let valid := work h d ff32 pow in
  let r := snd (t_emmit_new_derivative_block p pow founder ts t) in
  (~ valid -> r = Err ETreeWrongPow) /\
  (valid -> ~ time_ok p prev_ts ts -> r = Panic) /\
  (valid -> time_ok p prev_ts ts -> exists b, r = Ok b).
Proof. exact p_C79_derivative_emission_decision. Qed.
Print Assumptions C79_derivative_emission_decision.

Example C79_ex : reachable emission_only Debug 1 (run Debug fresh [deriv_1]) /\
  (exists b, snd (t_emmit_new_derivative_block Debug (repeat 1 32) addrA 1597925000 fresh) = Ok b) /\
  (exists b, snd (t_emmit_new_derivative_block Debug (repeat 4 32) addrA 1597926000 (run Debug fresh [deriv_1])) = Ok b) /\
  snd (t_emmit_new_derivative_block Debug (repeat 2 32) addrA 1597926000 (run Debug fresh [deriv_1])) = Err ETreeWrongPow /\
  snd (t_emmit_new_derivative_block Debug (repeat 4 32) addrA 1597924999 (run Debug fresh [deriv_1])) = Panic.
Proof.
  split.
  - apply (reach_call emission_only Debug 0 fresh deriv_1); [apply reach_open; vm_compute; reflexivity| |split; exact I].
    repeat split; repeat constructor; reflexivity.
  - split; [eexists; vm_compute; reflexivity|]. split; [eexists; vm_compute; reflexivity|]. vm_compute. auto.
Qed.

(** C80, blocks made by emission only: no call, whatever its arguments (raw block additions
    included), reaches undefined behaviour, in any build profile. *)
Theorem C80_no_undefined_behaviour_partial : forall p n t o,
  reachable emission_only p n t -> few n -> op_wf o -> snd (step p t o) <> UB.
Proof. exact p_C80_no_undefined_behaviour_partial. Qed.
Print Assumptions C80_no_undefined_behaviour_partial.

(** C80, builds with overflow checks: no call of any history reaches undefined behaviour. *)
Theorem C80_checked_builds : forall ok n t o,
  reachable ok Debug n t -> few n -> op_wf o -> snd (step Debug t o) <> UB.
Proof. exact p_C80_checked_builds. Qed.
Print Assumptions C80_checked_builds.

(** C80 is false of the code in release builds: after [add_new_block] with such a block, an
    emission reads and writes far outside the difficulty array. *)
Theorem C80_release_refuted :
  exists t o, reachable any_op Release 1 t /\ op_wf o /\ snd (step Release t o) = UB.
Proof. exact p_C80_release_refuted. Qed.
Print Assumptions C80_release_refuted.

(** C80 has teeth: nothing in the Merkle module checks its indices.  On node arrays that are too short, reading the root,
    hashing a pair and padding a place are all out of bounds. *)
Theorem C80_unchecked : forall arr depth k,
  (arr = [] -> get_root (MkTree arr depth k) = UB) /\
  ((length arr <= k)%nat -> hash_pair arr k = UB /\ put_padding arr k 1 = UB).
Proof. exact p_C80_unchecked. Qed.
Print Assumptions C80_unchecked.

Example C80_ex : reachable emission_only Release 1 (run Release fresh [deriv_1]) /\
  (exists b, snd (step Release (run Release fresh [deriv_1]) emit_good) = Ok (RBlock b)).
Proof.
  split.
  - apply (reach_call emission_only Release 0 fresh deriv_1); [apply reach_open; vm_compute; reflexivity| |split; exact I].
    repeat split; repeat constructor; reflexivity.
  - eexists. vm_compute. reflexivity.
Qed.

(** C81 *)
Theorem C81_panics : forall p n t f g o,
  reachable emission_only p n t -> few n -> amounts t f -> gases t g -> op_wf o ->
  (forall tx, o = OSendTx tx -> N.of_nat (length (tx_dump tx)) < 2 ^ 63) ->
  (snd (step p t o) = Panic <-> panics p t f g o).
Proof. exact p_C81_panics. Qed.
Print Assumptions C81_panics.

Example C81_ex : reachable emission_only Debug 2 funded /\
  snd (step Debug funded (OSubAmount addrA 1000000001)) = Panic /\
  snd (step Debug funded (OSubAmount addrA 1000000000)) = Ok RUnit /\
  snd (step Debug funded (OSendTx (demo_tx 1000 (repeat 0 64)))) = Ok RUnit.
Proof.
  split; [|vm_compute; auto].
  apply (reach_call emission_only Debug 1 (run Debug fresh [OAddAmount addrA 1000000000]) (OAddGas addrA (10 ^ 18)));
    [apply (reach_call emission_only Debug 0 fresh (OAddAmount addrA 1000000000));
      [apply reach_open; vm_compute; reflexivity| |split; exact I]| |split; exact I];
    repeat split; repeat constructor; reflexivity.
Qed.

