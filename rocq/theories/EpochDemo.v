(** An epoch boundary is reachable: a history of 999999 raw block additions
    followed by an emission that makes a summarize block. *)
From Coq Require Import Lia ZifyBool ZifyNat ZifyN.
From Verif Require Import Base Sha256 Merkle Tools Transaction Block Sled Chain Tree Spec Reach Demo.
From Verif Require Import BaseFacts ToolsFacts MerkleFacts DiffFacts CodecFacts SledFacts ChainFacts TreeFacts ValidateProps MainProps.

Definition filler (k : N) : block :=
  TxBlock 0 (repeat 0 32) (MkInfo 1597924800 (repeat 0 32) (repeat 0 32) k BEGINNING_DIFFICULTY (repeat 0 33)) [].

Lemma filler_wf k : k < 2 ^ 256 -> block_wf (filler k).
Proof.
  intros H. repeat split; try reflexivity; try (repeat constructor; reflexivity). exact H.
Qed.

Lemma filled p (k : N) : k < 2 ^ 256 - 2 -> exists t L,
  reachable main_kinds p (N.to_nat k) t /\ tree_inv t L /\ N.of_nat (length L) = k + 1 /\
  (0 < k -> last L genesis = filler k) /\
  t_summary t = t_summary fresh /\ t_gas t = t_gas fresh /\ t_derivs t = [] /\ t_closed t = [].
Proof.
  induction k as [|k IH] using N.peano_ind; intros Hk.
  - exists fresh, [genesis]. split; [apply fresh_reachable|]. split; [apply fresh_inv|].
    split; [reflexivity|]. split; [lia|]. vm_compute. auto.
  - destruct IH as (t & L & Hr & HL & Hlen & _ & Hs & Hg & Hd & Hc); [lia|].
    pose proof (mi_height _ _ (ti_main _ _ HL)) as Hh.
    assert (Hwf : block_wf (filler (N.succ k))) by (apply filler_wf; lia).
    pose proof (mc_add_block_right (filler (N.succ k)) (t_main t)) as Ea.
    cbn [filler get_info bi_height] in Ea. specialize (Ea ltac:(lia) ltac:(lia)).
    exists (fst (step p t (OAddNewBlock (filler (N.succ k)) []))), (L ++ [filler (N.succ k)]).
    split; [rewrite Nnat.N2Nat.inj_succ; apply reach_call; [exact Hr|split; [exact Hwf|constructor]|exact I]|].
    cbn [step ret_unit fst]. unfold t_add_new_block. rewrite Ea.
    pose proof (tree_inv_append t L (filler (N.succ k)) HL Hwf) as Hap.
    split; [apply Hap; cbn [filler get_info bi_height]; lia|]. split; [rewrite app_length; cbn [length]; lia|].
    split; [intros _; apply last_last|]. auto.
Qed.

(** Emission on a chain of a million blocks, the last of them [filler 999999]. *)
Lemma epoch_emits p t L : tree_inv t L -> N.of_nat (length L) = 1000000 -> last L genesis = filler 999999 ->
  snd (t_emmit_new_main_block p (repeat 3 32) addrA [] 1597924900 t) =
  Ok (SummBlock (MkInfo 1597924900 (repeat 3 32) (block_hash (filler 999999)) 1000000
    (match recalculate_difficulty p 1597924800 1597924900 BEGINNING_DIFFICULTY with Ok d => d | _ => [] end) addrA)
    (match t_summarize t with Ok r => r | _ => [] end)).
Proof.
  intros HL Hlen Hl. pose proof (mi_height _ _ (ti_main _ _ HL)) as Hh.
  destruct (tree_last t L HL) as [[_ E]|[(i & Hi) _]]; [rewrite Hlen; reflexivity| |rewrite Hl in Hi; discriminate].
  rewrite Hl in E. unfold t_emmit_new_main_block. rewrite E. cbn [bind unwrap_opt].
  replace (check_pow _ _ _ _) with (Ok true) by (vm_compute; reflexivity). cbn [bind negb filler get_info bi_timestamp bi_difficulty bi_height].
  destruct (recalculate_difficulty p _ _ _) as [d|e| |] eqn:Ed; try (destruct p; vm_compute in Ed; discriminate Ed). cbn [bind].
  destruct (recalculate_fee d) as [fee|e| |] eqn:Ef; try (destruct p; vm_compute in Ed; injection Ed as <-; vm_compute in Ef; discriminate Ef). cbn [bind].
  change (u256_add 999999 1) with (@Ok N 1000000). cbn [bind bi_height].
  change (1000000 mod BLOCKS_PER_EPOCH =? 0) with true. cbv iota.
  rewrite summarize_ok. set (root := mroot _).
  change (t_set_amount ROOT_PUBLIC_ADDRESS COINS_PER_CYCLE (t_rotate_dbs t)) with (rotated t, @Ok unit tt).
  cbv beta zeta iota. rewrite mc_add_block_right; [reflexivity| |].
  - exact (eq_sym (eq_trans Hh Hlen)).
  - assert (H : mc_height (t_main t) + 1 < 2 ^ 256) by (rewrite Hh, Hlen; reflexivity). exact H.
Qed.

(*@T C36 is not vacuous on the summarize side: an epoch boundary is reachable by calls and
    an emission there makes a summarize block. *)
Lemma p_C36_epoch_reached : forall p, exists t pow founder ts i root,
  reachable main_kinds p (N.to_nat 999999) t /\ is_array 32 pow /\ is_array 33 founder /\ u64_ok ts /\
  mc_get_height (t_main t) = 1000000 /\
  snd (t_emmit_new_main_block p pow founder [] ts t) = Ok (SummBlock i root) /\ bi_height i = 1000000.
Proof.
  intros p. destruct (filled p 999999) as (t & L & Hr & HL & Hlen & Hl & Hs & Hg & Hd & Hc); [reflexivity|].
  exists t, (repeat 3 32), addrA, 1597924900.
  exists (MkInfo 1597924900 (repeat 3 32) (block_hash (filler 999999)) 1000000
    (match recalculate_difficulty p 1597924800 1597924900 BEGINNING_DIFFICULTY with Ok d => d | _ => [] end) addrA).
  exists (match t_summarize t with Ok r => r | _ => [] end).
  split; [exact Hr|]. split; [split; [reflexivity|repeat constructor; reflexivity]|].
  split; [split; [reflexivity|repeat constructor; reflexivity]|]. split; [reflexivity|].
  pose proof (mi_height _ _ (ti_main _ _ HL)) as Hh. split; [unfold mc_get_height; rewrite Hh, Hlen; reflexivity|].
  split; [|reflexivity]. apply (epoch_emits p t L); [exact HL|exact Hlen|apply Hl; reflexivity].
Qed.
