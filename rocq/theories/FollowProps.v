(** A node that receives the blocks of another node. *)
From Coq Require Import Lia ZifyBool ZifyNat ZifyN.
From Verif Require Import Base Sha256 Merkle Tools Transaction Block Sled Chain Tree Spec Reach Demo FollowSpec.
From Verif Require Import BaseFacts ToolsFacts MerkleFacts DiffFacts CodecFacts SledFacts ChainFacts TreeFacts ValidateProps MainProps LedgerFacts EpochDemo.

Local Strategy 1000 [sha256 mroot block_dump t_emmit_new_main_block].

Lemma dump_list t L i : tree_inv t L -> N.of_nat (length L) < 2 ^ 256 -> dump_at i t = option_map block_dump (nthN L i).
Proof. intros H Hl. unfold dump_at. apply main_find_raw; [apply H|exact Hl]. Qed.
Lemma height_list t L : tree_inv t L -> height t = N.of_nat (length L).
Proof. intros H. apply (mi_height _ _ (ti_main _ _ H)). Qed.

Lemma same_dumps L M : Forall block_wf L -> Forall block_wf M -> (length L <= length M)%nat ->
  (forall i, i < N.of_nat (length L) -> option_map block_dump (nthN L i) = option_map block_dump (nthN M i)) -> exists K, M = L ++ K.
Proof.
  revert M. induction L as [|x L IH]; intros M HL HM Hl H; [exists M; reflexivity|]. destruct M as [|y M]; [cbn in Hl; lia|].
  inversion HL as [|? ? Hx HL']; inversion HM as [|? ? Hy HM']; subst.
  assert (x = y). { specialize (H 0 ltac:(cbn; lia)). unfold nthN in H. cbn in H. injection H as H. apply block_dump_inj; assumption. } subst y.
  destruct (IH M HL' HM' ltac:(cbn in Hl; lia)) as (K & ->); [|exists K; reflexivity].
  intros i Hi. specialize (H (N.succ i) ltac:(cbn; lia)). unfold nthN in H |- *. rewrite Nnat.N2Nat.inj_succ in H. exact H.
Qed.
Lemma behind_list tB LB tA LA : tree_inv tB LB -> tree_inv tA LA -> N.of_nat (length LB) < 2 ^ 256 -> N.of_nat (length LA) < 2 ^ 256 ->
  (behind tB tA <-> exists K, LA = LB ++ K).
Proof.
  intros HB HA Hb Ha. unfold behind. rewrite (height_list _ _ HB), (height_list _ _ HA). split.
  - intros [Hh Hd]. apply same_dumps; [apply HB|apply HA|lia|]. intros i Hi. rewrite <- (dump_list _ _ _ HB Hb), <- (dump_list _ _ _ HA Ha). apply Hd, Hi.
  - intros (K & ->). split; [rewrite app_length; lia|]. intros i Hi. rewrite (dump_list _ _ _ HB Hb), (dump_list _ _ _ HA Ha), nthN_app1 by exact Hi. reflexivity.
Qed.
Lemma level_list tB LB tA LA : tree_inv tB LB -> tree_inv tA LA -> N.of_nat (length LB) < 2 ^ 256 -> N.of_nat (length LA) < 2 ^ 256 ->
  (level tB tA <-> LB = LA).
Proof.
  intros HB HA Hb Ha. split.
  - intros [Hh Hd]. assert (W : behind tB tA) by (split; [lia|intros; apply Hd]). apply (behind_list tB LB tA LA HB HA Hb Ha) in W as (K & ->).
    rewrite (height_list _ _ HB), (height_list _ _ HA), app_length in Hh. destruct K; [rewrite app_nil_r; reflexivity|cbn in Hh; lia].
  - intros ->. split; [rewrite (height_list _ _ HB), (height_list _ _ HA); reflexivity|]. intros i. rewrite (dump_list _ _ _ HB Hb), (dump_list _ _ _ HA Ha). reflexivity.
Qed.

Lemma with_main_id t : with_main t (t_main t) = t. Proof. destruct t; reflexivity. Qed.

Lemma readable_des b : readable b -> deserialize_main_chain_block (block_dump b) = Ok b.
Proof. intros [W H]. destruct b as [fee root i txs|i|i root]; [apply deserialize_tx; assumption|contradiction|apply deserialize_summ, W]. Qed.

(** one dump of the chain [LA] *)
Lemma receive_one tA LA tB LB K i b : tree_inv tA LA -> tree_inv tB LB -> LA = LB ++ K -> N.of_nat (length LA) < 2 ^ 256 - 1 -> nthN LA i = Some b ->
  let r := receive (block_dump b) tB in
  (snd r = Ok tt /\ i = height tB /\ exists K', K = b :: K' /\ tree_inv (fst r) (LB ++ [b]) /\ (forall p, fst r = fst (step p tB (OAddNewBlock b [])))) \/
  (fst r = tB /\ exists e, snd r = Err e /\ ((e = EChainAddingBlock /\ i <> height tB) \/ exists x, b = DerivBlock x)).
Proof.
  intros HA HB E Hl Hi r. assert (Hlb : (length LB <= length LA)%nat) by (rewrite E, app_length; lia).
  pose proof (mi_heights _ _ (ti_main _ _ HA) _ _ Hi) as Hh. pose proof (height_list _ _ HB) as HhB.
  assert (Hwf : block_wf b) by (pose proof (ti_wf _ _ HA) as W; rewrite Forall_forall in W; apply W; eapply nthN_in, Hi).
  destruct (tree_readable tA LA i b HA ltac:(lia) Hi) as [Hr|(x & Hx)].
  - apply readable_des in Hr. assert (Er : r = t_add_new_block b [] tB) by (unfold r, receive; rewrite Hr; reflexivity).
    unfold t_add_new_block in Er. destruct (N.eq_dec i (height tB)) as [Ei|Ei].
    + left. rewrite mc_add_block_right in Er; [|unfold height, mc_get_height in *; lia|unfold height, mc_get_height in *; lia].
      rewrite Er. split; [reflexivity|]. split; [exact Ei|]. destruct K as [|k K].
      * exfalso. rewrite E, app_nil_r in Hi. apply nthN_some in Hi. lia.
      * exists K. rewrite E, Ei, HhB in Hi. unfold nthN in Hi. rewrite Nnat.Nat2N.id, nth_error_app2, Nat.sub_diag in Hi by lia. cbn in Hi. injection Hi as ->.
        split; [reflexivity|]. split; [cbn [fst mc_add_transactions fold_left]; apply tree_inv_append; [exact HB|exact Hwf|unfold height, mc_get_height in *; lia|unfold height, mc_get_height in *; lia]|].
        intros p. cbn [step]. unfold ret_unit, t_add_new_block. rewrite mc_add_block_right; [reflexivity|unfold height, mc_get_height in *; lia|unfold height, mc_get_height in *; lia].
    + right. rewrite mc_add_block_wrong in Er by (unfold height, mc_get_height in *; lia). rewrite with_main_id in Er. rewrite Er. split; [reflexivity|].
      exists EChainAddingBlock. split; [reflexivity|]. left. split; [reflexivity|exact Ei].
  - right. subst b. unfold r, receive. rewrite deserialize_deriv. split; [reflexivity|]. exists EWrongHeader. split; [reflexivity|]. right. exists x. reflexivity.
Qed.

Lemma weaken ok p n t : reachable ok p n t -> reachable any_op p n t.
Proof. intros H. induction H as [t E|n t o H IH W O|n t t' H IH E]; [apply reach_open, E|apply reach_call; [exact IH|exact W|exact I]|eapply reach_reopen; eassumption]. Qed.

Lemma receive_list p tA LA ds : tree_inv tA LA -> N.of_nat (length LA) < 2 ^ 256 - 1 -> Forall (fun d => exists i, dump_at i tA = Some d) ds ->
  forall n tB LB K, tree_inv tB LB -> LA = LB ++ K -> reachable any_op p n tB ->
  exists M K', K = M ++ K' /\ tree_inv (receive_all ds tB) (LB ++ M) /\ reachable any_op p (n + length M) (receive_all ds tB) /\
    t_summary (receive_all ds tB) = t_summary tB /\ t_gas (receive_all ds tB) = t_gas tB.
Proof.
  intros HA Hl Hd. induction Hd as [|d ds (i & Hi) Hd IH]; intros n tB LB K HB E Hr.
  - exists [], K. rewrite app_nil_r, Nat.add_0_r. cbn. auto.
  - rewrite (dump_list _ _ _ HA ltac:(lia)) in Hi. destruct (nthN LA i) as [b|] eqn:Eb; [|discriminate]. cbn [option_map] in Hi. injection Hi as <-.
    change (receive_all (block_dump b :: ds) tB) with (receive_all ds (fst (receive (block_dump b) tB))).
    destruct (receive_one tA LA tB LB K i b HA HB E Hl Eb) as [(_ & _ & K' & -> & HB' & Hs)|(-> & _)].
    + assert (Hr' : reachable any_op p (S n) (fst (receive (block_dump b) tB))).
      { rewrite (Hs p). apply reach_call; [exact Hr| |exact I]. split; [|constructor]. pose proof (ti_wf _ _ HB') as W. rewrite Forall_forall in W. apply W, in_or_app. right. now left. }
      destruct (IH (S n) _ (LB ++ [b]) K' HB' ltac:(rewrite E, <- app_assoc; reflexivity) Hr') as (M & K'' & -> & A1 & A2 & A3 & A4).
      exists (b :: M), K''. split; [reflexivity|]. split; [rewrite <- app_assoc in A1; exact A1|]. split; [replace (n + length (b :: M))%nat with (S n + length M)%nat by (cbn; lia); exact A2|].
      assert (Q : t_summary (fst (receive (block_dump b) tB)) = t_summary tB /\ t_gas (fst (receive (block_dump b) tB)) = t_gas tB).
      { rewrite (Hs p). cbn [step]. unfold ret_unit, t_add_new_block. destruct (mc_add_block b (t_main tB)) as [m [u|e| |]]; split; reflexivity. }
      destruct Q as [Q1 Q2]. split; congruence.
    + exact (IH n tB LB K HB E Hr).
Qed.

(*@T C105, blocks received in any order: a node whose chain is a beginning of [tA]'s and which is sent dumps of [tA]'s blocks, in any order and any number of times, still has a beginning of [tA]'s chain; each dump is added when it is the next one and refused otherwise, and the balances do not change. *)
Lemma p_C105_any_order_partial : forall ok p n tA q m tB ds, reachable ok p n tA -> few n -> reachable any_op q m tB -> few m ->
  behind tB tA -> Forall (fun d => exists i, dump_at i tA = Some d) ds ->
  behind (receive_all ds tB) tA /\ behind tB (receive_all ds tB) /\ same_ledgers (receive_all ds tB) tB /\
  (exists k, N.of_nat k = height (receive_all ds tB) - height tB /\ reachable any_op q (m + k) (receive_all ds tB)).
Proof.
  intros ok p n tA q m tB ds HrA Hn HrB Hm Hb Hd. destruct (reachable_inv _ _ _ _ HrA Hn) as (LA & HA & HlA). destruct (reachable_inv _ _ _ _ HrB Hm) as (LB & HB & HlB). unfold few in Hn, Hm.
  apply (behind_list tB LB tA LA HB HA ltac:(lia) ltac:(lia)) in Hb as (K & E).
  destruct (receive_list q tA LA ds HA ltac:(lia) Hd m tB LB K HB E HrB) as (M & K' & -> & A1 & A2 & A3 & A4).
  assert (HlM : N.of_nat (length (LB ++ M)) < 2 ^ 256) by (rewrite E in HlA; rewrite !app_length in *; lia).
  split; [apply (behind_list _ (LB ++ M) tA LA A1 HA HlM ltac:(lia)); exists K'; rewrite <- app_assoc; exact E|].
  split; [apply (behind_list tB LB _ (LB ++ M) HB A1 ltac:(lia) HlM); exists M; reflexivity|].
  split; [intros w; unfold t_get_amount, t_get_gas; rewrite A3, A4; split; reflexivity|].
  exists (length M). split; [rewrite (height_list _ _ A1), (height_list _ _ HB), app_length; lia|exact A2].
Qed.
(*@E
Example C105_any_order_ex : let tA := fst (step Debug fresh emit_good) in let d := block_dump (emitted Debug fresh emit_good) in let g := block_dump (last_of fresh) in
  behind fresh tA /\ dump_at 1 tA = Some d /\ dump_at 0 tA = Some g /\ snd (receive g fresh) = Err EChainAddingBlock /\ snd (receive d fresh) = Ok tt /\
  height (receive_all [d; g; d] fresh) = 2.
Proof. cbv zeta. split; [split; [vm_compute; discriminate|]; intros i Hi; change (height fresh) with 1 in Hi; replace i with 0 by lia; vm_compute; reflexivity|]. vm_compute. repeat split. Qed.
@*)

Lemma kinds p n t : reachable main_kinds p n t -> few n -> exists L, tree_inv t L /\ (length L <= n + 1)%nat /\ Forall (fun b => match b with DerivBlock _ => False | _ => True end) L.
Proof.
  intros Hr Hn. unfold few in Hn. revert Hn. induction Hr as [t E|n t o Hr IH Hwf Hok|n t t' Hr IH E]; intros Hn.
  - exists [genesis]. split; [apply open_main, E|]. split; [cbn; lia|]. repeat constructor.
  - destruct IH as (L & HL & Hlen & Hk); [lia|]. destruct (step_main p t o L HL Hwf) as (L' & HL' & Hg); [lia|].
    exists L'. split; [exact HL'|]. destruct Hg as [->|(b & -> & Hb)]; [split; [lia|exact Hk]|].
    split; [rewrite app_length; cbn; lia|]. apply Forall_app. split; [exact Hk|]. constructor; [|constructor].
    destruct Hb as [(txs & ->)|(pow & f & txs & ts & -> & Hl)]; destruct b; try exact I; [exact Hok|exact Hl].
  - destruct IH as (L & HL & Hlen & Hk); [lia|]. destruct (reopen_main t L HL) as (t1 & E1 & H1 & _); [lia|].
    rewrite E in E1. injection E1 as <-. exists L. auto.
Qed.

(*@T C105, one dump: it is added exactly when it is the one at the receiver's height, otherwise it is refused and nothing changes. *)
Lemma p_C105_one_partial : forall p n tA q m tB i d, reachable main_kinds p n tA -> few n -> reachable any_op q m tB -> few m ->
  behind tB tA -> dump_at i tA = Some d ->
  (i = height tB -> snd (receive d tB) = Ok tt /\ height (fst (receive d tB)) = height tB + 1 /\ dump_at i (fst (receive d tB)) = Some d) /\
  (i <> height tB -> receive d tB = (tB, Err EChainAddingBlock)).
Proof.
  intros p n tA q m tB i d HrA Hn HrB Hm Hb Hd. destruct (kinds _ _ _ HrA Hn) as (LA & HA & HlA & Hk). destruct (reachable_inv _ _ _ _ HrB Hm) as (LB & HB & HlB). unfold few in Hn, Hm.
  apply (behind_list tB LB tA LA HB HA ltac:(lia) ltac:(lia)) in Hb as (K & E). rewrite (dump_list _ _ _ HA ltac:(lia)) in Hd. destruct (nthN LA i) as [b|] eqn:Eb; [|discriminate]. cbn [option_map] in Hd. injection Hd as <-.
  destruct (receive_one tA LA tB LB K i b HA HB E ltac:(lia) Eb) as [(R1 & R2 & K' & -> & HB' & _)|(R1 & e & R2 & [[-> R3]|(x & ->)])].
  - split; [|intros X; contradiction]. intros _. split; [exact R1|]. rewrite (height_list _ _ HB'), (height_list _ _ HB), app_length. split; [cbn [length]; lia|].
    assert (N.of_nat (length (LB ++ [b])) < 2 ^ 256) by (rewrite E in HlA; rewrite !app_length in *; cbn [length] in *; lia).
    rewrite (dump_list _ _ _ HB') by assumption. rewrite R2, (height_list _ _ HB), nthN_snoc. reflexivity.
  - split; [intros X; contradiction|]. intros _. rewrite (surjective_pairing (receive _ _)), R1, R2. reflexivity.
  - exfalso. rewrite Forall_forall in Hk. exact (Hk _ (nthN_in _ _ _ Eb)).
Qed.
(*@E
Example C105_one_ex : let tA := fst (step Debug fresh emit_good) in reachable main_kinds Debug 1 tA /\ height fresh = 1 /\ dump_at 1 tA <> None.
Proof. split; [apply reach_call; [apply fresh_reachable|repeat split; repeat constructor; reflexivity|exact I]|]. split; [reflexivity|]. vm_compute. discriminate. Qed.
@*)

Lemma subseq_tail {A} (x : A) l m : subseq (x :: l) m -> subseq l m.
Proof. intros H. remember (x :: l) as k eqn:E. revert E. induction H as [m|k y m H IH|k y m H IH]; intros E; [discriminate|constructor; auto|]. injection E as -> ->. constructor. exact H. Qed.
Lemma dumps_list tA LB K : tree_inv tA (LB ++ K) -> N.of_nat (length (LB ++ K)) < 2 ^ 256 ->
  dumps_from (N.of_nat (length LB)) (length K) tA = map (fun b => Some (block_dump b)) K.
Proof.
  intros H Hl. unfold dumps_from. assert (G : forall a, map (fun k => dump_at (N.of_nat (length LB) + N.of_nat k) tA) (seq a (length (skipn a K))) = map (fun b => Some (block_dump b)) (skipn a K)).
  { intros a. remember (skipn a K) as R eqn:E. revert a E. induction R as [|b R IH]; intros a E; [reflexivity|]. cbn [length seq map]. f_equal.
    - rewrite (dump_list _ _ _ H Hl). unfold nthN. replace (N.to_nat _) with (length LB + a)%nat by lia. rewrite nth_error_app2 by lia. replace (_ - _)%nat with a by lia.
      rewrite <- (firstn_skipn a K), <- E, nth_error_app2 by (apply firstn_le_length). assert (La : length (firstn a K) = a). { rewrite firstn_length. apply Nat.min_l. assert (length (skipn a K) = S (length R)) by (rewrite <- E; reflexivity). rewrite skipn_length in H0. lia. }
      rewrite La, Nat.sub_diag. reflexivity.
    - apply IH. assert (G : forall (X : list block) c, skipn (S c) X = tl (skipn c X)). { induction X as [|z X IX]; intros c; [destruct c; reflexivity|]. destruct c; [reflexivity|]. exact (IX c). } rewrite G, <- E. reflexivity. }
  exact (G 0%nat).
Qed.

(*@T C105, all blocks received: when the missing dumps are among the received ones in the order of heights, with anything from the chain in between, the receiver ends with the sender's chain. *)
Lemma p_C105_all_received_partial : forall p n tA q m tB ds, reachable main_kinds p n tA -> few n -> reachable any_op q m tB -> few m ->
  behind tB tA -> Forall (fun d => exists i, dump_at i tA = Some d) ds ->
  subseq (dumps_from (height tB) (N.to_nat (height tA - height tB)) tA) (map Some ds) -> level (receive_all ds tB) tA.
Proof.
  intros p n tA q m tB ds HrA Hn HrB Hm Hb Hd Hs. destruct (kinds _ _ _ HrA Hn) as (LA & HA & HlA & Hk). destruct (reachable_inv _ _ _ _ HrB Hm) as (LB & HB & HlB). unfold few in Hn, Hm.
  apply (behind_list tB LB tA LA HB HA ltac:(lia) ltac:(lia)) in Hb as (K & E).
  rewrite (height_list _ _ HB), (height_list _ _ HA) in Hs. replace (N.to_nat _) with (length K) in Hs by (rewrite E, app_length; lia).
  assert (Hd' := dumps_list tA LB K ltac:(rewrite <- E; exact HA) ltac:(rewrite <- E; lia)). rewrite Hd' in Hs. clear Hd'.
  assert (G : tree_inv (receive_all ds tB) LA).
  { clear HlB HrB Hm. revert tB LB K HB E Hs. induction Hd as [|d ds (i & Hi) Hd IH]; intros tB LB K HB E Hs.
    - inversion Hs; destruct K; try discriminate. rewrite E, app_nil_r. exact HB.
    - rewrite (dump_list _ _ _ HA ltac:(lia)) in Hi. destruct (nthN LA i) as [b|] eqn:Eb; [|discriminate]. cbn [option_map] in Hi. injection Hi as <-.
      change (receive_all (block_dump b :: ds) tB) with (receive_all ds (fst (receive (block_dump b) tB))).
      destruct (receive_one tA LA tB LB K i b HA HB E ltac:(lia) Eb) as [(_ & _ & K' & -> & HB' & _)|(R1 & e & R2 & [[-> R3]|(x & ->)])].
      + apply (IH _ (LB ++ [b]) K' HB'); [rewrite E, <- app_assoc; reflexivity|]. cbn [map] in Hs. inversion Hs as [|? ? ? Hs'|? ? ? Hs']; subst; [eapply subseq_tail, Hs'|exact Hs'].
      + rewrite R1. apply (IH tB LB K HB E). cbn [map] in Hs. inversion Hs as [? K0|? ? ? Hs'|l ? ? Hs' K0]; subst.
        * constructor.
        * exact Hs'.
        * exfalso. destruct K as [|k K]; [discriminate|]. cbn [map] in K0. injection K0 as K1 K2.
          assert (Wk : block_wf k /\ block_wf b). { pose proof (ti_wf _ _ HA) as W. rewrite Forall_forall in W. split; apply W; [apply in_or_app; right; now left|eapply nthN_in, Eb]. }
          apply block_dump_inj in K1; try apply Wk. subst k. apply R3. rewrite (height_list _ _ HB).
          rewrite <- (mi_heights _ _ (ti_main _ _ HA) _ _ Eb). apply (mi_heights _ _ (ti_main _ _ HA)). unfold nthN. rewrite Nnat.Nat2N.id, nth_error_app2, Nat.sub_diag by lia. reflexivity.
      + exfalso. rewrite Forall_forall in Hk. exact (Hk _ (nthN_in _ _ _ Eb)). }
  apply (level_list _ LA _ LA G HA); [lia|lia|reflexivity].
Qed.
(*@E
Example C105_all_received_ex : let tA := fst (step Debug fresh emit_good) in let d := block_dump (emitted Debug fresh emit_good) in let g := block_dump (last_of fresh) in
  subseq (dumps_from (height fresh) (N.to_nat (height tA - height fresh)) tA) (map Some [g; d; g]).
Proof. cbv zeta. cbn [map]. apply sub_skip. replace (dumps_from _ _ _) with [Some (block_dump (emitted Debug fresh emit_good))] by (vm_compute; reflexivity). apply sub_take, sub_nil. Qed.
@*)

(*@T C105, two nodes with the same chain give the same answers about it; answers to lookups by hash can differ only by showing a collision of SHA-256. *)
Lemma p_C105_answers_partial : forall okA okB p q n m tA tB, reachable okA p n tA -> few n -> reachable okB q m tB -> few m -> level tB tA ->
  (forall i, mc_find_by_height i (t_main tB) = mc_find_by_height i (t_main tA)) /\ mc_get_last_block (t_main tB) = mc_get_last_block (t_main tA) /\
  (forall h, mc_find_raw_by_hash h (t_main tB) = mc_find_raw_by_hash h (t_main tA) \/
     exists d e, collision d e /\ mc_find_raw_by_hash h (t_main tB) = Ok (Some d) /\ mc_find_raw_by_hash h (t_main tA) = Ok (Some e)).
Proof.
  intros okA okB p q n m tA tB HrA Hn HrB Hm HL. destruct (reachable_inv _ _ _ _ HrA Hn) as (LA & HA & HlA). destruct (reachable_inv _ _ _ _ HrB Hm) as (LB & HB & HlB). unfold few in Hn, Hm.
  split; [intros i; unfold mc_find_by_height; f_equal; apply HL|].
  split. { unfold mc_get_last_block, mc_get_last_raw_block. destruct HL as [Hh Hd]. unfold height, mc_get_height in Hh. rewrite Hh. destruct (u256_sub _ 1) as [x| | |]; try reflexivity. cbn [bind]. f_equal. apply Hd. }
  apply (level_list tB LB tA LA HB HA ltac:(lia) ltac:(lia)) in HL. subst LB. intros h.
  pose proof (main_find_raw_hash _ LA h (ti_main _ _ HA) ltac:(lia)) as A. pose proof (main_find_raw_hash _ LA h (ti_main _ _ HB) ltac:(lia)) as B.
  destruct (mc_find_raw_by_hash h (t_main tA)) as [[e|]| | |]; try contradiction; destruct (mc_find_raw_by_hash h (t_main tB)) as [[d|]| | |]; try contradiction.
  - destruct A as (i & a & Ai & -> & Ah), B as (j & b & Bj & -> & Bh). destruct (list_eq_dec N.eq_dec (block_dump b) (block_dump a)) as [->|N]; [left; reflexivity|].
    right. exists (block_dump b), (block_dump a). split; [|split; reflexivity]. split; [exact N|]. unfold block_hash in Ah, Bh. congruence.
  - exfalso. destruct A as (i & a & Ai & _ & Ah). exact (B a (nthN_in _ _ _ Ai) Ah).
  - exfalso. destruct B as (i & a & Ai & _ & Ah). exact (A a (nthN_in _ _ _ Ai) Ah).
  - left. reflexivity.
Qed.
(*@E
Example C105_answers_ex : let tA := fst (step Debug fresh emit_good) in let tB := receive_all [block_dump (emitted Debug fresh emit_good)] fresh in
  level tB tA.
Proof. apply (p_C105_all_received_partial Debug 1 _ Debug 0).
  - apply reach_call; [apply fresh_reachable|repeat split; repeat constructor; reflexivity|exact I].
  - reflexivity.
  - apply fresh_reachable.
  - reflexivity.
  - split; [vm_compute; discriminate|]; intros i Hi; change (height fresh) with 1 in Hi; replace i with 0 by lia; vm_compute; reflexivity.
  - constructor; [|constructor]. exists 1. vm_compute. reflexivity.
  - replace (dumps_from _ _ _) with [Some (block_dump (emitted Debug fresh emit_good))] by (vm_compute; reflexivity). apply sub_take, sub_nil.
Qed.
@*)

Lemma add_alike b t u : mc_height (t_main t) = mc_height (t_main u) ->
  snd (let '(m, ra) := mc_add_block b (t_main t) in (with_main t m, match ra with Ok _ => Ok b | Err e => Err e | Panic => Panic | UB => UB end)) =
  snd (let '(m, ra) := mc_add_block b (t_main u) in (with_main u m, match ra with Ok _ => Ok b | Err e => Err e | Panic => Panic | UB => UB end)).
Proof. intros H. unfold mc_add_block. rewrite H. destruct (negb _); [reflexivity|]. destruct (u256_add _ 1); reflexivity. Qed.

(*@T C105, two nodes with the same chain emit the same block from the same arguments, or fail alike, and have the same chain again, unless an epoch is closed; then the condition is that their summaries agree. *)
Lemma p_C105_emission_partial : forall okA okB p n m tA tB pow founder txs ts, reachable okA p n tA -> few n -> reachable okB p m tB -> few m -> level tB tA ->
  is_array 32 pow -> is_array 33 founder -> Forall (is_array 32) txs -> u64_ok ts ->
  height tA mod BLOCKS_PER_EPOCH <> 0 \/ t_summarize tB = t_summarize tA ->
  snd (t_emmit_new_main_block p pow founder txs ts tB) = snd (t_emmit_new_main_block p pow founder txs ts tA) /\
  level (fst (t_emmit_new_main_block p pow founder txs ts tB)) (fst (t_emmit_new_main_block p pow founder txs ts tA)).
Proof.
  intros okA okB p n m tA tB pow founder txs ts HrA Hn HrB Hm HL Wp Wf Wt Ws Hc. pose proof (p_C105_answers_partial _ _ _ _ _ _ _ _ HrA Hn HrB Hm HL) as (_ & Hlast & _).
  destruct (reachable_inv _ _ _ _ HrA Hn) as (LA & HA & HlA). destruct (reachable_inv _ _ _ _ HrB Hm) as (LB & HB & HlB). unfold few in Hn, Hm.
  assert (LB = LA) by (apply (level_list tB LB tA LA HB HA ltac:(lia) ltac:(lia)); exact HL). subst LB.
  assert (E : snd (t_emmit_new_main_block p pow founder txs ts tB) = snd (t_emmit_new_main_block p pow founder txs ts tA)).
  { destruct HL as [Hh _]. unfold height, mc_get_height in Hh. unfold t_emmit_new_main_block. rewrite Hlast.
    destruct (tree_last tA LA HA ltac:(lia)) as [[_ El]|[_ El]]; rewrite El; [|reflexivity]. cbn [bind unwrap_opt].
    destruct (check_pow _ _ _ _) as [[|]| | |]; try reflexivity. cbn [bind negb]. destruct (recalculate_difficulty _ _ _ _) as [d| | |]; try reflexivity. cbn [bind].
    destruct (recalculate_fee d) as [fee| | |]; try reflexivity. cbn [bind].
    pose proof (tree_last_height tA LA HA) as Hb. destruct (u256_add _ 1) as [x| | |] eqn:Ex; try reflexivity. cbn [bind bi_height].
    assert (X : x = height tA). { unfold u256_add in Ex. destruct (_ <? _) in Ex; [|discriminate]. injection Ex as <-. unfold height, mc_get_height. lia. }
    destruct (x mod BLOCKS_PER_EPOCH =? 0) eqn:Em.
    - destruct Hc as [Hc|Hc]; [apply N.eqb_eq in Em; congruence|]. destruct txs; [|reflexivity]. rewrite Hc. destruct (t_summarize tA) as [root| | |]; try reflexivity.
      change (t_set_amount ROOT_PUBLIC_ADDRESS COINS_PER_CYCLE (t_rotate_dbs ?t)) with (rotated t, @Ok unit tt). cbv beta zeta iota.
      apply add_alike. exact Hh.
    - destruct txs as [|tx txs]; [reflexivity|]. destruct (bind _ _) as [root| | |]; try reflexivity. apply add_alike. exact Hh. }
  split; [exact E|].
  destruct (t_emmit_new_main_block p pow founder txs ts tA) as [tA' rA] eqn:EA. destruct (t_emmit_new_main_block p pow founder txs ts tB) as [tB' rB] eqn:EB. cbn [fst snd] in *. subst rB.
  pose proof (emit_main_tree p tA LA _ _ _ _ _ _ HA ltac:(lia) Wp Wf Wt Ws EA) as SA. pose proof (emit_main_tree p tB LA _ _ _ _ _ _ HB ltac:(lia) Wp Wf Wt Ws EB) as SB.
  destruct rA as [b|e| |]; try (subst; exact HL). destruct SA as (_ & _ & IA & _), SB as (_ & _ & IB & _).
  apply (level_list _ (LA ++ [b]) _ (LA ++ [b]) IB IA); [rewrite app_length; cbn [length]; lia|rewrite app_length; cbn [length]; lia|reflexivity].
Qed.
(*@E
Example C105_emission_ex : let t := fresh in height t mod BLOCKS_PER_EPOCH <> 0 /\ level t t /\ exists b, snd (step Debug t emit_good) = Ok (RBlock b).
Proof. split; [vm_compute; discriminate|]. split; [split; reflexivity|]. eexists. vm_compute. reflexivity. Qed.
@*)

Lemma add_sub_back t : t_summary t = t_summary fresh -> forall p, let t2 := fst (step p (fst (step p t (OAddAmount addrA 5))) (OSubAmount addrA 5)) in
  t_main t2 = t_main t /\ t_gas t2 = t_gas t /\ t_summary t2 = t_summary (fst (step p (fst (step p fresh (OAddAmount addrA 5))) (OSubAmount addrA 5))).
Proof.
  intros E p. destruct t as [m d s os g og c]. cbn [t_summary] in E. subst s. cbv zeta. cbn [step]. unfold ret_unit, t_add_amount, t_sub_amount, t_on_summary. cbn [t_summary].
  destruct (led_add addrA 5 (t_summary fresh)) as [s1 r1]. cbn [fst with_summary t_summary]. destruct (led_sub addrA 5 s1) as [s2 r2]. split; [reflexivity|]. split; reflexivity.
Qed.
Lemma back_same w : led_get w (t_summary (fst (step Debug (fst (step Debug fresh (OAddAmount addrA 5))) (OSubAmount addrA 5)))) = led_get w (t_summary fresh) /\
  t_summary (fst (step Debug (fst (step Debug fresh (OAddAmount addrA 5))) (OSubAmount addrA 5))) = t_summary (fst (step Release (fst (step Release fresh (OAddAmount addrA 5))) (OSubAmount addrA 5))).
Proof.
  split; [|vm_compute; reflexivity]. set (s := t_summary (fst _)). destruct (bytes_eqb addrA w) eqn:E.
  - apply bytes_eqb_eq in E. subst w. vm_compute. reflexivity.
  - unfold led_get. f_equal. transitivity (sled_get w (sled_insert addrA (led_encode 0) (t_summary fresh))); [|rewrite sled_get_insert; rewrite 1?bytes_eqb_sym, E; reflexivity].
    unfold sled_get. f_equal.
Qed.
(*@T C105 is false as stated, when an epoch is closed: two nodes with the same chain and the same balances (one of them once gave an account five coins and took them back) emit different blocks. *)
Lemma p_C105_root_refuted : forall p, exists n m tA tB pow founder ts a b, reachable main_kinds p n tA /\ few n /\ reachable main_kinds p m tB /\ few m /\ level tB tA /\ same_ledgers tB tA /\
  is_array 32 pow /\ is_array 33 founder /\ u64_ok ts /\
  snd (t_emmit_new_main_block p pow founder [] ts tA) = Ok a /\ snd (t_emmit_new_main_block p pow founder [] ts tB) = Ok b /\ a <> b.
Proof.
  intros p. destruct (filled p 999999) as (t & L & Hr & HL & Hlen & Hl & Hs & Hg & Hd & Hc); [reflexivity|]. assert (Hl' : last L genesis = filler 999999) by (apply Hl; reflexivity). clear Hl.
  pose proof (add_sub_back t Hs p) as (M & G & Sm). set (t2 := fst (step p (fst (step p t (OAddAmount addrA 5))) (OSubAmount addrA 5))) in *.
  assert (HL2 : tree_inv t2 L) by (eapply tree_inv_main; eassumption).
  pose proof (epoch_emits p t L HL Hlen Hl') as EA. pose proof (epoch_emits p t2 L HL2 Hlen Hl') as EB.
  set (k := N.to_nat 999999) in *. assert (Hk : few (S (S k))) by (unfold few, k; lia). assert (Hk0 : few k) by (unfold few, k; lia). clearbody k.
  assert (Hr2 : reachable main_kinds p (S (S k)) t2).
  { unfold t2. apply reach_call; [apply reach_call; [exact Hr| |exact I]| |exact I]; (split; [repeat constructor; reflexivity|reflexivity]). }
  exists k, (S (S k)), t, t2, (repeat 3 32), addrA, 1597924900. eexists. eexists.
  split; [exact Hr|]. split; [exact Hk0|]. split; [exact Hr2|]. split; [exact Hk|].
  split; [split; unfold height, dump_at; rewrite M; reflexivity|].
  split; [intros w; unfold t_get_amount, t_get_gas; rewrite G, Sm, Hs; split; [|reflexivity]; destruct p; [|rewrite <- (proj2 (back_same w))]; apply back_same|].
  split; [split; [reflexivity|repeat constructor; reflexivity]|]. split; [split; [reflexivity|repeat constructor; reflexivity]|]. split; [reflexivity|].
  split; [exact EA|]. split; [exact EB|]. clear EA EB. intros E.
  assert (E' : match t_summarize t with Ok r => r | _ => [] end = match t_summarize t2 with Ok r => r | _ => [] end) by congruence.
  clear E. unfold t_summarize in E'. rewrite G, Sm, Hs, Hg in E'. destruct p; vm_compute in E'; discriminate E'.
Qed.

(*@T ... and balances: two nodes opened alike, with the same chain and the same balances; one closes the epoch by emitting, the other receives that block.  The chains are the same again, but the root account is refilled only on the first. *)
Lemma p_C105_reset_refuted : forall p, exists n t pow founder ts b, reachable main_kinds p n t /\ few n /\ is_array 32 pow /\ is_array 33 founder /\ u64_ok ts /\
  let tA := fst (t_emmit_new_main_block p pow founder [] ts t) in let tB := fst (receive (block_dump b) t) in
  snd (t_emmit_new_main_block p pow founder [] ts t) = Ok b /\ snd (receive (block_dump b) t) = Ok tt /\ level tB tA /\
  t_get_amount ROOT_PUBLIC_ADDRESS tA = Ok COINS_PER_CYCLE /\ t_get_amount ROOT_PUBLIC_ADDRESS tB = Ok (COINS_PER_CYCLE - 5).
Proof.
  intros p. destruct (filled p 999999) as (t0 & L & Hr & HL0 & Hlen & Hl & Hs & Hg & Hd & Hc); [reflexivity|]. assert (Hl' : last L genesis = filler 999999) by (apply Hl; reflexivity). clear Hl.
  set (k := N.to_nat 999999) in *. assert (Hk : few (S k)) by (unfold few, k; lia). clearbody k.
  set (o := OSubAmount ROOT_PUBLIC_ADDRESS 5). set (t := fst (step p t0 o)).
  assert (Hrt : reachable main_kinds p (S k) t) by (unfold t; apply reach_call; [exact Hr|split; [vm_compute; repeat constructor|reflexivity]|exact I]).
  assert (HL : tree_inv t L) by (eapply tree_inv_main; [exact HL0|]; unfold t, o; cbn [step]; unfold ret_unit; rewrite (surjective_pairing (t_sub_amount _ _ _)); apply on_summary_main).
  assert (Hb : t_get_amount ROOT_PUBLIC_ADDRESS t = Ok (COINS_PER_CYCLE - 5)).
  { unfold t, o. cbn [step]. unfold ret_unit, t_sub_amount, t_on_summary. rewrite Hs. destruct (led_sub _ _ (t_summary fresh)) as [s r] eqn:E. cbn [fst]. unfold t_get_amount. cbn [t_summary with_summary].
    replace s with (fst (led_sub ROOT_PUBLIC_ADDRESS 5 (t_summary fresh))) by (rewrite E; reflexivity). vm_compute. reflexivity. }
  clearbody t o. pose proof (epoch_emits p t L HL Hlen Hl') as EA.
  assert (Wp : is_array 32 (repeat 3 32)) by (split; [reflexivity|repeat constructor; reflexivity]). assert (Wf : is_array 33 addrA) by (split; [reflexivity|repeat constructor; reflexivity]).
  match type of EA with _ = Ok ?x => set (b := x) in * end. assert (Kb : exists i r, b = SummBlock i r) by (subst b; eauto). assert (Hhb : bi_height (get_info b) = 1000000) by reflexivity. clearbody b.
  exists (S k), t, (repeat 3 32), addrA, 1597924900, b.
  split; [exact Hrt|]. split; [exact Hk|]. split; [exact Wp|]. split; [exact Wf|]. split; [reflexivity|]. cbv zeta.
  destruct (t_emmit_new_main_block p (repeat 3 32) addrA [] 1597924900 t) as [tA r] eqn:E. cbn [fst snd] in *. subst r.
  pose proof (emit_main_tree p t L _ _ _ _ _ _ HL ltac:(rewrite Hlen; reflexivity) Wp Wf (Forall_nil _) (eq_refl : u64_ok 1597924900) E) as (_ & Hwf & HA & _ & _ & _ & _ & _ & HtA).
  destruct Kb as (i & r & ->).
  assert (Hrb : readable (SummBlock i r)) by (split; [exact Hwf|exact I]). apply readable_des in Hrb.
  pose proof (height_list _ _ HL) as Hh. unfold height, mc_get_height in Hh.
  assert (ER : receive (block_dump (SummBlock i r)) t = (with_main t (mc_appended (SummBlock i r) (t_main t)), Ok tt)).
  { unfold receive. rewrite Hrb. unfold t_add_new_block. rewrite mc_add_block_right; [reflexivity|rewrite Hhb, Hh, Hlen; reflexivity|rewrite Hh, Hlen; reflexivity]. }
  split; [reflexivity|]. split; [rewrite ER; reflexivity|]. rewrite ER. cbn [fst].
  assert (HB : tree_inv (with_main t (mc_appended (SummBlock i r) (t_main t))) (L ++ [SummBlock i r])) by (apply tree_inv_append; [exact HL|exact Hwf|rewrite Hhb, Hh, Hlen; reflexivity|rewrite Hh, Hlen; reflexivity]).
  assert (Hn : N.of_nat (length (L ++ [SummBlock i r])) < 2 ^ 256) by (rewrite app_length; cbn [length]; lia).
  split; [apply (level_list _ _ _ _ HB HA Hn Hn); reflexivity|]. split; [|exact Hb].
  rewrite HtA. unfold t_get_amount. cbn [with_main t_summary emit_base rotated with_summary]. unfold led_get. rewrite sled_get_commit1, bytes_eqb_refl. apply led_decode_encode. reflexivity.
Qed.
