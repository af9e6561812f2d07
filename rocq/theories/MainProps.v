(** Proofs of the statements in P_Main.v. *)
From Coq Require Import Lia ZifyBool ZifyNat ZifyN.
From Verif Require Import Base Sha256 Merkle Tools Transaction Block Sled Chain Tree Spec Reach Demo.
From Verif Require Import BaseFacts ToolsFacts MerkleFacts DiffFacts CodecFacts SledFacts ChainFacts TreeFacts ValidateProps.

Lemma fresh_eq : t_new disk_empty = Ok fresh.
Proof. unfold fresh. destruct open_exists as (t & ->). reflexivity. Qed.
Lemma fresh_reachable ok p : reachable ok p 0 fresh.
Proof. apply reach_open, fresh_eq. Qed.
Lemma fresh_inv : tree_inv fresh [genesis].
Proof. apply open_main, fresh_eq. Qed.

(*@T C28, what holds: an emitted block passes every test of [validate] except perhaps
    the proof of work, which [validate] computes over the merkle root instead of the
    previous hash; so the verdict is exactly that test.  Holds in every reachable tree. *)
Lemma p_C28_emitted_validates_partial : forall ok p n t pow founder txs ts t' b,
  reachable ok p n t -> few n ->
  is_array 32 pow -> is_array 33 founder -> Forall (is_array 32) txs -> u64_ok ts ->
  t_emmit_new_main_block p pow founder txs ts t = (t', Ok b) ->
  exists prev, mc_get_last_block (t_main t) = Ok (Some prev) /\
    (validate p b (Some prev) = Ok true <->
     match b with
     | TxBlock _ root _ _ => work root (bi_difficulty (get_info prev)) root pow
     | SummBlock _ root => work root (bi_difficulty (get_info prev)) ff32 pow
     | DerivBlock _ => False
     end).
Proof.
  intros ok p n t pow founder txs ts t' b Hr Hn Hpow Hf Ht Hts E.
  destruct (reachable_inv _ _ _ _ Hr Hn) as (L & HL & Hlen). unfold few in Hn.
  pose proof (emit_main_tree p t L _ _ _ _ _ _ HL ltac:(lia) Hpow Hf Ht Hts E) as
    (S1 & Hbw & _ & S2 & S3 & S4 & S5 & S6 & _).
  exists (last L genesis). split.
  { destruct (tree_last t L HL ltac:(lia)) as [[_ Hl]|[_ Hl]]; [exact Hl|].
    unfold t_emmit_new_main_block in E. rewrite Hl in E. cbn [bind] in E. discriminate. }
  destruct (tree_last_height t L HL) as [_ Hw]. pose proof (block_info_wf _ Hw) as (_ & _ & _ & _ & [_ Hdo] & _).
  destruct b as [fee root info l|info|info root]; cbn [main_link get_info] in *.
  - rewrite p_C27_validate_transaction_block by exact Hdo. destruct S1 as (R1 & R2 & R3 & R4 & R5 & R6 & R7 & R8).
    rewrite S3. unfold block_hash in R5. tauto.
  - contradiction.
  - rewrite p_C27_validate_summarize_block by exact Hdo. destruct S1 as (R4 & R5 & R6 & R7 & R8).
    rewrite S3. unfold block_hash in R5. tauto.
Qed.
(*@T C28 is false of the code, in both profiles, already for the first emitted block. *)
Lemma p_C28_emitted_validates_refuted : forall p, exists t pow founder txs ts t' b prev,
  reachable no_raw_main p 0 t /\ is_array 32 pow /\ is_array 33 founder /\ Forall (is_array 32) txs /\ u64_ok ts /\
  t_emmit_new_main_block p pow founder txs ts t = (t', Ok b) /\
  mc_get_last_block (t_main t) = Ok (Some prev) /\ validate p b (Some prev) = Ok false.
Proof.
  intros p. exists fresh, (repeat 5 32), addrA, [txh], 1597925000.
  exists (fst (t_emmit_new_main_block p (repeat 5 32) addrA [txh] 1597925000 fresh)), (emitted p fresh emit_bad), (last_of fresh).
  split; [apply fresh_reachable|]. split; [split; [reflexivity|repeat constructor; reflexivity]|].
  split; [split; [reflexivity|repeat constructor; reflexivity]|].
  split; [repeat constructor; reflexivity|]. split; [reflexivity|].
  destruct p; (split; [vm_compute; reflexivity|split; vm_compute; reflexivity]).
Qed.
(*@E
Example C28_ex : snd (step Release fresh emit_good) = Ok (RBlock (emitted Release fresh emit_good)) /\
  validate Release (emitted Release fresh emit_good) (Some (last_of fresh)) = Ok true /\
  op_wf emit_good /\ few 0.
Proof.
  split; [vm_compute; reflexivity|]. split; [vm_compute; reflexivity|].
  split; [|reflexivity]. repeat split; repeat constructor; reflexivity.
Qed.
@*)

(*@T C30 is false of the code: a block validates with any height and any fee. *)
Lemma p_C30_height_fee_refuted : forall p fee h, exists b prev,
  validate p b (Some prev) = Ok true /\ bi_height (get_info b) = h /\ get_fee b = fee /\
  bi_height (get_info prev) = 0 /\ block_wf prev /\ (u256_ok h -> u256_ok fee -> block_wf b).
Proof.
  intros p fee h. destruct (emitted p fresh emit_good) as [fee0 root i txs|i|i root] eqn:E.
  2,3: exfalso; destruct p; vm_compute in E; discriminate.
  exists (TxBlock fee root (MkInfo (bi_timestamp i) (bi_pow i) (bi_previous_hash i) h (bi_difficulty i) (bi_founder i)) txs), (last_of fresh).
  split.
  { rewrite <- (p_C30_validate_ignores_height_and_fee p fee0), <- E. destruct p; vm_compute; reflexivity. }
  split; [reflexivity|]. split; [reflexivity|]. split; [vm_compute; reflexivity|].
  assert (Hw : block_wf (last_of fresh)).
  { replace (last_of fresh) with genesis; [apply genesis_readable|]. unfold last_of.
    rewrite (main_last_block (t_main fresh) [genesis] genesis); [reflexivity|apply fresh_inv|discriminate|reflexivity|apply genesis_readable]. }
  split; [exact Hw|]. intros Hh Hf.
  pose proof (emit_main_tree p fresh [genesis] (repeat 3 32) addrA [txh] 1597925000
    (fst (t_emmit_new_main_block p (repeat 3 32) addrA [txh] 1597925000 fresh)) (Ok (TxBlock fee0 root i txs)) fresh_inv) as S.
  destruct S as (_ & (_ & W2 & (W3 & W4 & W5 & _ & W7 & W8) & W9) & _).
  - reflexivity.
  - split; [reflexivity|repeat constructor; reflexivity].
  - split; [reflexivity|repeat constructor; reflexivity].
  - repeat constructor; reflexivity.
  - reflexivity.
  - rewrite <- E. destruct p; vm_compute; reflexivity.
  - cbn [block_wf]. repeat split; try assumption; try apply W4; try apply W5; try apply W7; try apply W8; apply W2.
Qed.

(** ** The chain as a list *)

(*@T C31.  In every reachable tree the main chain answers like a list [L] of blocks;
    [add_block] appends exactly when the height is right. *)
Lemma p_C31_append_only : forall ok p n t, reachable ok p n t -> few n ->
  exists L,
    mc_get_height (t_main t) = N.of_nat (length L) /\
    (forall i, mc_find_raw_by_height i (t_main t) = option_map block_dump (nth_error L (N.to_nat i))) /\
    mc_get_last_raw_block (t_main t) = Ok (option_map block_dump (nth_error L (length L - 1))) /\
    L <> [] /\
    (forall i b, nth_error L i = Some b -> bi_height (get_info b) = N.of_nat i) /\
    forall b,
      let '(m', r) := mc_add_block b (t_main t) in
      (bi_height (get_info b) = mc_get_height (t_main t) -> r = Ok tt /\
         mc_get_height m' = mc_get_height (t_main t) + 1 /\
         forall i, mc_find_raw_by_height i m' = option_map block_dump (nth_error (L ++ [b]) (N.to_nat i))) /\
      (bi_height (get_info b) <> mc_get_height (t_main t) -> (exists e, r = Err e) /\ m' = t_main t).
Proof.
  intros ok p n t Hr Hn. destruct (reachable_inv _ _ _ _ Hr Hn) as (L & HL & Hlen). unfold few in Hn.
  pose proof (ti_main _ _ HL) as Hm. pose proof (mi_height _ _ Hm) as Hh. pose proof (tree_inv_ne _ _ HL) as Hne.
  exists L. split; [exact Hh|]. split; [intros i; apply main_find_raw; [exact Hm|lia]|].
  split; [rewrite (main_last_raw _ L) by (try assumption; lia); unfold nthN; repeat f_equal; lia|].
  split; [exact Hne|].
  split; [intros i b Hb; apply (mi_heights _ _ Hm); unfold nthN; rewrite Nnat.Nat2N.id; exact Hb|].
  intros b. destruct (N.eq_dec (bi_height (get_info b)) (mc_height (t_main t))) as [E|E].
  - rewrite mc_add_block_right by (try exact E; lia). split; [|intros C; contradiction].
    intros _. split; [reflexivity|]. split; [reflexivity|]. intros i.
    apply main_find_raw; [apply main_inv_append; [exact Hm|exact E|lia]|]. rewrite app_length. cbn [length]. lia.
  - rewrite mc_add_block_wrong by exact E. split; [intros C; contradiction|]. intros _. split; [eauto|reflexivity].
Qed.
(*@T C31 over histories: whatever call is made, blocks already in the chain stay where they are. *)
Lemma p_C31_history_keeps_blocks : forall ok p n t o i d,
  reachable ok p n t -> few (S n) -> op_wf o -> i < mc_get_height (t_main t) ->
  mc_find_raw_by_height i (t_main t) = Some d ->
  mc_find_raw_by_height i (t_main (fst (step p t o))) = Some d /\
  mc_get_height (t_main t) <= mc_get_height (t_main (fst (step p t o))) <= mc_get_height (t_main t) + 1.
Proof.
  intros ok p n t o i d Hr Hn Hwf Hi Hd. unfold few in Hn.
  destruct (reachable_inv _ _ _ _ Hr) as (L & HL & Hlen); [red; lia|].
  destruct (step_main p t o L HL Hwf ltac:(lia)) as (L' & HL' & Hg).
  pose proof (mi_height _ _ (ti_main _ _ HL)) as Hh. pose proof (mi_height _ _ (ti_main _ _ HL')) as Hh'.
  unfold mc_get_height in *. rewrite (main_find_raw _ L) in Hd by (try apply HL; lia).
  assert (Hlen' : (length L <= length L' <= length L + 1)%nat) by
    (destruct Hg as [->|(b & -> & _)]; rewrite ?app_length; cbn [length]; lia).
  rewrite (main_find_raw _ L') by (try apply HL'; lia). split; [|lia].
  destruct Hg as [->|(b & -> & _)]; [exact Hd|]. rewrite nthN_app1 by lia. exact Hd.
Qed.
(*@E
Example C31_ex : mc_get_height (t_main (fst (step Debug fresh emit_good))) = 2 /\
  mc_find_raw_by_height 1 (t_main (fst (step Debug fresh emit_good))) =
    Some (block_dump (emitted Debug fresh emit_good)) /\
  mc_find_raw_by_height 2 (t_main (fst (step Debug fresh emit_good))) = None.
Proof. vm_compute. auto. Qed.
@*)

(*@T C32 *)
Lemma p_C32_find_by_hash : forall ok p n t h, reachable ok p n t -> few n ->
  (forall d, mc_find_raw_by_hash h (t_main t) = Ok (Some d) ->
     sha256 d = h /\ exists i, i < mc_get_height (t_main t) /\ mc_find_raw_by_height i (t_main t) = Some d) /\
  (mc_find_raw_by_hash h (t_main t) = Ok None ->
     forall i d, mc_find_raw_by_height i (t_main t) = Some d -> sha256 d <> h) /\
  exists r, mc_find_raw_by_hash h (t_main t) = Ok r.
Proof.
  intros ok p n t h Hr Hn. destruct (reachable_inv _ _ _ _ Hr Hn) as (L & HL & Hlen). unfold few in Hn.
  pose proof (ti_main _ _ HL) as Hm. pose proof (main_find_raw_hash (t_main t) L h Hm ltac:(lia)) as S.
  destruct (mc_find_raw_by_hash h (t_main t)) as [[d|]|e| |]; try contradiction.
  - split; [|split; [discriminate|eauto]]. intros d' E. injection E as <-.
    destruct S as (i & b & Hb & -> & <-). split; [reflexivity|]. exists i.
    unfold mc_get_height. rewrite (mi_height _ _ Hm). split; [eapply nthN_some, Hb|].
    rewrite (main_find_raw _ L) by (try exact Hm; lia). rewrite Hb. reflexivity.
  - split; [discriminate|]. split; [|eauto]. intros _ i d Hd.
    rewrite (main_find_raw _ L) in Hd by (try exact Hm; lia).
    destruct (nthN L i) as [b|] eqn:Eb; [|discriminate]. injection Hd as <-. apply S. eapply nthN_in, Eb.
Qed.
(*@E
Example C32_ex : let t := fst (step Debug fresh emit_good) in
  mc_find_raw_by_hash (block_hash (last_of fresh)) (t_main t) = Ok (Some (block_dump (last_of fresh))) /\
  mc_find_raw_by_hash (repeat 0 32) (t_main t) = Ok None.
Proof. vm_compute. auto. Qed.
@*)

(*@T C33, what holds: [add_block] accepts a block exactly when its height is the
    chain's; nothing else about the block is tested. *)
Lemma p_C33_add_block_partial : forall ok p n t b, reachable ok p n t -> few n ->
  (snd (mc_add_block b (t_main t)) = Ok tt <-> bi_height (get_info b) = mc_get_height (t_main t)).
Proof.
  intros ok p n t b Hr Hn. destruct (reachable_inv _ _ _ _ Hr Hn) as (L & HL & Hlen). unfold few in Hn.
  pose proof (mi_height _ _ (ti_main _ _ HL)) as Hh. split.
  - intros H. destruct (N.eq_dec (bi_height (get_info b)) (mc_height (t_main t))) as [E|E]; [exact E|].
    rewrite mc_add_block_wrong in H by exact E. discriminate.
  - intros E. rewrite mc_add_block_right by (try exact E; lia). reflexivity.
Qed.
(*@T C33 is false of the code: an invalid block is accepted. *)
Lemma p_C33_add_block_refuted : forall p, exists t b prev,
  reachable any_op p 0 t /\ block_wf b /\ mc_get_last_block (t_main t) = Ok (Some prev) /\
  validate p b (Some prev) = Ok false /\ snd (mc_add_block b (t_main t)) = Ok tt.
Proof.
  intros p. exists fresh, (TxBlock 0 (repeat 0 32) (MkInfo 0 (repeat 0 32) (repeat 0 32) 1 (repeat 0 32) (repeat 0 33)) []), (last_of fresh).
  split; [apply fresh_reachable|].
  split; [repeat split; try reflexivity; repeat constructor; reflexivity|].
  split; [vm_compute; reflexivity|]. split; [destruct p; vm_compute; reflexivity|vm_compute; reflexivity].
Qed.

(*@T C34 for histories that never add a derivative block to the main chain by hand. *)
Lemma p_C34_last_block_partial : forall p n t, reachable main_kinds p n t -> few n ->
  exists b, mc_get_last_block (t_main t) = Ok (Some b) /\
    bi_height (get_info b) + 1 = mc_get_height (t_main t) /\ mc_get_last_raw_block (t_main t) = Ok (Some (block_dump b)).
Proof.
  intros p n t Hr Hn.
  assert (exists L, tree_inv t L /\ (length L <= n + 1)%nat /\ Forall (fun b => match b with DerivBlock _ => False | _ => True end) L)
    as (L & HL & Hlen & Hk).
  { unfold few in Hn. revert Hn. induction Hr as [t E|n t o Hr IH Hwf Hok|n t t' Hr IH E]; intros Hn.
    - exists [genesis]. split; [apply open_main, E|]. split; [cbn; lia|]. repeat constructor.
    - destruct IH as (L & HL & Hlen & Hk); [lia|]. destruct (step_main p t o L HL Hwf) as (L' & HL' & Hg); [lia|].
      exists L'. split; [exact HL'|]. destruct Hg as [->|(b & -> & Hb)]; [split; [lia|exact Hk]|].
      split; [rewrite app_length; cbn; lia|]. apply Forall_app. split; [exact Hk|]. constructor; [|constructor].
      destruct Hb as [(txs & ->)|(pow & f & txs & ts & -> & Hl)].
      + destruct b; try exact I. exact Hok.
      + destruct b; try exact I. exact Hl.
    - destruct IH as (L & HL & Hlen & Hk); [lia|]. destruct (reopen_main t L HL) as (t1 & E1 & H1 & _); [lia|].
      rewrite E in E1. injection E1 as <-. exists L. auto. }
  unfold few in Hn. exists (last L genesis). pose proof (tree_inv_ne _ _ HL) as Hne.
  rewrite (main_last_raw' _ L genesis) by (try assumption; try apply HL; lia).
  split; [|split; [apply (tree_last_height t L HL)|reflexivity]].
  destruct (tree_last t L HL) as [[_ E]|[(i & Hi) _]]; [lia|exact E|].
  exfalso. rewrite Forall_forall in Hk. specialize (Hk (last L genesis) (last_in L genesis Hne)). rewrite Hi in Hk. exact Hk.
Qed.
(*@T C34 is false of the code: the public [add_new_block] accepts a derivative block
    on the main chain, after which the last block cannot be read, and emission and
    transactions fail. *)
Lemma p_C34_last_block_refuted : forall p, exists t b,
  t = fst (step p fresh (OAddNewBlock b [])) /\ block_wf b /\
  snd (step p fresh (OAddNewBlock b [])) = Ok RUnit /\ reachable any_op p 1 t /\
  mc_get_last_block (t_main t) = Err EChainFindByHeight /\
  (forall pow founder txs ts, exists e, snd (t_emmit_new_main_block p pow founder txs ts t) = Err e) /\
  (forall owner, assoc_get owner (t_derivs t) = None -> exists e, snd (t_get_derivative_chain owner t) = Err e).
Proof.
  intros p. set (b := DerivBlock (MkInfo 0 (repeat 0 32) (repeat 0 32) 1 (repeat 0 32) (repeat 0 33))).
  exists (fst (step p fresh (OAddNewBlock b []))), b. split; [reflexivity|].
  assert (Hw : block_wf b) by (repeat split; try reflexivity; repeat constructor; reflexivity).
  split; [exact Hw|]. split; [vm_compute; reflexivity|].
  split; [apply reach_call; [apply fresh_reachable|split; [exact Hw|constructor]|exact I]|].
  assert (Hl : mc_get_last_block (t_main (fst (step p fresh (OAddNewBlock b [])))) = Err EChainFindByHeight) by (vm_compute; reflexivity).
  split; [exact Hl|]. split.
  - intros. unfold t_emmit_new_main_block. rewrite Hl. cbn [bind]. eexists; reflexivity.
  - intros owner Ho. unfold t_get_derivative_chain. rewrite Ho, Hl. cbn [bind]. eexists; reflexivity.
Qed.
(*@E
Example C34_ex : main_kinds emit_good /\ reachable main_kinds Debug 1 (fst (step Debug fresh emit_good)).
Proof.
  split; [exact I|]. apply reach_call; [apply reach_open; vm_compute; reflexivity| |exact I].
  repeat split; repeat constructor; reflexivity.
Qed.
@*)

(** ** Emission *)

Lemma chained_snoc {A} (R : A -> A -> Prop) l x d : chained R l -> l <> [] -> R (last l d) x -> chained R (l ++ [x]).
Proof.
  induction 1 as [|y|y z l H _ IH]; intros Hne Hx; [contradiction|constructor; [exact Hx|constructor]|].
  cbn [app]. constructor; [exact H|]. apply IH; [discriminate|exact Hx].
Qed.

Lemma linked_list p n t : reachable no_raw_main p n t -> few n ->
  exists L, tree_inv t L /\ (length L <= n + 1)%nat /\ chained (main_link p) L.
Proof.
  unfold few. induction 1 as [t E|n t o Hr IH Hwf Hok|n t t' Hr IH E]; intros Hn.
  - exists [genesis]. split; [apply open_main, E|]. split; [cbn; lia|constructor].
  - destruct IH as (L & HL & Hlen & Hk); [lia|]. destruct (step_main p t o L HL Hwf) as (L' & HL' & Hg); [lia|].
    exists L'. split; [exact HL'|]. destruct Hg as [->|(b & -> & Hb)]; [split; [lia|exact Hk]|].
    split; [rewrite app_length; cbn; lia|]. destruct Hb as [(txs & ->)|(pow & f & txs & ts & -> & Hl)]; [contradiction|].
    eapply chained_snoc; [exact Hk|eapply tree_inv_ne, HL|exact Hl].
  - destruct IH as (L & HL & Hlen & Hk); [lia|]. destruct (reopen_main t L HL) as (t1 & E1 & H1 & _); [lia|].
    rewrite E in E1. injection E1 as <-. exists L. auto.
Qed.

Lemma chained_in_kind p L : chained (main_link p) L -> forall i b, nth_error L (S i) = Some b ->
  match b with DerivBlock _ => False | _ => True end.
Proof.
  induction 1 as [|x|x y l H _ IH]; intros i b Hb.
  - destruct i; discriminate.
  - destruct i; discriminate.
  - destruct i as [|i]; cbn in Hb.
    + injection Hb as <-. destruct y; try exact I. exact H.
    + apply (IH i b). exact Hb.
Qed.

(*@T C35 *)
Lemma p_C35_emitted_chain_linked : forall p n t, reachable no_raw_main p n t -> few n ->
  exists L g,
    genesis_block = Ok g /\ hd_error L = Some g /\
    mc_get_height (t_main t) = N.of_nat (length L) /\
    (forall i b, nth_error L i = Some b -> mc_find_by_height (N.of_nat i) (t_main t) = Ok (Some b)) /\
    chained (main_link p) L.
Proof.
  intros p n t Hr Hn. destruct (linked_list p n t Hr Hn) as (L & HL & Hlen & Hk). unfold few in Hn.
  exists L, genesis. split; [exact genesis_eq|]. pose proof (ti_gen _ _ HL) as Hg.
  split; [destruct L; [discriminate|exact Hg]|]. split; [apply HL|]. split; [|exact Hk].
  intros i b Hb. assert (Hb' : nthN L (N.of_nat i) = Some b) by (unfold nthN; rewrite Nnat.Nat2N.id; exact Hb).
  eapply main_find_height; [apply HL|lia|exact Hb'|].
  destruct (tree_readable t L _ _ HL ltac:(lia) Hb') as [Hrd|(info & ->)]; [exact Hrd|].
  exfalso. destruct i as [|i]; [rewrite Hg in Hb; discriminate|]. exact (chained_in_kind p L Hk i _ Hb).
Qed.
(*@T C35, genesis: the fixed first block. *)
Lemma p_C35_genesis : exists root, is_array 32 root /\ merkle_root_of [sha256
    (ROOT_PUBLIC_ADDRESS ++ [124] ++ u256_to_string COINS_PER_CYCLE ++ [124; 48])] root /\
  genesis_block = Ok (SummBlock (MkInfo 1597924800 (repeat 0 32) (repeat 0 32) 0 (127 :: repeat 255 31) ROOT_PUBLIC_ADDRESS) root).
Proof.
  exists (mroot [genesis_leaf]). split; [apply mroot_array|]. split; [apply mroot_spec|]. rewrite genesis_eq. reflexivity.
Qed.
(*@E
Example C35_ex : reachable no_raw_main Release 1 (fst (step Release fresh emit_good)) /\ few 1 /\
  main_link Release (last_of fresh) (emitted Release fresh emit_good) /\
  u256_to_string 1050 = [49; 48; 53; 48].
Proof.
  split; [apply reach_call; [apply reach_open; vm_compute; reflexivity| |exact I];
          repeat split; repeat constructor; reflexivity|].
  split; [reflexivity|]. split; [|reflexivity].
  destruct (emitted Release fresh emit_good) as [fee root i txs|i|i root] eqn:E; [|vm_compute in E; discriminate..].
  vm_compute in E. injection E as <- <- <- <-.
  split; [exists 1%nat; split; [split; [|right]; cbn; auto with arith|vm_compute; reflexivity]|].
  split; [discriminate|]. split; [vm_compute; reflexivity|]. split; [vm_compute; discriminate|].
  split; [vm_compute; reflexivity|]. split; [vm_compute; reflexivity|]. split; [vm_compute; reflexivity|].
  unfold work. apply N.leb_le. vm_compute. reflexivity.
Qed.
@*)

(*@T C36 *)
Lemma p_C36_block_kinds : forall ok p n t pow founder txs ts,
  reachable ok p n t -> few n ->
  is_array 32 pow -> is_array 33 founder -> Forall (is_array 32) txs -> u64_ok ts ->
  let h := mc_get_height (t_main t) in
  match snd (t_emmit_new_main_block p pow founder txs ts t) with
  | Ok (SummBlock i _) => h mod 1000000 = 0 /\ txs = [] /\ bi_height i = h
  | Ok (TxBlock _ root i l) => h mod 1000000 <> 0 /\ txs <> [] /\ l = txs /\ bi_height i = h /\ merkle_root_of txs root
  | Ok (DerivBlock _) => False
  | _ => True
  end.
Proof.
  intros ok p n t pow founder txs ts Hr Hn Hpow Hf Ht Hts. cbv zeta.
  destruct (reachable_inv _ _ _ _ Hr Hn) as (L & HL & Hlen). unfold few in Hn.
  destruct (t_emmit_new_main_block p pow founder txs ts t) as [t' r] eqn:E. cbn [snd].
  pose proof (emit_main_tree p t L _ _ _ _ _ _ HL ltac:(lia) Hpow Hf Ht Hts E) as S.
  destruct r as [b|e| |]; try exact I. destruct S as (S1 & _ & _ & _ & _ & _ & S5 & S6 & _).
  unfold mc_get_height. destruct b as [fee root i l|i|i root]; cbn [main_link get_info] in *.
  - destruct S1 as (R1 & R2 & R3 & R4 & _). subst l. rewrite <- S5. auto.
  - exact S6.
  - destruct S1 as (R4 & _). destruct S6 as [S6 _]. rewrite <- S5. auto.
Qed.

(*@T C37 for the main chain: a refused (or panicking) emission leaves the tree as it was. *)
Lemma p_C37_refused_main_emission : forall ok p n t pow founder txs ts,
  reachable ok p n t -> few n ->
  is_array 32 pow -> is_array 33 founder -> Forall (is_array 32) txs -> u64_ok ts ->
  (forall b, snd (t_emmit_new_main_block p pow founder txs ts t) <> Ok b) ->
  fst (t_emmit_new_main_block p pow founder txs ts t) = t.
Proof.
  intros ok p n t pow founder txs ts Hr Hn Hpow Hf Ht Hts Hno.
  destruct (reachable_inv _ _ _ _ Hr Hn) as (L & HL & Hlen). unfold few in Hn.
  destruct (t_emmit_new_main_block p pow founder txs ts t) as [t' r] eqn:E. cbn [snd fst] in *.
  pose proof (emit_main_tree p t L _ _ _ _ _ _ HL ltac:(lia) Hpow Hf Ht Hts E) as S.
  destruct r as [b|e| |]; try exact S. contradiction (Hno b); reflexivity.
Qed.
(*@E
Example C37_ex : snd (t_emmit_new_main_block Debug (repeat 1 32) addrA [txh] 1597925000 fresh) = Err ETreeWrongPow /\
  snd (t_emmit_new_main_block Debug (repeat 3 32) addrA [txh] 5 fresh) = Panic.
Proof. vm_compute. auto. Qed.
@*)

(*@T C38 in debug builds *)
Lemma p_C38_timestamps_partial : forall n t, reachable no_raw_main Debug n t -> few n ->
  forall i b b', mc_find_by_height i (t_main t) = Ok (Some b) -> mc_find_by_height (i + 1) (t_main t) = Ok (Some b') ->
  bi_timestamp (get_info b) <= bi_timestamp (get_info b').
Proof.
  intros n t Hr Hn i b b' Hb Hb'. destruct (p_C35_emitted_chain_linked Debug n t Hr Hn) as (L & g & _ & _ & Hh & Hf & Hk).
  destruct (reachable_inv _ _ _ _ Hr Hn) as (L0 & HL0 & Hlen). unfold few in Hn.
  pose proof (mi_height _ _ (ti_main _ _ HL0)) as Hh0. unfold mc_get_height in Hh.
  assert (Hin : forall j x, mc_find_by_height j (t_main t) = Ok (Some x) -> nth_error L (N.to_nat j) = Some x).
  { intros j x Hx. destruct (nth_error L (N.to_nat j)) as [y|] eqn:Ey.
    - pose proof (Hf _ _ Ey) as Hy. rewrite Nnat.N2Nat.id in Hy. congruence.
    - exfalso. apply nth_error_None in Ey. unfold mc_find_by_height in Hx.
      rewrite (main_find_raw _ L0) in Hx by (try apply HL0; lia). rewrite nthN_none in Hx by lia. discriminate. }
  apply Hin in Hb, Hb'. replace (N.to_nat (i + 1)) with (S (N.to_nat i)) in Hb' by lia.
  clear Hin Hf Hh Hr. revert Hb Hb'. generalize (N.to_nat i) as k. intros k. revert k.
  induction Hk as [|x|x y l Hxy _ IH]; intros k Hb Hb'.
  - destruct k; discriminate.
  - destruct k; discriminate.
  - destruct k as [|k]; [|exact (IH k Hb Hb')]. cbn in Hb, Hb'. injection Hb as <-. injection Hb' as <-.
    assert (Hrec : exists d', recalculate_difficulty Debug (bi_timestamp (get_info x)) (bi_timestamp (get_info y)) (bi_difficulty (get_info x)) = Ok d').
    { destruct y as [fee root info txs|info|info root]; cbn [main_link get_info] in *.
      - destruct Hxy as (_ & _ & _ & _ & _ & _ & H & _). eauto.
      - contradiction.
      - destruct Hxy as (_ & _ & _ & H & _). eauto. }
    destruct Hrec as (d' & Hrec). rewrite recalc_retarget in Hrec. unfold u64_sub in Hrec.
    destruct (N.leb_spec (bi_timestamp (get_info x)) (bi_timestamp (get_info y))); [assumption|discriminate].
Qed.
(*@T C38 is false in release builds: the subtraction wraps and a block older than its
    predecessor is accepted (and counts as slow, easing the difficulty). *)
Lemma p_C38_timestamps_refuted : exists t b b',
  reachable no_raw_main Release 1 t /\ mc_find_by_height 0 (t_main t) = Ok (Some b) /\
  mc_find_by_height 1 (t_main t) = Ok (Some b') /\ bi_timestamp (get_info b') < bi_timestamp (get_info b).
Proof.
  set (o := OEmitMain (repeat 3 32) addrA [txh] 5).
  exists (fst (step Release fresh o)), (last_of fresh), (emitted Release fresh o).
  split; [apply reach_call; [apply fresh_reachable|repeat split; repeat constructor; reflexivity|exact I]|].
  split; [vm_compute; reflexivity|]. split; vm_compute; reflexivity.
Qed.
