(** The transactions listed in blocks. *)
From Coq Require Import Lia ZifyBool ZifyNat ZifyN.
From Verif Require Import Base Sha256 Merkle Tools Transaction Block Sled Chain Tree Spec Reach LedgerSpec CrashSpec LiveSpec ListedSpec Demo.
From Verif Require Import BaseFacts ToolsFacts MerkleFacts CodecFacts SledFacts ChainFacts DiffFacts TreeFacts LedgerFacts StoreProps CrashFacts CrashProps DcrashProps.

Local Strategy 1000 [u256_mul u256_add u256_sub BYTE_GAS_PRICE recalculate_fee recalculate_difficulty check_pow load_u256 dump_u256 build_tree get_root sha256 block_dump tx_dump mroot].

Lemma careful_reachable p n t : careful p n t -> reachable any_op p n t.
Proof. induction 1; [apply reach_open; assumption|apply reach_call; [assumption..|exact Logic.I]|eapply reach_reopen; eassumption]. Qed.

Definition stored (h : bytes) (t : bct) : Prop := mc_transaction_exists h (t_main t) = true.
Lemma stored_raw h t : stored h t <-> exists d, mc_get_transaction_raw h (t_main t) = Some d.
Proof. unfold stored, mc_transaction_exists, sled_contains, mc_get_transaction_raw. destruct (sled_get h _) as [d|]; split; eauto; try discriminate. intros (d & E). discriminate. Qed.
Lemma stored_step p t o h : stored h t -> stored h (fst (step p t o)).
Proof.
  rewrite !stored_raw. intros (d & E). destruct (step_txs p t o h) as [X|(tx & _ & _ & X)]; eexists; [rewrite X; exact E|exact X].
Qed.
Lemma norm_data_same d : data_or_empty (norm_data d) = data_or_empty d. Proof. destruct d as [[|a l]|]; reflexivity. Qed.
Lemma dump_retrieved h t x : mc_get_transaction_raw h (t_main t) = Some (tx_dump x) -> tx_wf x -> sha256 (tx_dump x) = h -> retrievable h t.
Proof.
  intros E W Hh. unfold retrievable, mc_get_transaction. rewrite E.
  assert (Eh : hd 10 (tx_dump x) = header_code HTransaction) by (rewrite tx_dump_eq; reflexivity).
  rewrite Eh. change (header_code HTransaction =? header_code HTransaction) with true. cbn [negb].
  assert (Es : slice_from (tx_dump x) 1 = Ok (tl (tx_dump x))) by (rewrite tx_dump_eq; reflexivity).
  rewrite Es. cbn [bind]. rewrite tx_parse_dump by exact W. cbn [change_context bind]. eexists. split; [reflexivity|].
  set (y := tx_new_signed _ _ _ _ _ _).
  assert (Ey : tx_dump y = tx_dump x).
  { rewrite !tx_dump_eq. unfold y, tx_new_signed. cbn [tx_sender tx_receiver tx_timestamp tx_signature tx_amount tx_data]. rewrite norm_data_same. reflexivity. }
  assert (Hy : tx_hash y = sha256 (tx_dump y)) by (unfold y, tx_new_signed; cbn [tx_hash]; f_equal; apply tx_dump_hash_irrel).
  split; [|rewrite Hy, Ey; auto]. destruct W as (W1 & W2 & W3 & W4 & W5 & W6). unfold y, tx_new_signed, tx_wf. cbn [tx_sender tx_receiver tx_timestamp tx_signature tx_amount tx_data].
  repeat apply conj; try assumption; try apply W1; try apply W2; try apply W4. destruct (tx_data x) as [[|a l]|]; [exact Logic.I|exact W6|exact Logic.I].
Qed.
Lemma stored_retrievable p n t h : reachable any_op p n t -> few n -> stored h t -> retrievable h t.
Proof.
  intros R F (d & E)%stored_raw. destruct (store_sound _ _ _ _ _ _ R F E) as (Hh & x & W & ->). eapply dump_retrieved; eassumption.
Qed.

Lemma careful_inv p n t : careful p n t -> few n -> exists L, tree_inv t L /\ (length L <= n + 1)%nat /\ forall b h, In b L -> In h (listed b) -> stored h t.
Proof.
  unfold few. induction 1 as [t E|n t o C IH Hwf Hk|n t t' C IH E]; intros Hn.
  - exists [genesis]. split; [apply open_main, E|]. split; [cbn; lia|]. intros b h [<-|[]] [].
  - destruct IH as (L & HL & Hlen & HS); [lia|].
    assert (Hsame : tree_inv (fst (step p t o)) L -> exists L', tree_inv (fst (step p t o)) L' /\ (length L' <= S n + 1)%nat /\ forall b h, In b L' -> In h (listed b) -> stored h (fst (step p t o))).
    { intros H. exists L. split; [exact H|]. split; [lia|]. intros b h Hb Hh. apply stored_step. eapply HS; eassumption. }
    assert (Hadd : forall b, tree_inv (fst (step p t o)) (L ++ [b]) -> (forall h, In h (listed b) -> stored h (fst (step p t o))) ->
      exists L', tree_inv (fst (step p t o)) L' /\ (length L' <= S n + 1)%nat /\ forall b h, In b L' -> In h (listed b) -> stored h (fst (step p t o))).
    { intros b H Hb. exists (L ++ [b]). split; [exact H|]. split; [rewrite app_length; cbn [length]; lia|]. intros b' h Hi Hh.
      apply in_app_iff in Hi as [Hi|[<-|[]]]; [|apply Hb, Hh]. apply stored_step. eapply HS; eassumption. }
    destruct (step_main p t o L HL Hwf ltac:(lia)) as (L' & HL' & [->|(b & -> & [(txs & ->)|(pow & founder & txs & ts & -> & _)])]).
    + apply Hsame, HL'.
    + apply (Hadd b HL'). intros h Hh. cbn [lists_known] in Hk. rewrite Forall_forall in Hk. destruct (Hk h Hh) as [X|X]; [apply stored_step, X|].
      apply in_map_iff in X as (x & <- & Hx). apply stored_raw.
      assert (Eb : bi_height (get_info b) = mc_height (t_main t)).
      { pose proof (mi_heights _ _ (ti_main _ _ HL') (N.of_nat (length L)) b) as X. rewrite nthN_snoc in X. specialize (X eq_refl). rewrite (mi_height _ _ (ti_main _ _ HL)). exact X. }
      assert (Es : snd (step p t (OAddNewBlock b txs)) = Ok RUnit).
      { cbn [step]. unfold t_add_new_block. rewrite mc_add_block_right; [reflexivity|exact Eb|rewrite (mi_height _ _ (ti_main _ _ HL)); lia]. }
      destruct (p_C49_added any_op p n t _ _ x (careful_reachable _ _ _ C) ltac:(unfold few; lia) Hwf Es Hx) as (d & Ed & _). eauto.
    + destruct Hwf as (W1 & W2 & W3 & W4). cbn [step ret_block fst] in *. destruct (t_emmit_new_main_block p pow founder txs ts t) as [t1 r] eqn:E. cbn [fst] in *.
      pose proof (emit_main_tree p t L _ _ _ _ _ _ HL ltac:(lia) W1 W2 W3 W4 E) as S. destruct r as [b'|e| |]; try (subst t1; exact (Hsame HL)).
      destruct S as (_ & _ & S2 & _ & _ & _ & _ & S6 & _). apply (Hadd b' S2). intros h Hh. cbn [lists_known] in Hk.
      assert (X : stored h (fst (step p t (OEmitMain pow founder txs ts)))).
      { apply stored_step. destruct b' as [f rt i l|i|i rt]; [|contradiction Hh|contradiction Hh]. cbn [listed] in Hh. subst l. rewrite Forall_forall in Hk. apply Hk, Hh. }
      cbn [step ret_block fst] in X. rewrite E in X. exact X.
  - destruct IH as (L & HL & Hlen & HS); [lia|]. destruct (reopen_main t L HL) as (t1 & E1 & H1 & _ & _ & _ & T & _); [lia|].
    assert (t1 = t') by congruence. subst t1. exists L. split; [exact H1|]. split; [exact Hlen|]. intros b h Hb Hh.
    unfold stored, mc_transaction_exists, sled_contains. rewrite T, sled_get_flush. exact (HS b h Hb Hh).
Qed.

Lemma found_in p n t L k b : tree_inv t L -> (length L <= n + 1)%nat -> few n -> careful p n t ->
  mc_find_by_height k (t_main t) = Ok (Some b) -> In b L.
Proof.
  unfold few. intros HL Hlen Hn _. unfold mc_find_by_height, mc_find_raw_by_height. pose proof (mi_height _ _ (ti_main _ _ HL)) as Hh.
  destruct (N.ltb_spec (mc_height (t_main t)) k) as [|Hk]; [discriminate|].
  rewrite (mi_blocks _ _ (ti_main _ _ HL)) by lia. destruct (nthN L k) as [b0|] eqn:E; cbn [option_map]; [|discriminate].
  destruct (tree_readable t L k b0 HL ltac:(lia) E) as [R|(i & ->)].
  - rewrite (readable_decode b0 R). intros X. assert (b0 = b) as <- by congruence. eapply nthN_in, E.
  - unfold mc_decode. rewrite deserialize_deriv. discriminate.
Qed.

(*@T C127, callers that list only transactions they have stored: every transaction listed in a block can be retrieved, as long as the node runs and through clean restarts.
    Missing: the emission does not check it, see below. *)
Lemma p_C127_listed_partial : forall p n t k b h, careful p n t -> few n ->
  mc_find_by_height k (t_main t) = Ok (Some b) -> In h (listed b) -> retrievable h t.
Proof.
  intros p n t k b h C F E Hh. destruct (careful_inv p n t C F) as (L & HL & Hlen & HS). pose proof (found_in p n t L k b HL Hlen F C E) as Hb.
  eapply stored_retrievable; [apply careful_reachable, C|exact F|exact (HS b h Hb Hh)].
Qed.
(*@T C127, the same after a crash, for the blocks that were there at the last complete flush. *)
Lemma p_C127_flushed_partial : forall p n t ops s t' k b h, careful p n t -> unflushed p (t_settle (t_flush t)) ops -> few (n + length ops) ->
  t_new (t_crash s (run p (t_settle (t_flush t)) ops)) = Ok t' -> k < mc_get_height (t_main t) ->
  mc_find_by_height k (t_main t') = Ok (Some b) -> In h (listed b) ->
  retrievable h t' \/ exists d d', collision d d'.
Proof.
  intros p n t ops s t' k b h C U F E Hk Hb Hh. assert (F' : few n) by (unfold few in *; lia).
  pose proof (careful_reachable _ _ _ C) as R.
  destruct (p_C59_flushed_blocks_survive_crash p n t ops s R U F) as (t1 & E1 & _ & B & _). assert (t1 = t') by congruence. subst t1.
  destruct (B k Hk) as [Bk _]. unfold mc_find_by_height in Hb. rewrite Bk in Hb.
  destruct (careful_inv p n t C F') as (L & HL & Hlen & HS). pose proof (found_in p n t L k b HL Hlen F' C Hb) as Hi.
  destruct (proj1 (stored_raw h t) (HS b h Hi Hh)) as (d & Ed).
  destruct (p_C85_flushed_lookups_survive p n t ops s t' R U F E) as [X _]. destruct (X h d Ed) as [X1|(d' & X1)]; [left|eauto].
  destruct (store_sound _ _ _ _ _ _ R F' Ed) as (Hd & x & W & ->). eapply dump_retrieved; eassumption.
Qed.
(*@E
Example C127_ex_listed : let x := demo_tx 3 (repeat 7 64) in let o := OEmitMain (repeat 4 32) addrA [tx_hash x] 1597925000 in
  let t1 := fst (step Debug fresh (OAddTxs [x])) in let t2 := fst (step Debug t1 o) in
  lists_known t1 o /\ option_map listed (match mc_find_by_height 1 (t_main t2) with Ok y => y | _ => None end) = Some [tx_hash x] /\
  mc_get_transaction (tx_hash x) (t_main t2) = Ok (Some x).
Proof. cbv zeta. split; [|split; vm_compute; reflexivity]. constructor; [vm_compute; reflexivity|constructor]. Qed.
@*)
(*@E
Example C127_ex_flushed : let x := demo_tx 3 (repeat 7 64) in
  let t := run Debug fresh [OAddTxs [x]; OEmitMain (repeat 4 32) addrA [tx_hash x] 1597925000] in
  match t_new (t_crash (svs 0 0 0 0 0 0) (run Debug (t_settle (t_flush t)) [OAddTxs [demo_tx 4 (repeat 7 64)]])) with
  | Ok t' => option_map listed (match mc_find_by_height 1 (t_main t') with Ok y => y | _ => None end) = Some [tx_hash x] /\
             mc_get_transaction (tx_hash x) (t_main t') = Ok (Some x) /\ mc_get_transaction (tx_hash (demo_tx 4 (repeat 7 64))) (t_main t') = Ok None
  | _ => False end.
Proof. vm_compute. repeat split; reflexivity. Qed.
@*)
(*@T C127 is false when blocks are emitted with other hashes: nothing checks that a listed transaction is known. *)
Lemma p_C127_unknown_refuted : forall p, exists t b h, reachable emission_only p 1 t /\
  mc_find_by_height 1 (t_main t) = Ok (Some b) /\ In h (listed b) /\ mc_get_transaction h (t_main t) = Ok None.
Proof.
  intros p. exists (fst (step p fresh emit_good)). eexists. exists txh. split.
  - apply reach_call; [apply reach_open; vm_compute; reflexivity| |].
    + repeat split; repeat constructor.
    + split; exact Logic.I.
  - split; [destruct p; vm_compute; reflexivity|]. split; [left; vm_compute; reflexivity|destruct p; vm_compute; reflexivity].
Qed.
(*@T C127 is false for "once": a block can list a stored transaction twice, and the next block can list it again. *)
Lemma p_C127_twice_refuted : forall p, exists t b b' h, careful p 3 t /\
  mc_find_by_height 1 (t_main t) = Ok (Some b) /\ listed b = [h; h] /\ mc_find_by_height 2 (t_main t) = Ok (Some b') /\ listed b' = [h].
Proof.
  intros p. set (x := demo_tx 3 (repeat 7 64)). set (t1 := fst (step p fresh (OAddTxs [x]))).
  set (t2 := fst (step p t1 (OEmitMain (repeat 0 32) addrA [tx_hash x; tx_hash x] 1597925000))).
  assert (C1 : careful p 1 t1).
  { apply careful_call; [apply careful_open; vm_compute; reflexivity| |exact Logic.I]. constructor; [|constructor]. repeat split; repeat constructor. }
  assert (Hh : is_array 32 (tx_hash x)) by (split; [vm_compute; reflexivity|vm_compute; repeat constructor]).
  assert (X1 : mc_transaction_exists (tx_hash x) (t_main t1) = true) by (destruct p; vm_compute; reflexivity).
  assert (C2 : careful p 2 t2).
  { apply careful_call; [exact C1| |constructor; [exact X1|constructor; [exact X1|constructor]]].
    split; [split; [reflexivity|repeat constructor]|]. split; [split; [reflexivity|repeat constructor]|]. split; [|reflexivity]. constructor; [exact Hh|constructor; [exact Hh|constructor]]. }
  exists (fst (step p t2 (OEmitMain (repeat 2 32) addrA [tx_hash x] 1597925600))). eexists. eexists. exists (tx_hash x). split.
  - apply careful_call; [exact C2| |constructor; [apply (stored_step p t1), X1|constructor]].
    split; [split; [reflexivity|repeat constructor]|]. split; [split; [reflexivity|repeat constructor]|]. split; [|reflexivity]. constructor; [exact Hh|constructor].
  - split; [destruct p; vm_compute; reflexivity|]. split; [vm_compute; reflexivity|]. split; [destruct p; vm_compute; reflexivity|vm_compute; reflexivity].
Qed.
(*@T C127 is false after a crash during a flush: the block is there, the transaction it lists is gone. *)
Lemma p_C127_crash_refuted : forall p, exists t x s t' b h, careful p 2 t /\ In x (flush_points t) /\ t_new (t_crash s x) = Ok t' /\
  mc_find_by_height 1 (t_main t') = Ok (Some b) /\ In h (listed b) /\ mc_get_transaction h (t_main t') = Ok None.
Proof.
  intros p. set (x := demo_tx 3 (repeat 7 64)). set (t1 := fst (step p fresh (OAddTxs [x]))).
  set (t2 := fst (step p t1 (OEmitMain (repeat 4 32) addrA [tx_hash x] 1597925000))).
  exists t2, (with_main t2 (mc_flush_blocks (mc_dump_config (t_main t2)))), (svs 0 0 0 3 0 0). eexists. eexists. exists (tx_hash x). split.
  - apply careful_call.
    + apply careful_call; [apply careful_open; vm_compute; reflexivity| |exact Logic.I]. constructor; [|constructor]. repeat split; repeat constructor.
    + split; [split; [reflexivity|repeat constructor]|]. split; [split; [reflexivity|repeat constructor]|]. split; [|reflexivity].
      constructor; [split; [vm_compute; reflexivity|vm_compute; repeat constructor]|constructor].
    + constructor; [destruct p; vm_compute; reflexivity|constructor].
  - split; [right; right; left; reflexivity|]. split; [destruct p; vm_compute; reflexivity|]. split; [vm_compute; reflexivity|].
    split; [left; vm_compute; reflexivity|vm_compute; reflexivity].
Qed.
