(** What lookups and calls report when the databases hold anything. *)
From Coq Require Import Lia ZifyBool ZifyNat ZifyN.
From Verif Require Import Base Sha256 Merkle Tools Transaction Block Sled Chain Tree Spec CanonSpec Reach LedgerSpec NodeSpec AnyDirSpec DamageSpec AnyPanicSpec AnyErrSpec Demo.
From Verif Require Import BaseFacts ToolsFacts MerkleFacts CodecFacts CodecProps CanonProps SledFacts ChainFacts DiffFacts TreeFacts LedgerFacts DerivFacts NodeFacts DamageProps AnyDirProps AnyPanicProps.
From Verif Require LiveProps.

Local Strategy 1000 [u256_mul u256_add u256_sub BYTE_GAS_PRICE recalculate_fee recalculate_difficulty check_pow load_u256 dump_u256 build_tree get_root sha256 block_dump tx_dump mroot root_of COINS_PER_CYCLE].

(** *** Lookups *)
Lemma main_read v : (forall x, v = Some x -> bytes_ok x) -> read_main v (mc_decode v).
Proof.
  intros H. destruct v as [v|]; [|reflexivity]. specialize (H v eq_refl). unfold read_main, read_as. pose proof (decode_panic v H) as P.
  assert (A : forall b, deserialize_main_chain_block v = Ok b <-> main_laid_out v b) by (intros b; apply (p_C96_main_accepted v b H)).
  pose proof (deserialize_no_ub v H) as U. unfold mc_decode in *. destruct (deserialize_main_chain_block v) as [b|e| |]; cbn [change_context bind] in *.
  - left. exists b. split; [apply A; reflexivity|reflexivity].
  - right. right. split; [intros x Hx; apply A in Hx; discriminate|]. split; [intros B; apply P in B; discriminate|reflexivity].
  - right. left. split; [apply P; reflexivity|reflexivity].
  - contradiction.
Qed.
Lemma side_read v : (forall x, v = Some x -> bytes_ok x) -> read_side v (dc_decode v).
Proof.
  intros H. pose proof (ddecode_safe v H) as S. destruct v as [v|]; [|reflexivity]. specialize (H v eq_refl). unfold read_side, read_as. pose proof (ddecode_panic v H) as P.
  destruct v as [|x v]; [right; left; split; [left; reflexivity|reflexivity]|].
  assert (Hb : bytes_ok v) by exact (bytes_skip 1 _ H).
  assert (A : forall b, deriv_block_parse v = Ok b <-> side_laid_out (x :: v) b).
  { intros b. rewrite (p_C96_deriv_accepted v b Hb). unfold side_laid_out. split.
    - intros (i & e & rest & E1 & E2 & E3 & E4). exists x, i, e, rest. subst v. auto.
    - intros (h & i & e & rest & E1 & E2 & E3 & E4). exists i, e, rest. assert (v = info_layout e i ++ rest) by congruence. auto. }
  unfold dc_decode, slice_from in *. cbn [length Nat.leb bind skipn] in *. destruct (deriv_block_parse v) as [b|e| |]; cbn [change_context bind safe_lookup] in *.
  - left. exists b. split; [apply A; reflexivity|reflexivity].
  - right. right. split; [intros y Hy; apply A in Hy; discriminate|]. split; [intros B; apply P in B; discriminate|reflexivity].
  - right. left. split; [apply P; reflexivity|reflexivity].
  - contradiction.
Qed.
Lemma tx_read h m : byte_values (mc_txs m) -> read_tx (sled_get h (mc_txs m)) (mc_get_transaction h m).
Proof.
  intros H. pose proof (tx_panic h m H) as P. unfold mc_get_transaction, mc_get_transaction_raw in *. destruct (sled_get h (mc_txs m)) as [v|] eqn:E; [|reflexivity].
  unfold read_tx, read_as. apply H in E.
  assert (P' : forall r : out (option transaction), (r = Panic <-> exists v0, Some v = Some v0 /\ broken_tx v0) -> (broken_tx v <-> r = Panic)).
  { intros r Hr. rewrite Hr. split; [intros B; exists v; auto|]. intros (v0 & Y & B). congruence. }
  apply P' in P. clear P'. destruct v as [|x v]; cbn [hd] in *.
  { right. right. split; [intros y (d & Y & _); discriminate|]. split; [intros (r & Y & _); discriminate|reflexivity]. }
  change (header_code HTransaction) with 0 in *. destruct (N.eqb_spec x 0) as [->|Z]; cbn [negb] in *.
  2:{ right. right. split; [intros y (d & Y & _); congruence|]. split; [intros (r & Y & _); congruence|reflexivity]. }
  unfold slice_from in *. cbn [length Nat.leb bind skipn] in *. assert (Hb : bytes_ok v) by exact (bytes_skip 1 _ E).
  assert (A : forall y, tx_parse v = Ok y <-> tx_laid_out (0 :: v) y).
  { intros y. rewrite (p_C96_tx_accepted v y Hb). unfold tx_laid_out. split; [intros Y; exists v; auto|]. intros (d & Y & Y'). assert (v = d) by congruence. subst d. exact Y'. }
  pose proof (tx_parse_cases v Hb) as U.
  destruct (tx_parse v) as [y|e| |]; cbn [change_context bind] in *.
  - left. exists y. split; [apply A; reflexivity|reflexivity].
  - right. right. split; [intros y Hy; apply A in Hy; discriminate|]. split; [intros B; apply P in B; discriminate|reflexivity].
  - right. left. split; [apply P; reflexivity|reflexivity].
  - contradiction.
Qed.
Lemma main_value_raw h m : mc_find_raw_by_height h m = main_value h m.
Proof. unfold mc_find_raw_by_height, main_value, height_key. destruct (N.ltb_spec (mc_height m) h), (N.leb_spec h (mc_height m)); try lia; reflexivity. Qed.
Lemma side_value_raw h c : dc_find_raw_by_height h c = side_value h c.
Proof. unfold dc_find_raw_by_height, side_value, height_key. destruct (N.ltb_spec (dc_height c) h), (N.leb_spec h (dc_height c)); try lia; reflexivity. Qed.
Lemma main_height_read h m : byte_values (mc_blocks m) -> read_main (main_value h m) (mc_find_by_height h m).
Proof. intros H. rewrite <- main_value_raw. apply main_read, raw_height, H. Qed.
Lemma side_height_read h c : byte_values (dc_blocks c) -> read_side (side_value h c) (dc_find_by_height h c).
Proof. intros H. rewrite <- side_value_raw. apply side_read, draw_height, H. Qed.

(*@T C130: what every lookup gives, whatever the databases hold: nothing if nothing is stored; the block or transaction the stored bytes are laid out as, if they are; a panic if they break off
    at the listed places; an error otherwise.  A reference is read as a height; one of more than 32 bytes panics. *)
Lemma p_C130_lookups : forall t, any_tree t ->
  (let m := t_main t in
   (forall h, read_main (main_value h m) (mc_find_by_height h m)) /\
   (forall h, by_reference (sled_get h (mc_refs m)) (fun k => read_main (main_value k m)) (mc_find_by_hash h m)) /\
   (if mc_height m =? 0 then mc_get_last_block m = Panic else read_main (main_value (mc_height m - 1) m) (mc_get_last_block m)) /\
   (forall h, read_tx (sled_get h (mc_txs m)) (mc_get_transaction h m))) /\
  (forall w c, In (w, c) (t_derivs t) ->
   (forall h, read_side (side_value h c) (dc_find_by_height h c)) /\
   (forall h, by_reference (sled_get h (dc_refs c)) (fun k => read_side (side_value k c)) (dc_find_by_hash h c)) /\
   (if dc_height c =? 0 then dc_get_last_block c = Ok None else read_side (side_value (dc_height c - 1) c) (dc_get_last_block c))).
Proof.
  intros t (H1 & H2 & H3 & _). cbv zeta. split; [split; [|split; [|split]]|intros w c Hc; split; [|split]].
  - intros h. apply main_height_read, H1.
  - intros h. unfold mc_find_by_hash, mc_find_raw_by_hash, by_reference. destruct (sled_get h (mc_refs (t_main t))) as [r|]; [|reflexivity].
    destruct (Nat.ltb_spec 32 (length r)), (Nat.leb_spec (length r) 32); try lia; cbn [bind]; [reflexivity|].
    change (mc_decode (mc_find_raw_by_height (from_be r) (t_main t))) with (mc_find_by_height (from_be r) (t_main t)). rewrite be_val_from_be. apply main_height_read, H1.
  - unfold mc_get_last_block, mc_get_last_raw_block, u256_sub. destruct (N.eqb_spec (mc_height (t_main t)) 0), (N.leb_spec 1 (mc_height (t_main t))); try lia; cbn [bind]; [reflexivity|].
    apply main_height_read, H1.
  - intros h. apply tx_read, H2.
  - intros h. eapply side_height_read, H3, Hc.
  - intros h. unfold dc_find_by_hash, dc_find_raw_by_hash, by_reference. destruct (sled_get h (dc_refs c)) as [r|]; [|reflexivity].
    destruct (Nat.ltb_spec 32 (length r)), (Nat.leb_spec (length r) 32); try lia; cbn [bind]; [reflexivity|].
    change (dc_decode (dc_find_raw_by_height (from_be r) c)) with (dc_find_by_height (from_be r) c). rewrite be_val_from_be. eapply side_height_read, H3, Hc.
  - unfold dc_get_last_block, dc_get_last_raw_block, u256_sub. destruct (N.eqb_spec (dc_height c) 0); [reflexivity|]. destruct (N.leb_spec 1 (dc_height c)); [|lia]. cbn [bind].
    eapply side_height_read, H3, Hc.
Qed.

(*@E
Example C130_ex_lookups :
  let m v := MkMain (sled_insert (to_be 32 6) v sled_empty) (sled_insert [1] [6] (sled_insert [2] (repeat 0 33) (sled_insert [3] [8] sled_empty))) (sled_insert [7] v sled_empty) 7 (repeat 0 32) file_absent in
  let good := block_dump first_block in
  mc_get_last_block (m good) = Ok (Some first_block) /\ mc_find_by_height 6 (m (4 :: skipn 1 good)) <> Ok None /\
  mc_get_last_block (m [9; 9]) = Err EChainFindByHeight /\ mc_get_last_block (m []) = Err EChainFindByHeight /\ mc_get_last_block (m [2]) = Panic /\
  mc_find_by_hash [1] (m [9; 9]) = Err EChainFindByHeight /\ mc_find_by_hash [2] (m good) = Panic /\ mc_find_by_hash [3] (m good) = Ok None /\
  mc_get_transaction [7] (m good) = Err EChainFindByHash /\ main_value 6 (m good) = Some good /\ main_value 8 (m good) = None.
Proof. cbv zeta. repeat apply conj; try (vm_compute; reflexivity). vm_compute. discriminate. Qed.
@*)

(** *** The last block *)
Lemma last_cases m : byte_values (mc_blocks m) ->
  (forall b, mc_get_last_block m = Ok (Some b) <-> last_is m b) /\ (forall e, mc_get_last_block m = Err e <-> unreadable_last m /\ e = EChainFindByHeight).
Proof.
  intros H. unfold last_is, unreadable_last.
  assert (R : if mc_height m =? 0 then mc_get_last_block m = Panic else read_main (main_value (mc_height m - 1) m) (mc_get_last_block m)).
  { unfold mc_get_last_block, mc_get_last_raw_block, u256_sub. destruct (N.eqb_spec (mc_height m) 0), (N.leb_spec 1 (mc_height m)); try lia; cbn [bind]; [reflexivity|]. apply main_height_read, H. }
  destruct (N.eqb_spec (mc_height m) 0) as [Z|Z].
  { rewrite R. split; [intros b; split; [discriminate|intros [E _]; contradiction]|intros e; split; [discriminate|intros [[E _] _]; contradiction]]. }
  unfold main_value in R. destruct (N.leb_spec (mc_height m - 1) (mc_height m)); [|lia].
  destruct (sled_get (to_be 32 (mc_height m - 1)) (mc_blocks m)) as [v|] eqn:E.
  2:{ cbn in R. rewrite R. split; [intros b; split; [discriminate|intros (_ & v & Y & _); discriminate]|intros e; split; [discriminate|intros [(_ & v & Y & _) _]; discriminate]]. }
  assert (Hv : bytes_ok v) by exact (H _ _ E).
  assert (A : forall b, deserialize_main_chain_block v = Ok b <-> main_laid_out v b) by (intros b; apply (p_C96_main_accepted v b Hv)).
  destruct R as [(b & L & ->)|[(B & ->)|(L & B & ->)]].
  - split.
    + intros b'. split; [intros Y; assert (b = b') by congruence; subst; split; [exact Z|]; exists v; auto|].
      intros (_ & v' & Y & L'). assert (v = v') by congruence. subst v'. apply A in L. apply A in L'. congruence.
    + intros e. split; [discriminate|]. intros [(_ & v' & Y & _ & N) _]. assert (v = v') by congruence. subst v'. destruct (N b L).
  - apply decode_panic in B; [|exact Hv]. split.
    + intros b'. split; [discriminate|]. intros (_ & v' & Y & L'). assert (v = v') by congruence. subst v'. apply A in L'. cbn [mc_decode] in B. rewrite L' in B. discriminate.
    + intros e. split; [discriminate|]. intros [(_ & v' & Y & N & _) _]. assert (v = v') by congruence. subst v'. destruct N. apply decode_panic; assumption.
  - split.
    + intros b'. split; [discriminate|]. intros (_ & v' & Y & L'). assert (v = v') by congruence. subst v'. destruct (L _ L').
    + intros e. split; [intros Y; split; [split; [exact Z|]; exists v; auto|congruence]|]. intros [_ ->]. reflexivity.
Qed.
Lemma slast_cases c : byte_values (dc_blocks c) ->
  (forall b, dc_get_last_block c = Ok (Some b) <-> side_last_is c b) /\ (dc_get_last_block c = Ok None <-> side_no_last c) /\
  (forall e, dc_get_last_block c = Err e <-> side_unreadable_last c /\ e = EChainFindByHeight).
Proof.
  intros H. unfold side_last_is, side_unreadable_last, side_no_last.
  assert (R : if dc_height c =? 0 then dc_get_last_block c = Ok None else read_side (side_value (dc_height c - 1) c) (dc_get_last_block c)).
  { unfold dc_get_last_block, dc_get_last_raw_block, u256_sub. destruct (N.eqb_spec (dc_height c) 0); [reflexivity|]. destruct (N.leb_spec 1 (dc_height c)); [|lia]. cbn [bind]. apply side_height_read, H. }
  destruct (N.eqb_spec (dc_height c) 0) as [Z|Z].
  { rewrite R. split; [intros b; split; [discriminate|intros [E _]; contradiction]|]. split; [tauto|]. intros e; split; [discriminate|intros [[E _] _]; contradiction]. }
  unfold side_value in R. destruct (N.leb_spec (dc_height c - 1) (dc_height c)); [|lia].
  destruct (sled_get (to_be 32 (dc_height c - 1)) (dc_blocks c)) as [v|] eqn:E.
  2:{ cbn in R. rewrite R. split; [intros b; split; [discriminate|intros (_ & v & Y & _); discriminate]|]. split; [tauto|]. intros e; split; [discriminate|intros [(_ & v & Y & _) _]; discriminate]. }
  assert (Hv : bytes_ok v) by exact (H _ _ E).
  assert (U : forall b b', side_laid_out v b -> side_laid_out v b' -> b = b').
  { intros b b' (h & i & e & rest & -> & W1 & C1 & Y1) (h' & i' & e' & rest' & -> & W2 & C2 & Y2).
    assert (Hb : bytes_ok (tl v)) by exact (bytes_skip 1 _ Hv).
    assert (Y : deriv_block_parse (tl v) = Ok (DerivBlock i)) by (apply p_C96_deriv_accepted; [exact Hb|]; exists i, e, rest; subst v; auto).
    assert (Y' : deriv_block_parse (tl v) = Ok (DerivBlock i')) by (apply p_C96_deriv_accepted; [exact Hb|]; exists i', e', rest'; rewrite Y2; auto). congruence. }
  assert (X : forall b, broken_side v -> side_laid_out v b -> False).
  { intros b B L. pose proof (proj2 (ddecode_panic v Hv) B) as P. destruct L as (h & i & e & rest & -> & W1 & C1 & Y1).
    assert (Hb : bytes_ok (tl v)) by exact (bytes_skip 1 _ Hv).
    assert (Y : deriv_block_parse (tl v) = Ok (DerivBlock i)) by (apply p_C96_deriv_accepted; [exact Hb|]; exists i, e, rest; subst v; auto).
    destruct v as [|x v']; [discriminate|]. unfold dc_decode, slice_from in P. cbn [length Nat.leb bind skipn tl] in P, Y. rewrite Y in P. discriminate. }
  destruct R as [(b & L & ->)|[(B & ->)|(L & B & ->)]].
  - split; [|split].
    + intros b'. split; [intros Y; assert (b = b') by congruence; subst; split; [exact Z|]; exists v; auto|].
      intros (_ & v' & Y & L'). assert (v = v') by congruence. subst v'. rewrite (U _ _ L L'). reflexivity.
    + split; [discriminate|]. intros [Y|Y]; [contradiction|discriminate].
    + intros e. split; [discriminate|]. intros [(_ & v' & Y & _ & N) _]. assert (v = v') by congruence. subst v'. destruct (N b L).
  - split; [|split].
    + intros b'. split; [discriminate|]. intros (_ & v' & Y & L'). assert (v = v') by congruence. subst v'. destruct (X _ B L').
    + split; [discriminate|]. intros [Y|Y]; [contradiction|discriminate].
    + intros e. split; [discriminate|]. intros [(_ & v' & Y & N & _) _]. assert (v = v') by congruence. subst v'. contradiction.
  - split; [|split].
    + intros b'. split; [discriminate|]. intros (_ & v' & Y & L'). assert (v = v') by congruence. subst v'. destruct (L _ L').
    + split; [discriminate|]. intros [Y|Y]; [contradiction|discriminate].
    + intros e. split; [intros Y; split; [split; [exact Z|]; exists v; auto|congruence]|]. intros [_ ->]. reflexivity.
Qed.

(** *** Emission *)
Lemma mc_add_err b m e : snd (mc_add_block b m) = Err e <-> bi_height (get_info b) <> mc_height m /\ e = EChainAddingBlock.
Proof.
  unfold mc_add_block. destruct (N.eqb_spec (bi_height (get_info b)) (mc_height m)) as [E|E]; cbn [negb snd].
  - unfold u256_add. destruct (_ <? _); cbn [snd]; split; (discriminate || tauto).
  - split; [intros Y; split; [exact E|congruence]|intros [_ ->]; reflexivity].
Qed.
Lemma dc_add_err i c e : snd (dc_add_block i c) = Err e <-> bi_height i <> dc_height c /\ e = EChainAddingBlock.
Proof.
  unfold dc_add_block. destruct (N.eqb_spec (bi_height i) (dc_height c)) as [E|E]; cbn [negb snd].
  - unfold u256_add. destruct (_ <? _); cbn [snd]; split; (discriminate || tauto).
  - split; [intros Y; split; [exact E|congruence]|intros [_ ->]; reflexivity].
Qed.
Lemma err_is {A} e e' : @Err A e = Err e' <-> e' = e. Proof. split; congruence. Qed.
Lemma pass {A B} (r : out A) (x : B) e : match r with Ok _ => Ok x | Err e => Err e | Panic => Panic | UB => UB end = Err e <-> r = Err e.
Proof. destruct r; split; congruence. Qed.

Lemma emit_main_err p t pow founder txs ts e : any_tree t ->
  (snd (t_emmit_new_main_block p pow founder txs ts t) = Err e <-> errors_any p t (OEmitMain pow founder txs ts) e).
Proof.
  intros (H1 & _). cbn [errors_any]. pose proof (last_safe _ H1) as Hl. destruct (last_cases _ H1) as (C1 & C2).
  assert (X : forall u : block -> Prop, ((unreadable_last (t_main t) /\ e = EChainFindByHeight) \/ exists b, last_is (t_main t) b /\ u b) <->
     (mc_get_last_block (t_main t) = Err e \/ exists b, mc_get_last_block (t_main t) = Ok (Some b) /\ u b)).
  { intros u. rewrite C2. split; (intros [Y|(b & Y & Y')]; [left; exact Y|right; exists b; split; [apply C1; exact Y|exact Y']]). }
  match goal with |- _ <-> (_ \/ (exists x, _ /\ @?u x)) => rewrite (X u) end. cbv beta zeta. clear X C1 C2. unfold t_emmit_new_main_block.
  destruct (mc_get_last_block (t_main t)) as [[b|]|e0| |]; cbn [bind unwrap_opt snd safe_lookup] in *; [| | | |contradiction].
  2,4: split; [discriminate|intros [Y|(x & Y & _)]; discriminate].
  2:{ split; [intros Y; left; congruence|]. intros [Y|(x & Y & _)]; [congruence|discriminate]. }
  assert (X : forall u : block -> Prop, (@Ok (option block) (Some b) = Err e \/ exists b0, @Ok (option block) (Some b) = Ok (Some b0) /\ u b0) <-> u b).
  { intros u. split; [intros [Y|(x & Y & H)]; [discriminate|]|intros H; right; exists b; auto]. assert (b = x) by congruence. subst. exact H. }
  match goal with |- _ <-> (_ \/ (exists x, _ = Ok (Some x) /\ @?u x)) => rewrite (X u) end. cbv beta. clear X.
  destruct Hl as [Hw Hk]. pose proof (block_info_wf _ Hw) as Hi. pose proof Hi as (Hts & _ & _ & _ & Hd & _).
  pose proof (retarget_p p b ts Hi) as RP. pose proof (retarget_u p b ts Hi) as RU.
  rewrite work_eq by exact Hd. cbn [bind]. destruct (enough_work (block_hash b) (bi_difficulty (get_info b)) (root_of txs) pow) eqn:W; cbn [negb bind snd].
  2:{ rewrite err_is. split; [auto|]. intros [[_ Y]|[Y _]]; [exact Y|discriminate]. }
  pose proof (recalc_no_err p (bi_timestamp (get_info b)) ts (bi_difficulty (get_info b))) as RE.
  destruct (recalculate_difficulty p (bi_timestamp (get_info b)) ts (bi_difficulty (get_info b))) as [d|e1| |] eqn:Ed; cbn [bind snd].
  2:{ destruct (RE e1 Hd eq_refl). }
  2:{ split; [discriminate|]. intros [[Y _]|(_ & Y & _)]; [discriminate|]. destruct (Y (proj1 RP eq_refl)). }
  2:{ split; [discriminate|]. intros [[Y _]|(_ & _ & Y & _)]; [discriminate|]. destruct (Y (proj1 RU eq_refl)). }
  assert (NP : ~ retarget_panics p b ts) by (intros Y; apply RP in Y; discriminate).
  assert (NU : ~ retarget_undefined p b ts) by (intros Y; apply RU in Y; discriminate).
  assert (X : forall u : Prop, (true = false /\ e = ETreeWrongPow \/ true = true /\ ~ retarget_panics p b ts /\ ~ retarget_undefined p b ts /\ u) <-> u).
  { intros u. split; [intros [[Y _]|(_ & _ & _ & Y)]; [discriminate|exact Y]|]. intros Y. right. auto. }
  rewrite X. clear X NP NU RP RU RE. pose proof (recalc_wf _ _ _ _ _ Hd Ed) as [Hdl' _].
  destruct (fee_eq d) as [-> _]; [lia|]. cbn [bind]. unfold u256_add at 1. destruct (N.ltb_spec (bi_height (get_info b) + 1) (2 ^ 256)) as [L|L]; [|split; [discriminate|intros [Y _]; lia]].
  cbn [bind bi_height]. change BLOCKS_PER_EPOCH with 1000000. set (h := bi_height (get_info b) + 1) in *.
  assert (X : forall u : Prop, (h < 2 ^ 256 /\ u) <-> u) by (intros u; tauto). rewrite X. clear X.
  destruct (N.eqb_spec (h mod 1000000) 0) as [Z|Z]; destruct txs as [|x txs].
  - rewrite summarize_ok. set (rt := mroot _).
    change (t_set_amount ROOT_PUBLIC_ADDRESS COINS_PER_CYCLE (t_rotate_dbs t)) with (rotated t, @Ok unit tt).
    cbv beta zeta iota. match goal with |- context [mc_add_block ?B ?M] => pose proof (mc_add_err B M e) as S; destruct (mc_add_block B M) as [m r]; set (hh := mc_height M) in S end.
    change hh with (mc_height (t_main t)) in S. cbn [snd get_info bi_height] in S |- *. rewrite pass, S.
    split; [intros Y; right; right; tauto|]. intros [(_ & Y & _)|[(Y & _)|(_ & Y)]]; [destruct (Y eq_refl)|contradiction|exact Y].
  - cbn [snd]. rewrite err_is. split; [intros Y; left; split; [exact Z|]; split; [discriminate|exact Y]|].
    intros [(_ & _ & Y)|[(Y & _)|(Y & _)]]; [exact Y|contradiction|]. discriminate (proj1 Y Z).
  - cbn [snd]. rewrite err_is. split; [intros Y; right; left; auto|].
    intros [(Y & _)|[(_ & _ & Y)|(Y & _)]]; [contradiction|exact Y|]. destruct (Z (proj2 Y eq_refl)).
  - pose proof (mroot_ok (x :: txs)) as Hrt. rewrite Hrt.
    match goal with |- context [mc_add_block ?B ?M] => pose proof (mc_add_err B M e) as S; destruct (mc_add_block B M) as [m r] end.
    cbn [snd get_info bi_height] in S |- *. rewrite pass, S.
    split; [intros Y; right; right; split; [split; [contradiction|discriminate]|exact Y]|]. intros [(Y & _)|[(_ & Y & _)|(_ & Y)]]; [contradiction|discriminate|exact Y].
Qed.

Lemma get_deriv_err w t e : any_tree t -> (snd (t_get_derivative_chain w t) = Err e <-> side_refused w t e).
Proof.
  intros (H1 & _). destruct (last_cases _ H1) as (C1 & C2). pose proof (last_safe _ H1) as Hl. unfold side_refused, t_get_derivative_chain.
  destruct (assoc_get w (t_derivs t)) as [c|]; [split; [discriminate|intros [Y _]; discriminate]|].
  rewrite <- C2. assert (X : (exists b, last_is (t_main t) b) <-> exists b, mc_get_last_block (t_main t) = Ok (Some b)) by (split; intros (b & Y); exists b; apply C1; exact Y).
  rewrite X. clear X C1 C2.
  destruct (mc_get_last_block (t_main t)) as [[b|]|e0| |]; cbn [bind unwrap_opt snd safe_lookup] in *; [| | | |contradiction].
  2,4: split; [discriminate|intros [_ [Y|((x & Y) & _)]]; discriminate].
  2:{ split; [intros Y; split; [reflexivity|]; left; congruence|]. intros [_ [Y|((x & Y) & _)]]; [congruence|discriminate]. }
  unfold dc_new. destruct (assoc_get (hex_encode w) (t_closed t)) as [k|]; cbn [deriv_disk_empty dd_cfg file_absent file_cur].
  - destruct (file_cur (dd_cfg k)) as [cfg|] eqn:Ec; cbn [bind].
    + rewrite read3. destruct (Nat.ltb_spec (length cfg) 96) as [L|L]; cbn [bind index nth_error snd].
      * rewrite err_is. split; [intros ->; split; [reflexivity|]; right; split; [eauto|]; split; [reflexivity|]; exists k, cfg; auto|].
        intros [_ [Y|(_ & Y & _)]]; [discriminate|exact Y].
      * split; [discriminate|]. intros [_ [Y|(_ & _ & k' & cfg' & Y & Y' & L')]]; [discriminate|]. assert (k = k') by congruence. subst k'. assert (cfg = cfg') by congruence. subst. lia.
    + split; [discriminate|]. intros [_ [Y|(_ & _ & k' & cfg' & Y & Y' & L')]]; [discriminate|]. assert (k = k') by congruence. subst k'. congruence.
  - cbn [bind snd]. split; [discriminate|]. intros [_ [Y|(_ & _ & k' & cfg' & Y & _)]]; discriminate.
Qed.
Lemma emit_deriv_err p t pow founder ts e : any_tree t ->
  (snd (t_emmit_new_derivative_block p pow founder ts t) = Err e <-> errors_any p t (OEmitDeriv pow founder ts) e).
Proof.
  intros A. cbn [errors_any]. rewrite <- (get_deriv_err founder t e A). destruct (get_deriv_any founder t A) as ((H1 & _) & Hm & Hg). rewrite <- Hm. clear A Hm.
  unfold t_emmit_new_derivative_block.
  destruct (t_get_derivative_chain founder t) as [t1 [c|e0| |]]; cbn [fst snd] in *.
  3,4: split; [discriminate|intros [Y|(c & Y & _)]; discriminate].
  2:{ split; [intros Y; left; congruence|]. intros [Y|(c & Y & _)]; [congruence|discriminate]. }
  assert (X : forall u : deriv_chain -> Prop, (@Ok deriv_chain c = Err e \/ exists c0, @Ok deriv_chain c = Ok c0 /\ u c0) <-> u c).
  { intros u. split; [intros [Y|(c0 & Y & H)]; [discriminate|]|intros H; right; exists c; auto]. assert (c = c0) by congruence. subst. exact H. }
  match goal with |- _ <-> (_ \/ (exists x, _ = Ok x /\ @?u x)) => rewrite (X u) end. cbv beta zeta. clear X.
  assert (Hend : forall h d a height, is_array 32 d -> u64_ok a ->
    (snd (match (let! ok := check_pow h d [] pow in
        if negb ok then Err ETreeWrongPow
        else let! d := recalculate_difficulty p a ts d in Ok (MkInfo ts pow h height d founder)) with
      | Ok info => let '(dc', ra) := dc_add_block info c in
          (with_derivs t1 (assoc_set founder dc' (t_derivs t1)),
           match ra with Ok _ => Ok (DerivBlock info) | Err e => Err e | Panic => Panic | UB => UB end)
      | Err e => (t1, Err e) | Panic => (t1, Panic) | UB => (t1, UB)
      end) = Err e <-> enough_work h d (root_of []) pow = false /\ e = ETreeWrongPow \/ enough_work h d (root_of []) pow = true /\
        recalculate_difficulty p a ts d <> Panic /\ recalculate_difficulty p a ts d <> UB /\ height <> dc_height c /\ e = EChainAddingBlock)).
  { intros h d a height Hd Ha. rewrite work_eq by exact Hd. cbn [bind]. destruct (enough_work h d (root_of []) pow); cbn [negb bind snd].
    2:{ rewrite err_is. split; [auto|]. intros [[_ Y]|[Y _]]; [exact Y|discriminate]. }
    pose proof (recalc_no_err p a ts d) as RE.
    destruct (recalculate_difficulty p a ts d) as [d'|e1| |] eqn:Ed; cbn [bind snd].
    - match goal with |- context [dc_add_block ?B ?M] => pose proof (dc_add_err B M e) as S; destruct (dc_add_block B M) as [m r] end. cbn [snd bi_height] in S |- *.
      rewrite pass, S. split; [intros Y; right; split; [reflexivity|]; split; [discriminate|]; split; [discriminate|exact Y]|]. intros [[Y _]|(_ & _ & _ & Y)]; [discriminate|exact Y].
    - destruct (RE e1 Hd eq_refl).
    - split; [discriminate|]. intros [[Y _]|(_ & Y & _)]; congruence.
    - split; [discriminate|]. intros [[Y _]|(_ & _ & Y & _)]; congruence. }
  pose proof (dlast_safe _ Hg) as Hl. destruct (slast_cases _ Hg) as (C1 & C2 & C3).
  assert (X : forall (u : block -> Prop) (v : Prop), ((side_unreadable_last c /\ e = EChainFindByHeight) \/ (exists b, side_last_is c b /\ u b) \/ (side_no_last c /\ v)) <->
     (dc_get_last_block c = Err e \/ (exists b, dc_get_last_block c = Ok (Some b) /\ u b) \/ (dc_get_last_block c = Ok None /\ v))).
  { intros u v. rewrite C3, C2. split; (intros [Y|[(b & Y & Y')|Y]]; [left; exact Y|right; left; exists b; split; [apply C1; exact Y|exact Y']|right; right; exact Y]). }
  match goal with |- _ <-> (_ \/ (exists x, _ /\ @?u x) \/ (_ /\ ?v)) => rewrite (X u v) end. cbv beta. clear X C1 C2 C3.
  destruct (dc_get_last_block c) as [[b|]|e1| |] eqn:El; cbn [bind snd safe_lookup] in *; [| | | |contradiction].
  - assert (X : forall (u : block -> Prop) (v : Prop), (@Ok (option block) (Some b) = Err e \/ (exists b0, @Ok (option block) (Some b) = Ok (Some b0) /\ u b0) \/ (@Ok (option block) (Some b) = Ok None /\ v)) <-> u b).
    { intros u v. split; [intros [Y|[(x & Y & H)|(Y & _)]]; [discriminate| |discriminate]|intros H; right; left; exists b; auto]. assert (b = x) by congruence. subst x. exact H. }
    match goal with |- _ <-> (_ \/ (exists x, _ /\ @?u x) \/ (_ /\ ?v)) => rewrite (X u v) end. cbv beta. clear X.
    assert (Hi : info_wf (get_info b)) by (destruct Hl as (i & -> & Hi); exact Hi).
    rewrite <- (retarget_p p b ts Hi), <- (retarget_u p b ts Hi). destruct Hi as (Hts & _ & _ & _ & Hd & _).
    unfold u256_add. destruct (N.ltb_spec (bi_height (get_info b) + 1) (2 ^ 256)) as [L|L]; cbn [bind snd].
    + rewrite Hend by assumption. split; [intros Y; split; [exact L|exact Y]|]. intros [_ Y]. exact Y.
    + split; [discriminate|]. intros [Y _]. lia.
  - assert (X : forall (u : block -> Prop) (v : Prop), (@Ok (option block) None = Err e \/ (exists b0, @Ok (option block) None = Ok (Some b0) /\ u b0) \/ (@Ok (option block) None = Ok None /\ v)) <-> v).
    { intros u v. split; [intros [Y|[(x & Y & _)|(_ & H)]]; [discriminate|discriminate|exact H]|auto]. }
    match goal with |- _ <-> (_ \/ (exists x, _ /\ @?u x) \/ (_ /\ ?v)) => rewrite (X u v) end. clear X.
    assert (Hf : safe_lookup main_kind (mc_find_by_hash (dc_genesis c) (t_main t1))).
    { unfold mc_find_by_hash, mc_find_raw_by_hash. destruct (sled_get (dc_genesis c) _) as [hb|]; [|exact Logic.I]. destruct (Nat.ltb _ _); [exact Logic.I|]. cbn [bind]. apply decode_safe, raw_height, H1. }
    destruct (mc_find_by_hash (dc_genesis c) (t_main t1)) as [[b|]|e1| |]; cbn [bind safe_lookup snd] in *; [| | | |contradiction].
    + destruct Hf as [Hw _]. pose proof (block_info_wf _ Hw) as (Hts & _). assert (Hb : is_array 32 BEGINNING_DIFFICULTY) by (split; [reflexivity|vm_compute; repeat constructor]).
      rewrite Hend by assumption.
      assert (RU : recalculate_difficulty p (bi_timestamp (get_info b)) ts BEGINNING_DIFFICULTY <> UB).
      { rewrite recalc_ub by assumption. intros (_ & s & _ & _ & B). discriminate B. }
      assert (RP : recalculate_difficulty p (bi_timestamp (get_info b)) ts BEGINNING_DIFFICULTY <> Panic <-> (p = Debug -> bi_timestamp (get_info b) <= ts)).
      { rewrite recalc_panic by assumption. split.
        - intros Y P. destruct (N.le_gt_cases (bi_timestamp (get_info b)) ts) as [L|L]; [exact L|]. destruct Y. auto.
        - intros Y (P & [B|(s & _ & _ & B)]); [specialize (Y P); lia|discriminate B]. }
      rewrite RP. split.
      * intros Y. right. right. exists b. split; [reflexivity|]. destruct Y as [Y|(Y1 & Y2 & _ & Y3 & Y4)]; [left; exact Y|]. right. split; [exact Y1|]. split; [exact Y2|]. split; [lia|exact Y4].
      * intros [Y|[[Y _]|(x & Y & Y')]]; [discriminate|discriminate|]. assert (b = x) by congruence. subst x.
        destruct Y' as [Y'|(Y1 & Y2 & Y3 & Y4)]; [left; exact Y'|]. right. split; [exact Y1|]. split; [exact Y2|]. split; [exact RU|]. split; [lia|exact Y4].
    + rewrite err_is. split; [intros Y; right; left; auto|]. intros [Y|[[_ Y]|(x & Y & _)]]; [discriminate|exact Y|discriminate].
    + split; [intros Y; left; congruence|]. intros [Y|[[Y _]|(x & Y & _)]]; [congruence|discriminate|discriminate].
    + split; [discriminate|]. intros [Y|[[Y _]|(x & Y & _)]]; discriminate.
  - split; [intros Y; left; congruence|]. intros [Y|[(x & Y & _)|(Y & _)]]; [congruence|discriminate..].
  - split; [discriminate|]. intros [Y|[(x & Y & _)|(Y & _)]]; discriminate.
Qed.

(** *** Transactions *)
Lemma led_no_err s r e : snd (led_tx s r) <> Err e.
Proof. destruct r; discriminate. Qed.
Lemma send_tx_err p t tx e : any_tree t -> tx_wf tx -> N.of_nat (length (tx_dump tx)) < 2 ^ 63 ->
  (snd (t_send_transaction tx t) = Err e <-> errors_any p t (OSendTx tx) e).
Proof.
  intros (H1 & _) Hwf Hsz. cbn [errors_any]. destruct (last_cases _ H1) as (C1 & C2). pose proof (last_safe _ H1) as Hl.
  pose proof (tx_dump_size tx Hwf) as Hds. unfold amount_entry, gas_entry.
  assert (Hsize : N.of_nat (tx_get_dump_size tx) = N.of_nat (length (tx_dump tx)) + (if tx_amount tx =? 0 then 1 else 0)).
  { rewrite Hds. destruct (tx_amount tx =? 0); lia. }
  assert (Hs64 : N.of_nat (length (tx_dump tx)) + (if tx_amount tx =? 0 then 1 else 0) < 2 ^ 64) by (destruct (tx_amount tx =? 0); lia).
  unfold t_send_transaction. rewrite Hsize. set (size := N.of_nat (length (tx_dump tx)) + (if tx_amount tx =? 0 then 1 else 0)) in *. clearbody size. clear Hsize Hds Hsz. cbv zeta.
  unfold t_get_gas, t_get_amount, led_get.
  destruct (entry_cases (sled_get (tx_sender tx) (t_gas t))) as [(g & -> & Hg & Dg & Ug)|(-> & _ & Dg)]; cbn [bind]; [|split; [discriminate|intros (g & f & Y & _); destruct (Dg g Y)]].
  destruct (entry_cases (sled_get (tx_sender tx) (t_summary t))) as [(f & -> & Hf & Df & Uf)|(-> & _ & Df)]; cbn [bind]; [|split; [discriminate|intros (g' & f & _ & Y & _); destruct (Df f Y)]].
  unfold u256_mul at 1. change BYTE_GAS_PRICE with 625000000000. destruct (N.ltb_spec (625000000000 * size) (2 ^ 256)) as [_|L]; [|exfalso; revert L Hs64; clear; lia]. cbn [bind].
  change (gas_for size) with (625000000000 * size). set (gas := 625000000000 * size). clearbody gas.
  set (u := g < gas /\ e = ETreeNewTransaction \/ gas <= g /\ (mc_get_last_block (t_main t) = Err e \/ exists b, mc_get_last_block (t_main t) = Ok (Some b) /\ fee_after b + tx_amount tx < 2 ^ 256 /\
     f < fee_after b + tx_amount tx /\ e = ETreeNewTransaction)).
  match goal with |- _ <-> ?R => assert (X : R <-> u) end.
  { unfold u. rewrite C2. split.
    - intros (g' & f' & E1 & E2 & E3). rewrite (Ug _ E1), (Uf _ E2) in E3. destruct E3 as [E3|(E3 & [E4|(b & E4 & E5)])]; [left; exact E3|right; split; [exact E3|left; exact E4]|].
      right. split; [exact E3|]. right. exists b. split; [apply C1; exact E4|exact E5].
    - intros E3. exists g, f. split; [exact Hg|]. split; [exact Hf|]. destruct E3 as [E3|(E3 & [E4|(b & E4 & E5)])]; [left; exact E3|right; split; [exact E3|left; exact E4]|].
      right. split; [exact E3|]. right. exists b. split; [apply C1; exact E4|exact E5]. }
  rewrite X. clear X C1 C2. unfold u. clear u. destruct (N.ltb_spec g gas) as [G|G]; cbn [snd].
  { rewrite err_is. split; [intros Y; left; split; [exact G|exact Y]|]. intros [[_ Y]|[Y _]]; [exact Y|lia]. }
  match goal with |- _ <-> (_ \/ _ /\ ?R) => assert (X : (g < gas /\ e = ETreeNewTransaction \/ gas <= g /\ R) <-> R) end.
  { split; [intros [[Y _]|[_ Y]]; [lia|exact Y]|]. intros Y. right. split; [exact G|exact Y]. }
  rewrite X. clear X.
  destruct (mc_get_last_block (t_main t)) as [[b|]|e1| |]; cbn [bind unwrap_opt snd safe_lookup] in *; [| | | |contradiction].
  2,4: split; [discriminate|intros [Y|(x & Y & _)]; discriminate].
  2:{ split; [intros Y; left; congruence|]. intros [Y|(x & Y & _)]; [congruence|discriminate]. }
  assert (X : forall u : block -> Prop, (@Ok (option block) (Some b) = Err e \/ exists b0, @Ok (option block) (Some b) = Ok (Some b0) /\ u b0) <-> u b).
  { intros u. split; [intros [Y|(x & Y & H)]; [discriminate|]|intros H; right; exists b; auto]. assert (b = x) by congruence. subst. exact H. }
  match goal with |- _ <-> (_ \/ (exists x, _ = Ok (Some x) /\ @?u x)) => rewrite (X u) end. cbv beta. clear X.
  destruct Hl as [Hw _]. pose proof (block_info_wf _ Hw) as (_ & _ & _ & _ & [Hdl Hdb] & _).
  destruct (fee_eq (bi_difficulty (get_info b))) as [-> _]; [lia|]. cbn [bind]. rewrite clz_spec by exact Hdb. change (62500 * leading_zero_bits (bi_difficulty (get_info b))) with (fee_after b).
  unfold u256_add. destruct (N.ltb_spec (fee_after b + tx_amount tx) (2 ^ 256)) as [L|L]; cbn [bind snd]; [|split; [discriminate|intros [Y _]; exfalso; revert Y L; clear; lia]].
  destruct (N.ltb_spec f (fee_after b + tx_amount tx)) as [F|F]; cbn [snd]; [rewrite err_is; tauto|].
  split; [|intros (_ & Y & _); exfalso; revert Y F; clear; lia]. intros Y. exfalso. revert Y.
  unfold t_send_amount. destruct (bytes_eqb (tx_sender tx) (tx_receiver tx)).
  - unfold t_sub_gas, t_on_gas, led_sub. match goal with |- context [led_tx ?s ?r] => pose proof (led_no_err s r e) as Y; destruct (led_tx s r) end. exact Y.
  - unfold t_on_summary at 1, led_send. match goal with |- context [led_tx ?s ?r] => pose proof (led_no_err s r e) as Y; destruct (led_tx s r) as [s1 [v|e1| |]] end; cbn [snd] in *; try exact Y; try discriminate.
    unfold t_sub_gas, t_on_gas, led_sub. match goal with |- context [led_tx ?s ?r] => pose proof (led_no_err s r e) as Y'; destruct (led_tx s r) end. exact Y'.
Qed.

(*@T C130: which calls return which error, whatever the databases hold. *)
Lemma p_C130_errors : forall p t o e, any_tree t -> op_wf o -> (forall tx, o = OSendTx tx -> N.of_nat (length (tx_dump tx)) < 2 ^ 63) ->
  (snd (step p t o) = Err e <-> errors_any p t o e).
Proof.
  intros p t o e A Hwf Hsz.
  assert (Unit : forall x : bct * out unit, snd (ret_unit x) = Err e <-> snd x = Err e) by (intros [t' [u|e'| |]]; cbn; split; congruence).
  assert (Blk : forall x : bct * out block, snd (ret_block x) = Err e <-> snd x = Err e) by (intros [t' [u|e'| |]]; cbn; split; congruence).
  assert (NoS : forall r, snd (ret_unit (t_on_summary (fun s => led_tx s (r s)) t)) = Err e -> False).
  { intros r Y. apply Unit in Y. unfold t_on_summary in Y. pose proof (led_no_err (t_summary t) (r (t_summary t)) e) as N. destruct (led_tx (t_summary t) (r (t_summary t))). contradiction. }
  assert (NoG : forall r, snd (ret_unit (t_on_gas (fun s => led_tx s (r s)) t)) = Err e -> False).
  { intros r Y. apply Unit in Y. unfold t_on_gas in Y. pose proof (led_no_err (t_gas t) (r (t_gas t)) e) as N. destruct (led_tx (t_gas t) (r (t_gas t))). contradiction. }
  destruct o; cbn [step].
  - split; [apply NoS|contradiction].
  - split; [apply NoS|contradiction].
  - split; [apply NoS|contradiction].
  - split; [|contradiction]. unfold t_send_amount. destruct (bytes_eqb from to); [discriminate|]. apply NoS.
  - split; [apply NoG|contradiction].
  - split; [apply NoG|contradiction].
  - split; [apply NoG|contradiction].
  - rewrite Unit. apply send_tx_err; [exact A|exact Hwf|apply Hsz; reflexivity].
  - rewrite Blk. apply (emit_main_err p t pow founder txs ts e A).
  - rewrite Blk. apply (emit_deriv_err p t pow founder ts e A).
  - cbn [errors_any]. rewrite <- (get_deriv_err owner t e A). destruct (t_get_derivative_chain owner t) as [t1 [c|e'| |]]; cbn [fst snd bind]; split; congruence.
  - rewrite Unit. unfold t_add_new_block. cbn [errors_any]. rewrite <- mc_add_err. destruct (mc_add_block b (t_main t)) as [m [u|e'| |]]; cbn [snd]; split; congruence.
  - split; [discriminate|contradiction].
  - cbn [errors_any]. destruct (assoc_get owner (t_derivs t)) as [c|]; [|split; [discriminate|intros (c & Y & _); discriminate]].
    assert (X : (exists c0, Some c = Some c0 /\ bi_height i <> dc_height c0 /\ e = EChainAddingBlock) <-> snd (dc_add_block i c) = Err e).
    { rewrite dc_add_err. split; [intros (c0 & Y & H); assert (c = c0) by congruence; subst; exact H|intros H; exists c; auto]. }
    rewrite X. destruct (dc_add_block i c) as [m [u|e'| |]]; cbn [snd bind]; split; congruence.
  - split; [discriminate|contradiction].
  - split; [discriminate|contradiction].
  - cbn [errors_any]. destruct (assoc_get owner (t_derivs t)); split; (discriminate || contradiction).
Qed.

(*@E
Example C130_ex_errors :
  let b h := SummBlock (MkInfo 1000 (repeat 0 32) (repeat 0 32) h (255 :: repeat 0 31) addrA) (repeat 0 32) in
  let t v h := MkTree0 (MkMain (sled_insert (to_be 32 6) v sled_empty) sled_empty sled_empty h (repeat 0 32) file_absent) [] sled_empty sled_empty sled_empty sled_empty [] in
  let emit txs := OEmitMain (repeat 0 32) addrA txs 1600 in
  let r v o := snd (step Debug (t v 7) o) in
  r [9; 9] (emit []) = Err EChainFindByHeight /\ r [9; 9] (OGetDeriv addrA) = Err EChainFindByHeight /\ side_refused addrA (t [9; 9] 7) EChainFindByHeight /\
  r (block_dump (b 6)) (emit []) = Err ETreeCreateMainChainBlock /\ r (block_dump (b 4)) (emit [repeat 0 32]) = Err EChainAddingBlock /\
  r (block_dump (b 999999)) (emit [repeat 0 32]) = Err ETreeSummarizeWrongTxAmount /\ (exists x, r (block_dump (b 6)) (emit [repeat 0 32]) = Ok x) /\
  r [9; 9] (OAddNewBlock (b 6) []) = Err EChainAddingBlock /\ r [9; 9] (OAddNewBlock (b 7) []) = Ok RUnit.
Proof.
  cbv zeta. do 2 (split; [vm_compute; reflexivity|]). split.
  - split; [reflexivity|]. left. split; [|reflexivity]. split; [discriminate|]. exists [9; 9]. split; [vm_compute; reflexivity|]. split.
    + intros (h & d & E & H). assert (h = 9) by congruence. assert (d = [9]) by congruence. subst. decompose [and or ex] H; discriminate.
    + intros x (_ & L). destruct x; decompose [and ex] L; (contradiction || discriminate).
  - do 3 (split; [vm_compute; reflexivity|]). split; [eexists; vm_compute; reflexivity|]. split; vm_compute; reflexivity.
Qed.
@*)

(*@T C130: at every moment of every history of a node opened on a directory with any contents, a call succeeds exactly when it is none of the calls listed as undefined, panicking or refused. *)
Lemma p_C130_histories : forall p d t ops o, any_disk d -> t_new d = Ok t -> Forall op_wf ops -> op_wf o ->
  (forall tx, o = OSendTx tx -> N.of_nat (length (tx_dump tx)) < 2 ^ 63) ->
  let t' := run p t ops in
  (forall e, snd (step p t' o) = Err e <-> errors_any p t' o e) /\
  ((exists r, snd (step p t' o) = Ok r) <-> ~ (p = Release /\ leaves_array t' o) /\ ~ panics_any p t' o /\ forall e, ~ errors_any p t' o e).
Proof.
  intros p d t ops o Hd Ho Hops Hwf Hsz. cbv zeta.
  assert (A : any_tree (run p t ops)).
  { pose proof (new_any d t Hd Ho) as A. clear Ho Hd. revert t A. induction Hops as [|x ops Hx Hops IH]; intros t A; [exact A|]. apply (IH (fst (step p t x))). apply step_any; assumption. }
  set (t' := run p t ops) in *. clearbody t'.
  assert (E : forall e, snd (step p t' o) = Err e <-> errors_any p t' o e) by (intros e; apply p_C130_errors; assumption).
  split; [exact E|]. pose proof (p_C129_calls p t' o A Hwf Hsz) as P. pose proof (p_C126_undefined_exactly p t' o A) as U.
  destruct (snd (step p t' o)) as [r|e| |].
  - split; [|eauto]. intros _. split; [intros Y; apply U in Y; discriminate|]. split; [intros Y; apply P in Y; discriminate|]. intros e Y. apply E in Y. discriminate.
  - split; [intros (r & Y); discriminate|]. intros (_ & _ & Y). destruct (Y e). apply E. reflexivity.
  - split; [intros (r & Y); discriminate|]. intros (_ & Y & _). destruct Y. apply P. reflexivity.
  - split; [intros (r & Y); discriminate|]. intros (Y & _). destruct Y. apply U. reflexivity.
Qed.

(*@E
Example C130_ex_histories :
  let d := MkDisk (MkMainDisk (sled_insert (to_be 32 6) [9; 9] sled_empty) sled_empty sled_empty (MkFile (Some (to_be 32 7 ++ repeat 0 32)) [])) sled_empty sled_empty sled_empty sled_empty [] in
  let ops := [OAddGas addrA 3; OFlush] in
  exists t, t_new d = Ok t /\ Forall op_wf ops /\ snd (step Debug (run Debug t ops) (OGetDeriv addrA)) = Err EChainFindByHeight /\ errors_any Debug (run Debug t ops) (OGetDeriv addrA) EChainFindByHeight /\
  snd (step Debug (run Debug t ops) (OSubGas addrA 3)) = Ok RUnit.
Proof.
  cbv zeta. eexists. split; [vm_compute; reflexivity|]. split; [constructor; [|constructor; [exact Logic.I|constructor]]; split; [|reflexivity]; repeat constructor|].
  split; [vm_compute; reflexivity|]. split; [|vm_compute; reflexivity]. split; [vm_compute; reflexivity|]. left. split; [|reflexivity]. split; [vm_compute; discriminate|]. exists [9; 9]. split; [vm_compute; reflexivity|]. split.
  - intros (h & d & E & H). assert (h = 9) by congruence. assert (d = [9]) by congruence. subst. decompose [and or ex] H; discriminate.
  - intros x (_ & L). destruct x; decompose [and ex] L; (contradiction || discriminate).
Qed.
@*)

(** *** Refused calls *)
Lemma set_same {A} k (v : A) l : assoc_get k l = Some v -> assoc_set k v l = l.
Proof.
  induction l as [|[k' v'] l IH]; cbn [assoc_get assoc_set]; [discriminate|]. destruct (bytes_eqb k k') eqn:E; [|intros H; rewrite IH by exact H; reflexivity].
  apply bytes_eqb_eq in E. intros H. congruence.
Qed.
Lemma with_main_same t : with_main t (t_main t) = t. Proof. destruct t; reflexivity. Qed.
Lemma with_derivs_same t : with_derivs t (t_derivs t) = t. Proof. destruct t; reflexivity. Qed.
Lemma mc_add_err_same b m e : snd (mc_add_block b m) = Err e -> fst (mc_add_block b m) = m.
Proof. unfold mc_add_block. destruct (negb _); [reflexivity|]. unfold u256_add. destruct (_ <? _); discriminate. Qed.
Lemma dc_add_err_same i c e : snd (dc_add_block i c) = Err e -> fst (dc_add_block i c) = c.
Proof. unfold dc_add_block. destruct (negb _); [reflexivity|]. unfold u256_add. destruct (_ <? _); discriminate. Qed.
Lemma get_deriv_has w t c : snd (t_get_derivative_chain w t) = Ok c -> assoc_get w (t_derivs (fst (t_get_derivative_chain w t))) = Some c.
Proof.
  unfold t_get_derivative_chain. destruct (assoc_get w (t_derivs t)) as [c'|] eqn:E; cbn [fst snd]; [intros Y; congruence|].
  match goal with |- context [match ?r with Ok _ => _ | Err _ => _ | Panic => _ | UB => _ end] => destruct r as [c'|e| |] end; cbn [fst snd]; try discriminate.
  intros Y. cbn [with_derivs t_derivs]. rewrite assoc_get_set, bytes_eqb_refl. congruence.
Qed.
Lemma emit_main_refused p t pow founder txs ts e : any_tree t -> ~ closes_epoch_and_fails t (OEmitMain pow founder txs ts) ->
  snd (t_emmit_new_main_block p pow founder txs ts t) = Err e -> fst (t_emmit_new_main_block p pow founder txs ts t) = t.
Proof.
  intros A Hc. pose proof A as (H1 & _). destruct (last_cases _ H1) as (C1 & _). cbn [closes_epoch_and_fails] in Hc.
  unfold t_emmit_new_main_block. destruct (mc_get_last_block (t_main t)) as [[b|]|e0| |] eqn:El; cbn [bind unwrap_opt]; try reflexivity.
  pose proof (last_safe _ H1) as Hl. rewrite El in Hl. destruct Hl as [Hw _]. pose proof (block_info_wf _ Hw) as Hi. pose proof Hi as (Hts & _ & _ & _ & Hd & _).
  rewrite work_eq by exact Hd. cbn [bind]. destruct (enough_work _ _ _ _); cbn [negb]; [|reflexivity].
  destruct (recalculate_difficulty p (bi_timestamp (get_info b)) ts (bi_difficulty (get_info b))) as [d|e1| |]; cbn [bind]; try reflexivity.
  destruct (recalculate_fee d) as [fee|e1| |]; cbn [bind]; try reflexivity. destruct (u256_add (bi_height (get_info b)) 1) as [h|e1| |] eqn:Eh; cbn [bind bi_height]; try reflexivity.
  assert (Hh : h = bi_height (get_info b) + 1) by (unfold u256_add in Eh; destruct (_ <? _); congruence). subst h. cbn [bi_height].
  change BLOCKS_PER_EPOCH with 1000000. destruct (N.eqb_spec ((bi_height (get_info b) + 1) mod 1000000) 0) as [Z|Z]; destruct txs as [|x txs]; try reflexivity.
  - rewrite summarize_ok. set (rt := mroot _).
    change (t_set_amount ROOT_PUBLIC_ADDRESS COINS_PER_CYCLE (t_rotate_dbs t)) with (rotated t, @Ok unit tt).
    cbv beta zeta iota. match goal with |- context [mc_add_block ?B ?M] => pose proof (mc_add_err B M e) as S; destruct (mc_add_block B M) as [m r]; set (hh := mc_height M) in S end.
    change hh with (mc_height (t_main t)) in S. cbn [snd get_info bi_height] in S |- *. rewrite pass, S. intros [Y _]. destruct Hc. exists b. split; [apply C1; reflexivity|auto].
  - rewrite (mroot_ok (x :: txs)).
    match goal with |- context [mc_add_block ?B ?M] => pose proof (mc_add_err_same B M e) as S; destruct (mc_add_block B M) as [m r] end.
    cbn [snd fst] in S |- *. rewrite pass. intros Y. rewrite (S Y). apply with_main_same.
Qed.
Lemma emit_deriv_refused p t pow founder ts e :
  snd (t_emmit_new_derivative_block p pow founder ts t) = Err e -> fst (t_emmit_new_derivative_block p pow founder ts t) = fst (t_get_derivative_chain founder t).
Proof.
  unfold t_emmit_new_derivative_block. pose proof (get_deriv_has founder t) as G. destruct (t_get_derivative_chain founder t) as [t1 [c|e0| |]]; cbn [fst snd] in *; try reflexivity.
  specialize (G c eq_refl). match goal with |- context [match ?r with Ok _ => _ | Err _ => _ | Panic => _ | UB => _ end] => destruct r as [i|e0| |] end; try reflexivity.
  pose proof (dc_add_err_same i c e) as S. destruct (dc_add_block i c) as [c' r]. cbn [fst snd] in *. rewrite pass. intros Y. rewrite (S Y), set_same by exact G. apply with_derivs_same.
Qed.
Lemma send_tx_refused t tx e : snd (t_send_transaction tx t) = Err e -> fst (t_send_transaction tx t) = t.
Proof.
  unfold t_send_transaction. match goal with |- context [match ?r with Ok _ => _ | Err _ => _ | Panic => _ | UB => _ end] => destruct r as [g|e0| |] end; try reflexivity.
  intros Y. exfalso. revert Y. unfold t_send_amount. destruct (bytes_eqb (tx_sender tx) (tx_receiver tx)).
  - unfold t_sub_gas, t_on_gas, led_sub. match goal with |- context [led_tx ?s ?r] => pose proof (led_no_err s r e) as Y; destruct (led_tx s r) end. exact Y.
  - unfold t_on_summary at 1, led_send. match goal with |- context [led_tx ?s ?r] => pose proof (led_no_err s r e) as Y; destruct (led_tx s r) as [s1 [v|e1| |]] end; cbn [snd] in *; try exact Y; try discriminate.
    unfold t_sub_gas, t_on_gas, led_sub. match goal with |- context [led_tx ?s ?r] => pose proof (led_no_err s r e) as Y'; destruct (led_tx s r) end. exact Y'.
Qed.

(*@T C130: whatever the databases hold, a call that returns an error changes nothing but the set of open side chains.  Missing: emissions that close an epoch although the recorded height is not
    the one after the last block. *)
Lemma p_C130_unchanged_partial : forall p t o e, any_tree t -> ~ closes_epoch_and_fails t o -> snd (step p t o) = Err e ->
  fst (step p t o) = match o with OEmitDeriv _ w _ => fst (t_get_derivative_chain w t) | _ => t end.
Proof.
  intros p t o e A Hc.
  assert (Unit : forall x : bct * out unit, snd (ret_unit x) = Err e -> snd x = Err e) by (intros [t' [u|e'| |]]; cbn; congruence).
  assert (Blk : forall x : bct * out block, snd (ret_block x) = Err e -> snd x = Err e) by (intros [t' [u|e'| |]]; cbn; congruence).
  assert (NoS : forall r, snd (ret_unit (t_on_summary (fun s => led_tx s (r s)) t)) = Err e -> False).
  { intros r Y. apply Unit in Y. unfold t_on_summary in Y. pose proof (led_no_err (t_summary t) (r (t_summary t)) e) as N. destruct (led_tx (t_summary t) (r (t_summary t))). contradiction. }
  assert (NoG : forall r, snd (ret_unit (t_on_gas (fun s => led_tx s (r s)) t)) = Err e -> False).
  { intros r Y. apply Unit in Y. unfold t_on_gas in Y. pose proof (led_no_err (t_gas t) (r (t_gas t)) e) as N. destruct (led_tx (t_gas t) (r (t_gas t))). contradiction. }
  destruct o; cbn [step].
  1-3: intros Y; destruct (NoS _ Y).
  - unfold t_send_amount. destruct (bytes_eqb from to); [discriminate|]. intros Y. destruct (NoS _ Y).
  - intros Y; destruct (NoG _ Y).
  - intros Y; destruct (NoG _ Y).
  - intros Y; destruct (NoG _ Y).
  - intros Y. apply Unit in Y. exact (send_tx_refused _ _ _ Y).
  - intros Y. apply Blk in Y. exact (emit_main_refused _ _ _ _ _ _ _ A Hc Y).
  - intros Y. apply Blk in Y. exact (emit_deriv_refused _ _ _ _ _ _ Y).
  - unfold t_get_derivative_chain. destruct (assoc_get owner (t_derivs t)) as [c|]; [discriminate|].
    match goal with |- context [match ?r with Ok _ => _ | Err _ => _ | Panic => _ | UB => _ end] => destruct r as [i|e0| |] end; (discriminate || reflexivity).
  - intros Y. apply Unit in Y. cbn [ret_unit fst]. revert Y. unfold t_add_new_block. pose proof (mc_add_err_same b (t_main t) e) as S. destruct (mc_add_block b (t_main t)) as [m [u|e'| |]]; cbn [fst snd] in *; try discriminate.
    intros Y. rewrite (S Y). apply with_main_same.
  - discriminate.
  - destruct (assoc_get owner (t_derivs t)) as [c|] eqn:G; [|discriminate]. pose proof (dc_add_err_same i c e) as S. destruct (dc_add_block i c) as [c' r]. cbn [fst snd] in *.
    intros Y. assert (Y' : r = Err e) by (destruct r; cbn [bind] in Y; congruence). rewrite (S Y'), set_same by exact G. apply with_derivs_same.
  - discriminate.
  - discriminate.
  - destruct (assoc_get owner (t_derivs t)); discriminate.
Qed.

(*@E
Example C130_ex_unchanged :
  let b h := SummBlock (MkInfo 1000 (repeat 0 32) (repeat 0 32) h (255 :: repeat 0 31) addrA) (repeat 0 32) in
  let t := MkTree0 (MkMain (sled_insert (to_be 32 6) (block_dump (b 4)) sled_empty) sled_empty sled_empty 7 (repeat 0 32) file_absent) [] sled_empty sled_empty sled_empty sled_empty [] in
  let o := OEmitMain (repeat 0 32) addrA [repeat 0 32] 1600 in let o' := OEmitDeriv (repeat 0 32) addrA 1600 in
  any_tree t /\ ~ closes_epoch_and_fails t o /\ snd (step Debug t o) = Err EChainAddingBlock /\ fst (step Debug t o) = t /\
  ~ closes_epoch_and_fails t o' /\ snd (step Debug t o') = Err EChainFindByHash /\ map fst (t_derivs (fst (step Debug t o'))) = [addrA].
Proof.
  cbv zeta. split.
  - split; [|split; [|split]].
    + apply values_insert; [intros k v Y; discriminate|]. apply block_dump_ok. repeat split; try reflexivity; repeat constructor.
    + intros k v Y. discriminate.
    + intros w c [].
    + intros w c [].
  - split; [intros []|]. split; [vm_compute; reflexivity|]. split; [vm_compute; reflexivity|]. split; [intros []|]. split; vm_compute; reflexivity.
Qed.
@*)

(*@T C130: what the remaining case does.  An emission that closes an epoch although the recorded height is not the one after the last block either changes nothing, or is refused as a wrong block
    and leaves the epoch closed. *)
Lemma p_C130_epoch_closed : forall p t o e, any_tree t -> closes_epoch_and_fails t o -> snd (step p t o) = Err e ->
  (e = EChainAddingBlock /\ closed_without_block t (fst (step p t o))) \/ (e = ETreeWrongPow /\ fst (step p t o) = t).
Proof.
  intros p t o e A Hc. destruct o; try contradiction Hc. cbn [closes_epoch_and_fails] in Hc. destruct txs as [|x txs]; [|contradiction]. destruct Hc as (b & L & Z & N).
  pose proof A as (H1 & _). destruct (last_cases _ H1) as (C1 & _). apply C1 in L. cbn [step].
  assert (Blk : forall x : bct * out block, snd (ret_block x) = Err e -> snd x = Err e) by (intros [t' [u|e'| |]]; cbn; congruence).
  intros Y. apply Blk in Y. change (fst (ret_block ?x)) with (fst x) in *.
  pose proof (proj1 (emit_main_err p t pow founder [] ts e A) Y) as W. cbn [errors_any] in W.
  assert (W' : (enough_work (block_hash b) (bi_difficulty (get_info b)) (root_of []) pow = false /\ e = ETreeWrongPow) \/
               (enough_work (block_hash b) (bi_difficulty (get_info b)) (root_of []) pow = true /\ e = EChainAddingBlock)).
  { destruct W as [[U _]|(b' & L' & W)].
    - exfalso. assert (Q : mc_get_last_block (t_main t) = Err EChainFindByHeight) by (apply last_cases; [exact H1|split; [exact U|reflexivity]]). congruence.
    - apply C1 in L'. assert (b' = b) by congruence. subst b'. destruct W as [W|(W1 & _ & _ & _ & [(_ & Q & _)|[(Q & _)|(_ & _ & Q)]])]; [left; exact W|destruct (Q eq_refl)|destruct (Q Z)|right; auto]. }
  clear W. pose proof (last_safe _ H1) as Hl. rewrite L in Hl. destruct Hl as [Hw _]. pose proof (block_info_wf _ Hw) as Hi. pose proof Hi as (Hts & _ & _ & _ & Hd & _).
  destruct W' as [[W E]|[W E]]; [right|left]; (split; [exact E|]); revert Y; unfold t_emmit_new_main_block; rewrite L; cbn [bind unwrap_opt]; rewrite work_eq by exact Hd; rewrite W; cbn [bind negb]; [reflexivity|].
  pose proof (recalc_no_err p (bi_timestamp (get_info b)) ts (bi_difficulty (get_info b))) as RE.
  destruct (recalculate_difficulty p (bi_timestamp (get_info b)) ts (bi_difficulty (get_info b))) as [d|e1| |] eqn:Ed; cbn [bind snd]; try discriminate; [|destruct (RE e1 Hd eq_refl)].
  destruct (recalculate_fee d) as [fee|e1| |] eqn:Ef; cbn [bind snd]; try discriminate; [|exfalso; unfold recalculate_fee, u256_mul in Ef; destruct (_ <? _) in Ef; discriminate Ef].
  - destruct (u256_add (bi_height (get_info b)) 1) as [h|e1| |] eqn:Eh; cbn [bind bi_height snd]; try discriminate; [|unfold u256_add in Eh; destruct (_ <? _) in Eh; discriminate].
    assert (Hh : h = bi_height (get_info b) + 1) by (unfold u256_add in Eh; destruct (_ <? _); congruence). subst h. cbn [bi_height].
    change BLOCKS_PER_EPOCH with 1000000. rewrite Z. cbn [N.eqb]. rewrite summarize_ok. set (rt := mroot _).
    change (t_set_amount ROOT_PUBLIC_ADDRESS COINS_PER_CYCLE (t_rotate_dbs t)) with (rotated t, @Ok unit tt). cbv beta zeta iota.
    match goal with |- context [mc_add_block ?B ?M] => pose proof (mc_add_err_same B M e) as S; destruct (mc_add_block B M) as [m r] end.
    cbn [snd fst] in S |- *. rewrite pass. intros Y. rewrite (S Y), with_main_same. clear.
    unfold closed_without_block, amount_entry, gas_entry. cbn [rotated with_summary t_rotate_dbs t_flush t_main t_derivs t_closed t_summary t_gas t_old_summary t_old_gas mc_flush mc_flush_txs mc_flush_refs mc_flush_blocks mc_dump_config mc_blocks mc_refs mc_txs mc_height].
    repeat apply conj; intros; rewrite ?sled_get_commit1, ?sled_get_flush; try reflexivity.
    + destruct (bytes_eqb a ROOT_PUBLIC_ADDRESS) eqn:E; [apply bytes_eqb_eq in E; contradiction|]. reflexivity.
    + rewrite bytes_eqb_refl. cbn [holding]. rewrite led_encode_eq, <- (app_nil_r (enc _)). eapply load_reads, load_enc. vm_compute. reflexivity.
Qed.

(*@E
Example C130_ex_epoch_closed :
  let t h := MkTree0 (MkMain (sled_insert (to_be 32 (h - 1)) (block_dump (SummBlock (MkInfo 1000 (repeat 0 32) (repeat 0 32) 999999 (255 :: repeat 0 31) addrA) (repeat 0 32))) sled_empty) sled_empty sled_empty h (repeat 0 32) file_absent)
    [] (sled_insert addrA [1; 9] (sled_insert ROOT_PUBLIC_ADDRESS [1; 7] sled_empty)) sled_empty sled_empty sled_empty [] in
  let o := OEmitMain (repeat 0 32) addrA [] 1600 in
  snd (step Release (t 5) o) = Err EChainAddingBlock /\ t_get_amount addrA (fst (step Release (t 5) o)) = Ok 9 /\ sled_get addrA (t_old_summary (fst (step Release (t 5) o))) = Some [1; 9] /\
  mc_height (t_main (fst (step Release (t 5) o))) = 5 /\ exists x, snd (step Release (t 1000000) o) = Ok x.
Proof. cbv zeta. do 4 (split; [vm_compute; reflexivity|]). eexists. vm_compute. reflexivity. Qed.
@*)

(*@T C130 fails at the end of an epoch: an emission is refused because the recorded height is not the one after the last block, after the epoch was closed: the balance of the root account is
    overwritten and the old databases are replaced. *)
Lemma p_C130_epoch_refuted : exists t o, any_tree t /\ op_wf o /\ closes_epoch_and_fails t o /\ snd (step Release t o) = Err EChainAddingBlock /\
  t_get_amount ROOT_PUBLIC_ADDRESS t = Ok 7 /\ t_get_amount ROOT_PUBLIC_ADDRESS (fst (step Release t o)) = Ok COINS_PER_CYCLE /\
  sled_get ROOT_PUBLIC_ADDRESS (t_old_summary t) = None /\ sled_get ROOT_PUBLIC_ADDRESS (t_old_summary (fst (step Release t o))) = Some [1; 7].
Proof.
  set (b := SummBlock (MkInfo 1000 (repeat 0 32) (repeat 0 32) 999999 (255 :: repeat 0 31) addrA) (repeat 0 32)).
  set (t := MkTree0 (MkMain (sled_insert (to_be 32 4) (block_dump b) sled_empty) sled_empty sled_empty 5 (repeat 0 32) file_absent) [] (sled_insert ROOT_PUBLIC_ADDRESS [1; 7] sled_empty) sled_empty sled_empty sled_empty []).
  exists t, (OEmitMain (repeat 0 32) addrA [] 1600).
  assert (Hw : block_wf b) by (unfold b; repeat split; try reflexivity; repeat constructor).
  assert (A : any_tree t).
  { split; [|split; [|split]].
    - cbn [t t_main mc_blocks]. apply values_insert; [intros k v Y; discriminate|]. apply block_dump_ok. exact Hw.
    - intros k v Y. discriminate.
    - intros w c [].
    - intros w c []. }
  split; [exact A|]. split; [repeat split; repeat constructor|]. split.
  - exists b. split; [|split; [reflexivity|discriminate]]. apply (proj1 (last_cases _ (proj1 A))). vm_compute. reflexivity.
  - repeat apply conj; vm_compute; reflexivity.
Qed.

(*@E
Example C130_ex_epoch : (999999 + 1) mod 1000000 = 0 /\ 999999 + 1 <> 5 /\ 0 < COINS_PER_CYCLE.
Proof. repeat split; vm_compute; (reflexivity || discriminate). Qed.
@*)
