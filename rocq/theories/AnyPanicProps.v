(** Panics of nodes whose databases hold anything. *)
From Coq Require Import Lia ZifyBool ZifyNat ZifyN.
From Verif Require Import Base Sha256 Merkle Tools Transaction Block Sled Chain Tree Spec Reach LedgerSpec NodeSpec AnyDirSpec DamageSpec AnyPanicSpec Demo.
From Verif Require Import BaseFacts ToolsFacts MerkleFacts CodecFacts CodecProps SledFacts ChainFacts DiffFacts TreeFacts LedgerFacts DerivFacts NodeFacts DamageProps AnyDirProps.
From Verif Require LiveProps.

Local Strategy 1000 [u256_mul u256_add u256_sub BYTE_GAS_PRICE recalculate_fee recalculate_difficulty check_pow load_u256 dump_u256 build_tree get_root sha256 block_dump tx_dump mroot root_of COINS_PER_CYCLE].

(** *** Lookups *)
Lemma decode_panic v : bytes_ok v -> (mc_decode (Some v) = Panic <-> broken_block v).
Proof.
  intros H. destruct (p_C08_deserialize_partial v H) as [P _]. unfold broken_block. rewrite <- P. unfold mc_decode.
  destruct (deserialize_main_chain_block v) as [b|e| |]; cbn [change_context bind]; split; congruence.
Qed.
Lemma ddecode_panic v : bytes_ok v -> (dc_decode (Some v) = Panic <-> broken_side v).
Proof.
  intros H. unfold broken_side, dc_decode, slice_from. destruct v as [|x v]; [cbn; tauto|]. cbn [length Nat.leb bind skipn tl].
  assert (Hb : bytes_ok v) by exact (bytes_skip 1 _ H). destruct (p_C08_basic_info_parse_partial v Hb) as (P & _). unfold deriv_block_parse.
  destruct (Nat.ltb_spec (length v) 32) as [L|L].
  - cbn [change_context bind]. split; [discriminate|]. unfold header_cut. intros [E|E]; [discriminate|lia].
  - destruct (info_parse v) as [i|e| |]; cbn [change_context bind]; try (split; [discriminate|intros [E|E]; [discriminate|apply P in E; congruence]]).
    split; [|reflexivity]. intros _. right. apply P. reflexivity.
Qed.
Lemma main_raw h m v : mc_find_raw_by_height h m = Some v <-> main_at h m v.
Proof. unfold mc_find_raw_by_height, main_at, height_key. destruct (N.ltb_spec (mc_height m) h); [split; [discriminate|lia]|]. tauto. Qed.
Lemma side_raw h c v : dc_find_raw_by_height h c = Some v <-> side_at h c v.
Proof. unfold dc_find_raw_by_height, side_at, height_key. destruct (N.ltb_spec (dc_height c) h); [split; [discriminate|lia]|]. tauto. Qed.
Lemma height_panic h m : byte_values (mc_blocks m) -> (mc_find_by_height h m = Panic <-> broken_at h m).
Proof.
  intros H. unfold mc_find_by_height, broken_at. destruct (mc_find_raw_by_height h m) as [v|] eqn:E.
  - rewrite decode_panic by (eapply raw_height; eassumption). split.
    + intros B. exists v. split; [apply main_raw, E|exact B].
    + intros (v' & A & B). apply main_raw in A. rewrite E in A. assert (v = v') by congruence. subst. exact B.
  - split; [discriminate|]. intros (v' & A & B). apply main_raw in A. congruence.
Qed.
Lemma dheight_panic h c : byte_values (dc_blocks c) -> (dc_find_by_height h c = Panic <-> side_broken_at h c).
Proof.
  intros H. unfold dc_find_by_height, side_broken_at. destruct (dc_find_raw_by_height h c) as [v|] eqn:E.
  - rewrite ddecode_panic by (eapply draw_height; eassumption). split.
    + intros B. exists v. split; [apply side_raw, E|exact B].
    + intros (v' & A & B). apply side_raw in A. rewrite E in A. assert (v = v') by congruence. subst. exact B.
  - split; [discriminate|]. intros (v' & A & B). apply side_raw in A. congruence.
Qed.
Lemma hash_panic h m : byte_values (mc_blocks m) -> (mc_find_by_hash h m = Panic <-> broken_hash h m).
Proof.
  intros H. unfold mc_find_by_hash, mc_find_raw_by_hash, broken_hash. destruct (sled_get h (mc_refs m)) as [r|]; [|split; [discriminate|]; intros (r & E & _); discriminate].
  destruct (Nat.ltb_spec 32 (length r)) as [L|L]; cbn [bind].
  - split; [|reflexivity]. intros _. exists r. auto.
  - change (mc_decode (mc_find_raw_by_height (from_be r) m)) with (mc_find_by_height (from_be r) m). rewrite height_panic, <- be_val_from_be by exact H. split.
    + intros B. exists r. auto.
    + intros (r' & E & [B|B]); assert (r = r') by congruence; subst; [lia|exact B].
Qed.
Lemma dhash_panic h c : byte_values (dc_blocks c) -> (dc_find_by_hash h c = Panic <-> side_broken_hash h c).
Proof.
  intros H. unfold dc_find_by_hash, dc_find_raw_by_hash, side_broken_hash. destruct (sled_get h (dc_refs c)) as [r|]; [|split; [discriminate|]; intros (r & E & _); discriminate].
  destruct (Nat.ltb_spec 32 (length r)) as [L|L]; cbn [bind].
  - split; [|reflexivity]. intros _. exists r. auto.
  - change (dc_decode (dc_find_raw_by_height (from_be r) c)) with (dc_find_by_height (from_be r) c). rewrite dheight_panic, <- be_val_from_be by exact H. split.
    + intros B. exists r. auto.
    + intros (r' & E & [B|B]); assert (r = r') by congruence; subst; [lia|exact B].
Qed.
Lemma last_panic m : byte_values (mc_blocks m) -> (mc_get_last_block m = Panic <-> broken_last m).
Proof.
  intros H. unfold mc_get_last_block, mc_get_last_raw_block, broken_last, u256_sub. destruct (N.leb_spec 1 (mc_height m)) as [L|L]; cbn [bind].
  - change (mc_decode (mc_find_raw_by_height (mc_height m - 1) m)) with (mc_find_by_height (mc_height m - 1) m). rewrite height_panic by exact H. split; [auto|]. intros [E|E]; [lia|exact E].
  - split; [|reflexivity]. intros _. left. lia.
Qed.
Lemma dlast_panic c : byte_values (dc_blocks c) -> (dc_get_last_block c = Panic <-> side_broken_last c).
Proof.
  intros H. unfold dc_get_last_block, dc_get_last_raw_block, side_broken_last, u256_sub. destruct (N.eqb_spec (dc_height c) 0) as [Z|Z]; cbn [bind]; [split; [discriminate|intros [E _]; contradiction]|].
  destruct (N.leb_spec 1 (dc_height c)) as [L|L]; [|lia]. cbn [bind].
  change (dc_decode (dc_find_raw_by_height (dc_height c - 1) c)) with (dc_find_by_height (dc_height c - 1) c). rewrite dheight_panic by exact H. tauto.
Qed.
Lemma tx_panic h m : byte_values (mc_txs m) -> (mc_get_transaction h m = Panic <-> exists v, sled_get h (mc_txs m) = Some v /\ broken_tx v).
Proof.
  intros H. unfold mc_get_transaction, mc_get_transaction_raw. destruct (sled_get h (mc_txs m)) as [v|] eqn:E; [|split; [discriminate|]; intros (v & E' & _); discriminate].
  assert (X : (exists v0, Some v = Some v0 /\ broken_tx v0) <-> broken_tx v).
  { split; [intros (v0 & Y & B); congruence|]. intros B. exists v. auto. }
  rewrite X. clear X. unfold broken_tx. destruct v as [|x v]; cbn [hd].
  { split; [discriminate|]. intros (r & E' & _). discriminate. }
  change (header_code HTransaction) with 0. destruct (N.eqb_spec x 0) as [->|Z]; cbn [negb].
  2:{ split; [discriminate|]. intros (r & E' & _). congruence. }
  unfold slice_from. cbn [length Nat.leb bind skipn]. assert (Hb : bytes_ok v) by exact (bytes_skip 1 _ (H _ _ E)).
  destruct (p_C14_transaction_parse_partial v Hb) as (_ & P & _). split.
  - intros B. exists v. split; [reflexivity|]. apply P. destruct (tx_parse v); cbn [change_context bind] in B; congruence.
  - intros (r & E' & B). assert (v = r) by congruence. subst r. apply P in B. rewrite B. reflexivity.
Qed.

(*@T C129: which lookups panic, whatever the databases hold: those that come to a reference of more than 32 bytes or to a block or transaction that breaks off at particular places, and asking for
    the last block of a main chain of height 0. *)
Lemma p_C129_lookups : forall t, any_tree t ->
  (let m := t_main t in
   (forall h, mc_find_by_height h m = Panic <-> broken_at h m) /\ (forall h, mc_find_by_hash h m = Panic <-> broken_hash h m) /\
   (mc_get_last_block m = Panic <-> broken_last m) /\
   (forall h, mc_get_transaction h m = Panic <-> exists v, sled_get h (mc_txs m) = Some v /\ broken_tx v)) /\
  (forall w c, In (w, c) (t_derivs t) ->
   (forall h, dc_find_by_height h c = Panic <-> side_broken_at h c) /\ (forall h, dc_find_by_hash h c = Panic <-> side_broken_hash h c) /\
   (dc_get_last_block c = Panic <-> side_broken_last c)).
Proof.
  intros t (H1 & H2 & H3 & _). cbv zeta. split; [split; [|split; [|split]]|intros w c Hc; split; [|split]].
  - intros h. apply height_panic, H1.
  - intros h. apply hash_panic, H1.
  - apply last_panic, H1.
  - intros h. apply tx_panic, H2.
  - intros h. eapply dheight_panic, H3, Hc.
  - intros h. eapply dhash_panic, H3, Hc.
  - eapply dlast_panic, H3, Hc.
Qed.

(*@E
Example C129_ex_lookups :
  let m r v := MkMain (sled_insert (to_be 32 6) v sled_empty) (sled_insert [1] r sled_empty) (sled_insert [7] v sled_empty) 7 (repeat 0 32) file_absent in
  mc_get_last_block (m [6] [2]) = Panic /\ broken_last (m [6] [2]) /\ mc_get_last_block (m [6] [9; 9]) = Err EChainFindByHeight /\
  mc_find_by_hash [1] (m [6] [2]) = Panic /\ mc_find_by_hash [1] (m [6] (block_dump first_block)) = Ok (Some first_block) /\
  mc_find_by_hash [1] (m (repeat 0 33) (block_dump first_block)) = Panic /\ broken_hash [1] (m (repeat 0 33) (block_dump first_block)) /\
  mc_get_transaction [7] (m [6] (0 :: repeat 0 138 ++ [1])) = Panic /\ broken_tx (0 :: repeat 0 138 ++ [1]) /\ mc_get_transaction [7] (m [6] [2]) = Err EChainFindByHash /\
  dc_get_last_block (MkDeriv (sled_insert (to_be 32 0) [3] sled_empty) sled_empty 1 [] [] file_absent) = Err EChainFindByHeight /\
  dc_get_last_block (MkDeriv (sled_insert (to_be 32 0) [] sled_empty) sled_empty 1 [] [] file_absent) = Panic.
Proof.
  cbv zeta. split; [vm_compute; reflexivity|]. split; [right; exists [2]; split; [split; [discriminate|vm_compute; reflexivity]|exists 2, []; split; [reflexivity|]; left; split; [reflexivity|repeat constructor]]|].
  do 4 (split; [vm_compute; reflexivity|]). split; [exists (repeat 0 33); split; [vm_compute; reflexivity|left; repeat constructor]|].
  split; [vm_compute; reflexivity|]. split; [exists (repeat 0 138 ++ [1]); split; [reflexivity|]; split; [vm_compute; repeat constructor|right; exists 1, []; repeat split; discriminate]|].
  repeat apply conj; vm_compute; reflexivity.
Qed.
@*)

(** *** Accounts *)
Lemma entry_cases e : (exists x, led_decode e = Ok x /\ holding e x /\ ~ damaged_entry e /\ (forall y, holding e y -> y = x)) \/
  (led_decode e = Panic /\ damaged_entry e /\ forall y, ~ holding e y).
Proof.
  destruct (decode_reading e) as [[-> H]|[(v & x & -> & R & H)|(v & -> & D & H)]].
  - left. exists 0. split; [exact H|]. split; [reflexivity|]. split; [intros (v & E & _); discriminate|auto].
  - left. exists x. split; [exact H|]. split; [exact R|]. split.
    + intros (v' & E & D). assert (v = v') by congruence. subst. exact (D x R).
    + intros y Hy. cbn [holding] in Hy. apply reads_load in Hy. apply reads_load in R. congruence.
  - right. split; [exact H|]. split; [exists v; auto|]. exact D.
Qed.
Lemma led_tx_panic s r : (snd (led_tx s r) = Panic <-> r = Panic \/ exists e, r = Err e).
Proof. destruct r as [b|e| |]; cbn [led_tx snd]; split; try discriminate; try (intros [H|[e' H]]; discriminate); eauto. Qed.
Lemma add_panic w a s : snd (led_add w a s) = Panic <-> cannot_add (sled_get w s) a.
Proof.
  unfold led_add. rewrite led_tx_panic. unfold led_get, cannot_add. destruct (entry_cases (sled_get w s)) as [(x & -> & H & D & U)|(-> & D & U)]; cbn [bind]; [|tauto].
  unfold u256_add. destruct (N.ltb_spec (x + a) (2 ^ 256)) as [L|L]; cbn [bind].
  - split; [intros [E|[e E]]; discriminate|]. intros [E|(y & H' & L')]; [contradiction|]. rewrite (U y H') in L'. lia.
  - split; [|auto]. intros _. right. exists x. auto.
Qed.
Lemma take_panic w a s : snd (led_sub w a s) = Panic <-> cannot_take (sled_get w s) a.
Proof.
  unfold led_sub. rewrite led_tx_panic. unfold led_get, cannot_take. destruct (entry_cases (sled_get w s)) as [(x & -> & H & D & U)|(-> & D & U)]; cbn [bind]; [|tauto].
  destruct (N.ltb_spec x a) as [L|L].
  - split; [|intros _; right; unfold abort; eauto]. intros _. right. exists x. auto.
  - unfold u256_sub. destruct (N.leb_spec a x); [|lia]. cbn [bind]. split; [intros [E|[e E]]; discriminate|]. intros [E|(y & H' & L')]; [contradiction|]. rewrite (U y H') in L'. lia.
Qed.
Lemma move_panic x y a s : snd (led_send x y a s) = Panic <-> cannot_take (sled_get x s) a \/ cannot_add (sled_get y s) a.
Proof.
  unfold led_send. rewrite led_tx_panic. unfold led_get, cannot_take, cannot_add.
  destruct (entry_cases (sled_get x s)) as [(u & -> & H & D & U)|(-> & D & U)]; cbn [bind]; [|tauto].
  destruct (entry_cases (sled_get y s)) as [(v & -> & H2 & D2 & U2)|(-> & D2 & U2)]; cbn [bind]; [|tauto].
  destruct (N.ltb_spec u a) as [L|L].
  - split; [|intros _; right; unfold abort; eauto]. intros _. left. right. exists u. auto.
  - unfold u256_sub. destruct (N.leb_spec a u); [|lia]. cbn [bind]. unfold u256_add. destruct (N.ltb_spec (v + a) (2 ^ 256)) as [M|M]; cbn [bind].
    + split; [intros [E|[e E]]; discriminate|]. intros [[E|(z & H' & L')]|[E|(z & H' & L')]]; try contradiction; [rewrite (U z H') in L'|rewrite (U2 z H') in L']; lia.
    + split; [|auto]. intros _. right. right. exists v. auto.
Qed.

(** *** The last block *)
Lemma unwrap_last m : byte_values (mc_blocks m) ->
  ((let! l := mc_get_last_block m in unwrap_opt l) = Panic <-> no_last m) /\
  (no_last m -> forall b, mc_get_last_block m <> Ok (Some b)) /\ (no_last m -> forall e, mc_get_last_block m <> Err e).
Proof.
  intros H. pose proof (last_panic m H) as P. pose proof (last_safe m H) as S.
  assert (N0 : mc_height m <> 0 -> (mc_get_last_block m = Ok None <-> sled_get (to_be 32 (mc_height m - 1)) (mc_blocks m) = None)).
  { intros Hh. unfold mc_get_last_block, mc_get_last_raw_block, u256_sub. destruct (N.leb_spec 1 (mc_height m)); [|lia]. cbn [bind].
    unfold mc_find_raw_by_height. destruct (N.ltb_spec (mc_height m) (mc_height m - 1)); [lia|]. unfold height_key. destruct (sled_get _ _) as [v|]; [|tauto].
    split; [|discriminate]. unfold mc_decode. destruct (deserialize_main_chain_block v); cbn [change_context bind]; discriminate. }
  assert (Q : no_last m <-> mc_get_last_block m = Panic \/ mc_get_last_block m = Ok None).
  { unfold no_last. rewrite P. destruct (N.eq_dec (mc_height m) 0) as [Z|Z].
    - split; intros _; left; left; exact Z.
    - rewrite (N0 Z). tauto. }
  rewrite Q. split; [|split; intros [E|E] x E'; congruence].
  destruct (mc_get_last_block m) as [[b|]|e| |]; cbn [bind unwrap_opt safe_lookup] in *; split; try tauto; try discriminate; try (intros [E|E]; discriminate).
Qed.

(** *** The difficulty *)
Lemma recalc_panic p a b d : is_array 32 d -> u64_ok a ->
  (recalculate_difficulty p a b d = Panic <-> p = Debug /\ (b < a \/ exists s, seconds Release a b = Some s /\ 600 < s /\ hd_error d = Some 255)).
Proof.
  intros [Hl Hd] Ha. rewrite recalc_retarget.
  assert (R : forall c, retarget p c d = Panic <-> p = Debug /\ c = Gt /\ hd_error d = Some 255).
  { assert (Hs : forall i x, (i < 32)%nat -> set_unchecked d i x <> Panic) by (intros i x Hi; rewrite set_unchecked_ok by lia; discriminate).
    assert (Hi : forall i, (i < 32)%nat -> exists x, index_unchecked d i = Ok x).
    { intros i Hi. unfold index_unchecked. destruct (nth_error d i) as [x|] eqn:E; [eauto|]. apply nth_error_None in E. lia. }
    assert (Hn : (first_nonzero 0 d < 32)%nat) by (destruct (LiveProps.first_nonzero_lt d 0) as [H|H]; lia).
    intros c. unfold retarget. cbv zeta. destruct (Hi _ Hn) as (v & Ev). destruct c.
    - split; [discriminate|]. intros (_ & H & _). discriminate.
    - rewrite Ev. cbn [bind]. split; [intros H; destruct (Hs _ _ Hn H)|]. intros (_ & H & _). discriminate.
    - rewrite Ev. cbn [bind]. destruct d as [|x d']; [discriminate|]. cbn [hd_error].
      assert (Hz : first_nonzero 0 (x :: d') = 0%nat -> index_unchecked (x :: d') 0 = Ok v -> x = v) by (intros _ E; injection E as ->; reflexivity).
      assert (H255 : x = 255 -> first_nonzero 0 (x :: d') = 0%nat) by (intros ->; reflexivity).
      destruct (Nat.eqb (first_nonzero 0 (x :: d')) 0 && (v =? 127))%bool eqn:B.
      { apply andb_prop in B as [B1 B2]. apply Nat.eqb_eq in B1. rewrite B1 in Ev. specialize (Hz B1 Ev). split; [discriminate|]. intros (_ & _ & H). injection H as H. lia. }
      destruct (N.eqb_spec v 255) as [->|V].
      + destruct (first_nonzero 0 (x :: d')) as [|i] eqn:F.
        * specialize (Hz eq_refl Ev). subst x. destruct p; split; auto; try discriminate. intros (H & _). discriminate.
        * destruct (Hi i ltac:(lia)) as (v' & ->). cbn [bind]. split; [intros H; destruct (Hs i _ ltac:(lia) H)|]. intros (_ & _ & H). injection H as H. specialize (H255 H). discriminate.
      + split; [intros H; destruct (Hs _ _ Hn H)|]. intros (_ & _ & H). injection H as H. specialize (H255 H). rewrite H255 in Ev. specialize (Hz H255 Ev). lia. }
  unfold u64_sub, seconds. destruct (N.leb_spec a b) as [L|L]; cbn [bind].
  - rewrite R. split.
    + intros (-> & C & H). split; [reflexivity|]. right. exists (b - a). split; [reflexivity|]. apply N.compare_gt_iff in C. auto.
    + intros (-> & [E|(s & E & C & H)]); [lia|]. injection E as <-. split; [reflexivity|]. split; [apply N.compare_gt_iff; exact C|exact H].
  - destruct p; cbn [bind]; [split; [auto|reflexivity]|]. rewrite R. split; intros (E & _); discriminate E.
Qed.
Lemma recalc_no_err p a b d e : is_array 32 d -> recalculate_difficulty p a b d <> Err e.
Proof.
  intros [Hl _]. rewrite recalc_retarget. unfold u64_sub.
  assert (Hs : forall i x, set_unchecked d i x <> Err e) by (intros i x; unfold set_unchecked; destruct (Nat.ltb _ _); discriminate).
  assert (Hi : forall i, index_unchecked d i <> Err e) by (intros i; unfold index_unchecked; destruct (nth_error d i); discriminate).
  assert (R : forall c, retarget p c d <> Err e).
  { intros c. unfold retarget. cbv zeta. destruct c; [discriminate| |].
    - specialize (Hi (first_nonzero 0 d)). destruct (index_unchecked d (first_nonzero 0 d)); cbn [bind]; try discriminate; [apply Hs|congruence].
    - pose proof (Hi (first_nonzero 0 d)) as H0. destruct (index_unchecked d (first_nonzero 0 d)); cbn [bind]; try discriminate; [|congruence].
      destruct (_ && _)%bool; [discriminate|]. destruct (_ =? 255); [|apply Hs]. destruct (first_nonzero 0 d) as [|i]; [destruct p; discriminate|].
      pose proof (Hi i) as H1. destruct (index_unchecked d i); cbn [bind]; try discriminate; [apply Hs|congruence]. }
  destruct (_ <=? _); cbn [bind]; [apply R|]. destruct p; cbn [bind]; [discriminate|apply R].
Qed.
Lemma retarget_p p b ts : info_wf (get_info b) -> (recalculate_difficulty p (bi_timestamp (get_info b)) ts (bi_difficulty (get_info b)) = Panic <-> retarget_panics p b ts).
Proof. intros (Hts & _ & _ & _ & Hd & _). rewrite recalc_panic by assumption. reflexivity. Qed.
Lemma retarget_u p b ts : info_wf (get_info b) -> (recalculate_difficulty p (bi_timestamp (get_info b)) ts (bi_difficulty (get_info b)) = UB <-> retarget_undefined p b ts).
Proof. intros (Hts & _ & _ & _ & Hd & _). rewrite recalc_ub by assumption. reflexivity. Qed.

(** *** Emission *)
Lemma mc_add_panic b m : snd (mc_add_block b m) = Panic <-> bi_height (get_info b) = mc_height m /\ 2 ^ 256 <= mc_height m + 1.
Proof.
  unfold mc_add_block. destruct (N.eqb_spec (bi_height (get_info b)) (mc_height m)) as [E|E]; cbn [negb]; [|split; [discriminate|tauto]].
  unfold u256_add. destruct (N.ltb_spec (mc_height m + 1) (2 ^ 256)); cbn [snd]; split; try discriminate; try tauto; lia.
Qed.
Lemma dc_add_panic i c : snd (dc_add_block i c) = Panic <-> bi_height i = dc_height c /\ 2 ^ 256 <= dc_height c + 1.
Proof.
  unfold dc_add_block. destruct (N.eqb_spec (bi_height i) (dc_height c)) as [E|E]; cbn [negb]; [|split; [discriminate|tauto]].
  unfold u256_add. destruct (N.ltb_spec (dc_height c + 1) (2 ^ 256)); cbn [snd]; split; try discriminate; try tauto; lia.
Qed.
Lemma emit_main_panic p t pow founder txs ts : any_tree t ->
  (snd (t_emmit_new_main_block p pow founder txs ts t) = Panic <-> panics_any p t (OEmitMain pow founder txs ts)).
Proof.
  intros (H1 & _). cbn [panics_any]. pose proof (last_safe _ H1) as Hl. destruct (unwrap_last _ H1) as (U1 & U2 & U3). unfold t_emmit_new_main_block.
  destruct (mc_get_last_block (t_main t)) as [[b|]|e| |]; cbn [bind unwrap_opt snd safe_lookup] in *; [| | | |contradiction].
  2,4: split; [intros _; left; apply U1; reflexivity|reflexivity].
  2:{ split; [discriminate|]. intros [N|(x & E & _)]; [|discriminate]. destruct (U3 N e eq_refl). }
  assert (NL : ~ no_last (t_main t)) by (intros N; exact (U2 N b eq_refl)). clear U1 U2 U3.
  destruct Hl as [Hw Hk]. pose proof (block_info_wf _ Hw) as Hi. pose proof Hi as (Hts & _ & _ & _ & Hd & _).
  pose proof (retarget_p p b ts Hi) as RP. pose proof (retarget_u p b ts Hi) as RU.
  assert (X : forall u : Prop, (no_last (t_main t) \/ exists b0, @Ok (option block) (Some b) = Ok (Some b0) /\
      enough_work (block_hash b0) (bi_difficulty (get_info b0)) (root_of txs) pow = true /\ (retarget_panics p b0 ts \/ ~ retarget_undefined p b0 ts /\
       (2 ^ 256 <= bi_height (get_info b0) + 1 \/ mc_height (t_main t) = bi_height (get_info b0) + 1 /\ 2 ^ 256 <= bi_height (get_info b0) + 2 /\
          ((bi_height (get_info b0) + 1) mod 1000000 = 0 <-> txs = [])))) <->
      enough_work (block_hash b) (bi_difficulty (get_info b)) (root_of txs) pow = true /\ (retarget_panics p b ts \/ ~ retarget_undefined p b ts /\
       (2 ^ 256 <= bi_height (get_info b) + 1 \/ mc_height (t_main t) = bi_height (get_info b) + 1 /\ 2 ^ 256 <= bi_height (get_info b) + 2 /\
          ((bi_height (get_info b) + 1) mod 1000000 = 0 <-> txs = [])))).
  { intros _. split.
    - intros [N|(x & E & H)]; [contradiction|]. assert (b = x) by congruence. subst x. exact H.
    - intros H. right. exists b. auto. }
  rewrite (X True). clear X.
  rewrite work_eq by exact Hd. cbn [bind]. destruct (enough_work (block_hash b) (bi_difficulty (get_info b)) (root_of txs) pow) eqn:W; cbn [negb bind].
  2:{ split; [discriminate|]. intros (E & _). discriminate. }
  pose proof (recalc_no_err p (bi_timestamp (get_info b)) ts (bi_difficulty (get_info b))) as RE.
  destruct (recalculate_difficulty p (bi_timestamp (get_info b)) ts (bi_difficulty (get_info b))) as [d|e| |] eqn:Ed; cbn [bind snd].
  2:{ destruct (RE e Hd eq_refl). }
  2:{ split; [|reflexivity]. intros _. split; [reflexivity|]. left. apply RP. reflexivity. }
  2:{ split; [discriminate|]. intros (_ & [E|(E & _)]); [apply RP in E; discriminate|]. destruct (E (proj1 RU eq_refl)). }
  assert (NP : ~ retarget_panics p b ts) by (intros E; apply RP in E; discriminate).
  assert (NU : ~ retarget_undefined p b ts) by (intros E; apply RU in E; discriminate).
  assert (X : forall u : Prop, (true = true /\ (retarget_panics p b ts \/ ~ retarget_undefined p b ts /\ u)) <-> u) by (intros u; tauto).
  rewrite X. clear X NP NU RP RU RE. pose proof (recalc_wf _ _ _ _ _ Hd Ed) as [Hdl' _].
  destruct (fee_eq d) as [-> _]; [lia|]. cbn [bind]. unfold u256_add at 1. destruct (N.ltb_spec (bi_height (get_info b) + 1) (2 ^ 256)) as [L|L]; [|split; [auto|reflexivity]].
  cbn [bind bi_height]. change BLOCKS_PER_EPOCH with 1000000.
  destruct (N.eqb_spec ((bi_height (get_info b) + 1) mod 1000000) 0) as [Z|Z]; destruct txs as [|x txs].
  - rewrite summarize_ok. set (rt := mroot _).
    change (t_set_amount ROOT_PUBLIC_ADDRESS COINS_PER_CYCLE (t_rotate_dbs t)) with (rotated t, @Ok unit tt).
    cbv beta zeta iota. match goal with |- context [mc_add_block ?B ?M] => pose proof (mc_add_panic B M) as S; destruct (mc_add_block B M) as [m r]; set (hh := mc_height M) in S end.
    change hh with (mc_height (t_main t)) in S. cbn [snd get_info bi_height] in S.
    assert (Y : match r with Ok _ => Ok (SummBlock (MkInfo ts pow (block_hash b) (bi_height (get_info b) + 1) d founder) rt) | Err e => Err e | Panic => Panic | UB => UB end = Panic <-> r = Panic) by (destruct r; split; congruence).
    cbn [snd]. rewrite Y, S. split; [intros [E1 E2]; right; split; [lia|]; split; [lia|tauto]|]. intros [E|(E1 & E2 & _)]; lia.
  - split; [discriminate|]. intros [E|(_ & _ & E)]; [lia|]. apply proj1 in E. discriminate (E Z).
  - split; [discriminate|]. intros [E|(_ & _ & E)]; [lia|]. apply proj2 in E. destruct (Z (E eq_refl)).
  - pose proof (mroot_ok (x :: txs)) as Hrt. rewrite Hrt.
    match goal with |- context [mc_add_block ?B ?M] => pose proof (mc_add_panic B M) as S; destruct (mc_add_block B M) as [m r] end.
    cbn [snd get_info bi_height] in S |- *.
    match goal with |- match r with Ok _ => Ok ?Z | Err e => Err e | Panic => Panic | UB => UB end = Panic <-> _ =>
      assert (Y : match r with Ok _ => Ok Z | Err e => Err e | Panic => Panic | UB => UB end = Panic <-> r = Panic) by (destruct r; split; congruence) end.
    rewrite Y, S. split; [intros [E1 E2]; right; split; [lia|]; split; [lia|]; split; [intros E; destruct (Z E)|discriminate]|]. intros [E|(E1 & E2 & _)]; lia.
Qed.
Lemma get_deriv_panic w t : any_tree t -> (snd (t_get_derivative_chain w t) = Panic <-> assoc_get w (t_derivs t) = None /\ no_last (t_main t)).
Proof.
  intros (H1 & _). destruct (unwrap_last _ H1) as (U1 & U2 & U3). pose proof (last_safe _ H1) as Hl. unfold t_get_derivative_chain.
  destruct (assoc_get w (t_derivs t)) as [c|]; [split; [discriminate|intros [E _]; discriminate]|].
  destruct (mc_get_last_block (t_main t)) as [[b|]|e| |]; cbn [bind unwrap_opt snd safe_lookup] in *; [| | | |contradiction].
  2,4: split; [intros _; split; [reflexivity|apply U1; reflexivity]|reflexivity].
  2:{ split; [discriminate|]. intros [_ N]. destruct (U3 N e eq_refl). }
  split; [|intros [_ N]; destruct (U2 N b eq_refl)].
  unfold dc_new. match goal with |- context [file_cur ?F] => destruct (file_cur F) as [c|] end; cbn [bind]; [|discriminate].
  rewrite read3. destruct (Nat.ltb _ _); discriminate.
Qed.
Lemma emit_deriv_panic p t pow founder ts : any_tree t ->
  (snd (t_emmit_new_derivative_block p pow founder ts t) = Panic <-> panics_any p t (OEmitDeriv pow founder ts)).
Proof.
  intros A. cbn [panics_any]. rewrite <- (get_deriv_panic founder t A). destruct (get_deriv_any founder t A) as ((H1 & _) & Hm & Hg). rewrite <- Hm. clear A Hm.
  unfold t_emmit_new_derivative_block.
  destruct (t_get_derivative_chain founder t) as [t1 [c|e| |]]; cbn [fst snd] in *.
  2,4: split; [discriminate|intros [E|(c & E & _)]; discriminate].
  2:{ split; [auto|reflexivity]. }
  assert (X : forall u : deriv_chain -> Prop, (@Ok deriv_chain c = Panic \/ exists c0, @Ok deriv_chain c = Ok c0 /\ u c0) <-> u c).
  { intros u. split; [intros [E|(c0 & E & H)]; [discriminate|]|intros H; right; exists c; auto]. assert (c = c0) by congruence. subst. exact H. }
  match goal with |- _ <-> (_ \/ (exists x, _ = Ok x /\ @?u x)) => rewrite (X u) end. cbv beta. clear X.
  assert (Hend : forall h d a height, is_array 32 d -> u64_ok a ->
    (snd (match (let! ok := check_pow h d [] pow in
        if negb ok then Err ETreeWrongPow
        else let! d := recalculate_difficulty p a ts d in Ok (MkInfo ts pow h height d founder)) with
      | Ok info => let '(dc', ra) := dc_add_block info c in
          (with_derivs t1 (assoc_set founder dc' (t_derivs t1)),
           match ra with Ok _ => Ok (DerivBlock info) | Err e => Err e | Panic => Panic | UB => UB end)
      | Err e => (t1, Err e) | Panic => (t1, Panic) | UB => (t1, UB)
      end) = Panic <-> enough_work h d (root_of []) pow = true /\
        (recalculate_difficulty p a ts d = Panic \/ recalculate_difficulty p a ts d <> UB /\ dc_height c = height /\ 2 ^ 256 <= height + 1))).
  { intros h d a height Hd Ha. rewrite work_eq by exact Hd. cbn [bind]. destruct (enough_work h d (root_of []) pow); cbn [negb bind].
    2:{ split; [discriminate|]. intros (E & _). discriminate. }
    pose proof (recalc_no_err p a ts d) as RE.
    destruct (recalculate_difficulty p a ts d) as [d'|e| |] eqn:Ed; cbn [bind snd].
    - match goal with |- context [dc_add_block ?B ?M] => pose proof (dc_add_panic B M) as S; destruct (dc_add_block B M) as [m r] end. cbn [snd bi_height] in S |- *.
      match goal with |- match r with Ok _ => Ok ?Z | Err e => Err e | Panic => Panic | UB => UB end = Panic <-> _ =>
        assert (Y : match r with Ok _ => Ok Z | Err e => Err e | Panic => Panic | UB => UB end = Panic <-> r = Panic) by (destruct r; split; congruence) end.
      rewrite Y, S. split; [intros [E1 E2]; split; [reflexivity|]; right; split; [discriminate|]; lia|]. intros (_ & [E|(_ & E1 & E2)]); [discriminate|lia].
    - destruct (RE e Hd eq_refl).
    - split; [auto|reflexivity].
    - split; [discriminate|]. intros (_ & [E|(E & _)]); congruence. }
  pose proof (dlast_safe _ Hg) as Hl. pose proof (dlast_panic _ Hg) as HP.
  destruct (dc_get_last_block c) as [[b|]|e| |] eqn:El; cbn [bind snd safe_lookup] in *; [| | | |contradiction].
  - assert (NB : ~ side_broken_last c) by (intros N; apply HP in N; discriminate).
    assert (X : forall u1 u2 u3 : Prop, (side_broken_last c \/ (exists b0, @Ok (option block) (Some b) = Ok (Some b0) /\
            (2 ^ 256 <= bi_height (get_info b0) + 1 \/
             enough_work (block_hash b0) (bi_difficulty (get_info b0)) (root_of []) pow = true /\
             (retarget_panics p b0 ts \/
              ~ retarget_undefined p b0 ts /\ dc_height c = bi_height (get_info b0) + 1 /\ 2 ^ 256 <= bi_height (get_info b0) + 2))) \/ (@Ok (option block) (Some b) = Ok None /\ u3)) <->
            (2 ^ 256 <= bi_height (get_info b) + 1 \/
             enough_work (block_hash b) (bi_difficulty (get_info b)) (root_of []) pow = true /\
             (retarget_panics p b ts \/
              ~ retarget_undefined p b ts /\ dc_height c = bi_height (get_info b) + 1 /\ 2 ^ 256 <= bi_height (get_info b) + 2))).
    { intros _ _ u3. split.
      - intros [N|[(x & E & H)|(E & _)]]; [contradiction| |discriminate]. assert (b = x) by congruence. subst x. exact H.
      - intros H. right. left. exists b. auto. }
    rewrite (X True True). clear X.
    assert (Hi : info_wf (get_info b)) by (destruct Hl as (i & -> & Hi); exact Hi).
    rewrite <- (retarget_p p b ts Hi), <- (retarget_u p b ts Hi). destruct Hi as (Hts & _ & _ & _ & Hd & _).
    unfold u256_add. destruct (N.ltb_spec (bi_height (get_info b) + 1) (2 ^ 256)) as [L|L]; cbn [bind snd].
    + rewrite Hend by assumption. replace (bi_height (get_info b) + 1 + 1) with (bi_height (get_info b) + 2) by lia. split; [auto|]. intros [E|E]; [lia|exact E].
    + split; [auto|reflexivity].
  - assert (NB : ~ side_broken_last c) by (intros N; apply HP in N; discriminate).
    pose proof (hash_panic (dc_genesis c) _ H1) as HH.
    assert (Hf : safe_lookup main_kind (mc_find_by_hash (dc_genesis c) (t_main t1))).
    { unfold mc_find_by_hash, mc_find_raw_by_hash. destruct (sled_get (dc_genesis c) _) as [hb|]; [|exact Logic.I]. destruct (Nat.ltb _ _); [exact Logic.I|]. cbn [bind]. apply decode_safe, raw_height, H1. }
    rewrite <- HH. clear HH.
    assert (X : forall (u1 : block -> Prop) (u3 : Prop), (side_broken_last c \/ (exists b0, @Ok (option block) None = Ok (Some b0) /\ u1 b0) \/ (@Ok (option block) None = Ok None /\ u3)) <-> u3).
    { intros u1 u3. split; [intros [N|[(x & E & _)|(_ & H)]]; [contradiction|discriminate|exact H]|auto]. }
    rewrite X. clear X.
    destruct (mc_find_by_hash (dc_genesis c) (t_main t1)) as [[b|]|e| |]; cbn [bind safe_lookup] in *; [| | | |contradiction].
    2,3: split; [discriminate|intros [E|(_ & x & E & _)]; discriminate].
    2:{ split; [auto|reflexivity]. }
    destruct Hf as [Hw _]. pose proof (block_info_wf _ Hw) as (Hts & _). assert (Hb : is_array 32 BEGINNING_DIFFICULTY) by (split; [reflexivity|vm_compute; repeat constructor]).
    rewrite Hend by assumption. rewrite recalc_panic by assumption. split.
    + intros (E & [(P & [B|(s & _ & _ & B)])|(_ & _ & B)]); [right; split; [exact P|]; exists b; auto|discriminate B|]. exfalso. revert B. clear. lia.
    + intros [E|(P & x & E & W & B)]; [discriminate|]. assert (b = x) by congruence. subst x. split; [exact W|]. left. auto.
  - split; [discriminate|]. intros [N|[(x & E & _)|(E & _)]]; [apply HP in N; discriminate|discriminate..].
  - split; [|reflexivity]. intros _. left. apply HP. reflexivity.
Qed.

(** *** Transactions *)
Lemma send_tx_panic p t tx : any_tree t -> tx_wf tx -> N.of_nat (length (tx_dump tx)) < 2 ^ 63 ->
  (snd (t_send_transaction tx t) = Panic <-> panics_any p t (OSendTx tx)).
Proof.
  intros (H1 & _) Hwf Hsz. cbn [panics_any]. destruct (unwrap_last _ H1) as (U1 & U2 & U3). pose proof (last_safe _ H1) as Hl.
  pose proof (tx_dump_size tx Hwf) as Hds. unfold amount_entry, gas_entry.
  assert (Hsize : N.of_nat (tx_get_dump_size tx) = N.of_nat (length (tx_dump tx)) + (if tx_amount tx =? 0 then 1 else 0)).
  { rewrite Hds. destruct (tx_amount tx =? 0); lia. }
  assert (Hs64 : N.of_nat (length (tx_dump tx)) + (if tx_amount tx =? 0 then 1 else 0) < 2 ^ 64) by (destruct (tx_amount tx =? 0); lia).
  unfold t_send_transaction. rewrite Hsize. set (size := N.of_nat (length (tx_dump tx)) + (if tx_amount tx =? 0 then 1 else 0)) in *. clearbody size. clear Hsize Hds Hsz.
  unfold t_get_gas, t_get_amount, led_get.
  destruct (entry_cases (sled_get (tx_sender tx) (t_gas t))) as [(g & -> & Hg & Dg & Ug)|(-> & Dg & _)]; cbn [bind]; [|tauto].
  destruct (entry_cases (sled_get (tx_sender tx) (t_summary t))) as [(f & -> & Hf & Df & Uf)|(-> & Df & _)]; cbn [bind]; [|tauto].
  unfold u256_mul at 1. change BYTE_GAS_PRICE with 625000000000. destruct (N.ltb_spec (625000000000 * size) (2 ^ 256)) as [_|L]; [|exfalso; revert L Hs64; clear; lia]. cbn [bind].
  set (u := no_last (t_main t) \/ exists b, mc_get_last_block (t_main t) = Ok (Some b) /\ (2 ^ 256 <= fee_after b + tx_amount tx \/
     fee_after b + tx_amount tx <= f /\ tx_sender tx <> tx_receiver tx /\ cannot_add (sled_get (tx_receiver tx) (t_summary t)) (tx_amount tx))).
  match goal with |- _ <-> ?R => assert (X : R <-> gas_for size <= g /\ u) end.
  { split.
    - intros [E|[E|(g' & f' & E1 & E2 & E3 & E4)]]; [contradiction|contradiction|]. rewrite (Ug _ E1) in E3. rewrite (Uf _ E2) in E4. split; [exact E3|exact E4].
    - intros [E1 E2]. right. right. exists g, f. auto. }
  rewrite X. clear X. unfold gas_for. destruct (N.ltb_spec g (625000000000 * size)) as [G|G].
  { split; [discriminate|]. intros [E _]. exfalso. revert G E. clear. lia. }
  assert (X : 625000000000 * size <= g /\ u <-> u) by tauto. rewrite X. clear X. unfold u. clear u.
  destruct (mc_get_last_block (t_main t)) as [[b|]|e| |]; cbn [bind unwrap_opt snd safe_lookup] in *; [| | | |contradiction].
  2,4: split; [intros _; left; apply U1; reflexivity|reflexivity].
  2:{ split; [discriminate|]. intros [N|(x & E & _)]; [destruct (U3 N e eq_refl)|discriminate]. }
  assert (X : forall u : block -> Prop, (no_last (t_main t) \/ exists b0, @Ok (option block) (Some b) = Ok (Some b0) /\ u b0) <-> u b).
  { intros u. split; [intros [N|(x & E & H)]; [destruct (U2 N b eq_refl)|]|intros H; right; exists b; auto]. assert (b = x) by congruence. subst. exact H. }
  match goal with |- _ <-> (_ \/ (exists x, _ = Ok (Some x) /\ @?u x)) => rewrite (X u) end. cbv beta. clear X U1 U2 U3.
  destruct Hl as [Hw _]. pose proof (block_info_wf _ Hw) as (_ & _ & _ & _ & [Hdl Hdb] & _).
  destruct (fee_eq (bi_difficulty (get_info b))) as [-> _]; [lia|]. cbn [bind]. rewrite clz_spec by exact Hdb. change (62500 * leading_zero_bits (bi_difficulty (get_info b))) with (fee_after b).
  unfold u256_add. destruct (N.ltb_spec (fee_after b + tx_amount tx) (2 ^ 256)) as [L|L]; cbn [bind]; [|split; [auto|reflexivity]].
  destruct (N.ltb_spec f (fee_after b + tx_amount tx)) as [F|F]; [split; [discriminate|]; intros [E|[E _]]; exfalso; [revert E L|revert E F]; clear; lia|].
  assert (SG : forall s m, snd (t_sub_gas (tx_sender tx) (625000000000 * size) (with_summary (with_main t m) s)) <> Panic).
  { intros s m. unfold t_sub_gas. rewrite LiveProps.on_gas_panic, take_panic. cbn [with_summary with_main t_gas]. intros [E|(x & E & E')]; [contradiction|]. rewrite (Ug _ E) in E'. revert G E'. clear. lia. }
  unfold t_send_amount. destruct (bytes_eqb (tx_sender tx) (tx_receiver tx)) eqn:E.
  - apply bytes_eqb_eq in E. split; [|intros [Y|(_ & Y & _)]; [exfalso; revert Y L; clear; lia|contradiction]].
    specialize (SG (t_summary t) (mc_add_transaction tx (t_main t))). intros Y. exfalso. apply SG. exact Y.
  - assert (Hne : tx_sender tx <> tx_receiver tx) by (intros Y; rewrite Y, bytes_eqb_refl in E; discriminate).
    unfold t_on_summary. cbn [with_main t_summary]. pose proof (move_panic (tx_sender tx) (tx_receiver tx) (tx_amount tx) (t_summary t)) as M.
    pose proof (send_safe (tx_sender tx) (tx_receiver tx) (tx_amount tx) (t_summary t)) as S.
    destruct (led_send (tx_sender tx) (tx_receiver tx) (tx_amount tx) (t_summary t)) as [s r]. cbn [snd] in M, S.
    assert (Y : cannot_take (sled_get (tx_sender tx) (t_summary t)) (tx_amount tx) -> False).
    { intros [Y|(x & Y & Y')]; [contradiction|]. rewrite (Uf _ Y) in Y'. revert Y' F. clear. lia. }
    destruct r as [v|e| |]; cbn [snd].
    + split; [intros Z; destruct (SG _ _ Z)|]. intros [Z|(_ & _ & Z)]; [exfalso; revert Z L; clear; lia|]. discriminate (proj2 M (or_intror Z)).
    + split; [discriminate|]. intros [Z|(_ & _ & Z)]; [exfalso; revert Z L; clear; lia|]. discriminate (proj2 M (or_intror Z)).
    + split; [|reflexivity]. intros _. right. split; [exact F|]. split; [exact Hne|]. destruct (proj1 M eq_refl) as [Z|Z]; [destruct (Y Z)|exact Z].
    + contradiction.
Qed.

(*@T C129: which calls panic, whatever the databases hold. *)
Lemma p_C129_calls : forall p t o, any_tree t -> op_wf o -> (forall tx, o = OSendTx tx -> N.of_nat (length (tx_dump tx)) < 2 ^ 63) ->
  (snd (step p t o) = Panic <-> panics_any p t o).
Proof.
  intros p t o A Hwf Hsz. destruct o; cbn [step].
  - rewrite LiveProps.ret_unit_panic. unfold t_add_amount. rewrite LiveProps.on_summary_panic. apply add_panic.
  - split; [discriminate|contradiction].
  - rewrite LiveProps.ret_unit_panic. unfold t_sub_amount. rewrite LiveProps.on_summary_panic. apply take_panic.
  - rewrite LiveProps.ret_unit_panic. unfold t_send_amount. cbn [panics_any]. destruct (bytes_eqb from to) eqn:E.
    + apply bytes_eqb_eq in E. split; [discriminate|]. intros [H _]. contradiction.
    + rewrite LiveProps.on_summary_panic, move_panic. assert (from <> to) by (intros ->; rewrite bytes_eqb_refl in E; discriminate). unfold amount_entry. tauto.
  - rewrite LiveProps.ret_unit_panic. unfold t_add_gas. rewrite LiveProps.on_gas_panic. apply add_panic.
  - rewrite LiveProps.ret_unit_panic. unfold t_sub_gas. rewrite LiveProps.on_gas_panic. apply take_panic.
  - rewrite LiveProps.ret_unit_panic. unfold t_send_gas. rewrite LiveProps.on_gas_panic. apply move_panic.
  - rewrite LiveProps.ret_unit_panic. apply send_tx_panic; [exact A|exact Hwf|apply Hsz; reflexivity].
  - rewrite LiveProps.ret_block_panic. apply (emit_main_panic p t pow founder txs ts A).
  - rewrite LiveProps.ret_block_panic. apply (emit_deriv_panic p t pow founder ts A).
  - cbn [panics_any]. rewrite <- (get_deriv_panic owner t A). destruct (t_get_derivative_chain owner t) as [t1 [c|e| |]]; cbn [fst snd bind]; split; congruence.
  - rewrite LiveProps.ret_unit_panic. unfold t_add_new_block. cbn [panics_any]. rewrite <- mc_add_panic. destruct (mc_add_block b (t_main t)) as [m [u|e| |]]; cbn [snd]; split; congruence.
  - split; [discriminate|contradiction].
  - cbn [panics_any]. destruct (assoc_get owner (t_derivs t)) as [c|]; [|split; [discriminate|intros (c & E & _); discriminate]].
    assert (X : (exists c0, Some c = Some c0 /\ bi_height i = dc_height c0 /\ 2 ^ 256 <= dc_height c0 + 1) <-> snd (dc_add_block i c) = Panic).
    { rewrite dc_add_panic. split; [intros (c0 & E & H); assert (c = c0) by congruence; subst; exact H|intros H; exists c; auto]. }
    rewrite X. destruct (dc_add_block i c) as [m [u|e| |]]; cbn [snd bind]; split; congruence.
  - split; [discriminate|contradiction].
  - split; [discriminate|contradiction].
  - cbn [panics_any]. destruct (assoc_get owner (t_derivs t)); split; (discriminate || contradiction).
Qed.

(*@E
Example C129_ex_calls :
  let b h := SummBlock (MkInfo 1000 (repeat 0 32) (repeat 0 32) h (255 :: repeat 0 31) addrA) (repeat 0 32) in
  let t h := MkTree0 (MkMain (sled_insert (to_be 32 (h - 1)) (block_dump (b (h - 1))) sled_empty) sled_empty sled_empty h (repeat 0 32) file_absent) [] sled_empty sled_empty (sled_insert addrA [2; 1] sled_empty) sled_empty [] in
  let emit ts := OEmitMain (repeat 0 32) addrA [repeat 0 32] ts in
  snd (step Debug (t 2) (emit 999)) = Panic /\ snd (step Debug (t 2) (emit 1601)) = Panic /\ snd (step Release (t 2) (emit 1601)) = UB /\
  (exists x, snd (step Debug (t 2) (emit 1600)) = Ok x) /\
  snd (step Release (t (2 ^ 256 - 1)) (emit 1600)) = Panic /\ panics_any Release (t (2 ^ 256 - 1)) (emit 1600) /\
  snd (step Release (t 0) (emit 1600)) = Panic /\ snd (step Debug (t 2) (OAddGas addrA 0)) = Panic /\ snd (step Debug (t 2) (OAddAmount addrA 0)) = Ok RUnit.
Proof.
  cbv zeta. do 3 (split; [vm_compute; reflexivity|]). split; [eexists; vm_compute; reflexivity|]. split; [vm_compute; reflexivity|]. split; [|repeat apply conj; vm_compute; reflexivity].
  right. eexists. split; [vm_compute; reflexivity|]. split; [vm_compute; reflexivity|]. right. split.
  - intros (_ & s & E & L & _). vm_compute in E. injection E as <-. vm_compute in L. discriminate L.
  - right. split; [vm_compute; reflexivity|]. split; [vm_compute; discriminate|]. split; intros E; vm_compute in E; discriminate E.
Qed.
@*)

(*@T C129: the same at every moment of every history of a node opened on a directory with any contents. *)
Lemma p_C129_histories : forall p d t ops o, any_disk d -> t_new d = Ok t -> Forall op_wf ops -> op_wf o ->
  (forall tx, o = OSendTx tx -> N.of_nat (length (tx_dump tx)) < 2 ^ 63) ->
  (snd (step p (run p t ops) o) = Panic <-> panics_any p (run p t ops) o).
Proof.
  intros p d t ops o Hd Ho Hops Hwf Hsz. apply p_C129_calls; [|exact Hwf|exact Hsz].
  pose proof (new_any d t Hd Ho) as A. clear Ho Hd. revert t A. induction Hops as [|x ops Hx Hops IH]; intros t A; [exact A|].
  apply (IH (fst (step p t x))). apply step_any; assumption.
Qed.

(*@E
Example C129_ex_histories :
  let d := MkDisk (MkMainDisk (sled_insert (to_be 32 6) [2] sled_empty) sled_empty sled_empty (MkFile (Some (to_be 32 7 ++ repeat 0 32)) [])) sled_empty sled_empty sled_empty sled_empty [] in
  exists t, t_new d = Ok t /\ Forall op_wf [OAddGas addrA 3; OFlush] /\
  snd (step Debug (run Debug t [OAddGas addrA 3; OFlush]) (OGetDeriv addrA)) = Panic /\ panics_any Debug (run Debug t [OAddGas addrA 3; OFlush]) (OGetDeriv addrA) /\
  snd (step Debug (run Debug t [OAddGas addrA 3; OFlush]) (OSubGas addrA 3)) = Ok RUnit.
Proof.
  cbv zeta. eexists. split; [vm_compute; reflexivity|]. split; [constructor; [|constructor; [exact Logic.I|constructor]]; split; [|reflexivity]; repeat constructor|].
  split; [vm_compute; reflexivity|]. split; [|vm_compute; reflexivity]. split; [vm_compute; reflexivity|]. left. right. exists [2]. split; [split; [vm_compute; discriminate|vm_compute; reflexivity]|].
  exists 2, []. split; [reflexivity|]. left. split; [reflexivity|repeat constructor].
Qed.
@*)
