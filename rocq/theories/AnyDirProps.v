(** Directories and trees with any contents. *)
From Coq Require Import Lia ZifyBool ZifyNat ZifyN.
From Verif Require Import Base Sha256 Merkle Tools Transaction Block Sled Chain Tree Spec Reach LedgerSpec NodeSpec AnyDirSpec DamageSpec Demo.
From Verif Require Import BaseFacts ToolsFacts MerkleFacts CodecFacts SledFacts ChainFacts DiffFacts TreeFacts LedgerFacts DerivFacts NodeFacts DamageProps.
From Verif Require LiveProps.

Local Strategy 1000 [u256_mul u256_add u256_sub BYTE_GAS_PRICE recalculate_fee recalculate_difficulty check_pow load_u256 dump_u256 build_tree get_root sha256 block_dump tx_dump mroot root_of COINS_PER_CYCLE].

(** *** Opening *)
Lemma read2 c : read_fields 2 c = if Nat.ltb (length c) 64 then Err EChainInit else Ok [firstn 32 c; firstn 32 (skipn 32 c)].
Proof.
  cbn [read_fields]. rewrite skipn_length. destruct (Nat.ltb_spec (length c) 32); destruct (Nat.ltb_spec (length c) 64); try lia; [reflexivity| |].
  - destruct (Nat.ltb_spec (length c - 32) 32); [reflexivity|lia].
  - destruct (Nat.ltb_spec (length c - 32) 32); [lia|reflexivity].
Qed.
Lemma skip_skip {A} a b (l : list A) : skipn a (skipn b l) = skipn (b + a) l.
Proof. revert l. induction b as [|b IH]; intros l; [reflexivity|]. destruct l as [|x l]; [destruct a; reflexivity|]. cbn [skipn Nat.add]. apply IH. Qed.
Lemma read3 c : read_fields 3 c = if Nat.ltb (length c) 96 then Err EChainInit else Ok [firstn 32 c; firstn 32 (skipn 32 c); firstn 32 (skipn 64 c)].
Proof.
  change (read_fields 3 c) with (if Nat.ltb (length c) 32 then Err EChainInit else let! r := read_fields 2 (skipn 32 c) in Ok (firstn 32 c :: r)).
  rewrite read2, skipn_length, skip_skip. replace (32 + 32)%nat with 64%nat by lia.
  destruct (Nat.ltb_spec (length c) 32); destruct (Nat.ltb_spec (length c) 96); try lia; [reflexivity| |].
  - destruct (Nat.ltb_spec (length c - 32) 64); [reflexivity|lia].
  - destruct (Nat.ltb_spec (length c - 32) 64); [lia|reflexivity].
Qed.

Lemma led_get_set1 w a s : u256_ok a -> led_get w (sled_commit [(w, led_encode a)] s) = Ok a.
Proof.
  intros H. unfold led_get. rewrite sled_get_commit1, bytes_eqb_refl. apply led_decode_encode, H.
Qed.
Lemma coins_ok : u256_ok COINS_PER_CYCLE. Proof. unfold u256_ok. vm_compute. reflexivity. Qed.

Lemma t_new_at d h df : mc_read_config (md_cfg (k_main d)) = Ok (h, df) -> exists t, t_new d = Ok t /\ opened_at h d t.
Proof.
  intros E. unfold t_new, mc_new. rewrite E. cbn [bind].
  assert (Hroot : forall s w, (1 < h \/ w <> ROOT_PUBLIC_ADDRESS) ->
    sled_get w (if h <=? 1 then sled_commit [(ROOT_PUBLIC_ADDRESS, led_encode COINS_PER_CYCLE)] s else s) = sled_get w s).
  { intros s w Hw. destruct (N.leb_spec h 1) as [L|L]; [|reflexivity]. destruct Hw as [Hw|Hw]; [lia|].
    rewrite sled_get_commit1. destruct (bytes_eqb w ROOT_PUBLIC_ADDRESS) eqn:X; [apply bytes_eqb_eq in X; contradiction|reflexivity]. }
  assert (Hcoins : forall s, h <= 1 -> led_get ROOT_PUBLIC_ADDRESS (if h <=? 1 then sled_commit [(ROOT_PUBLIC_ADDRESS, led_encode COINS_PER_CYCLE)] s else s) = Ok COINS_PER_CYCLE).
  { intros s L. destruct (N.leb_spec h 1) as [_|]; [|lia]. apply led_get_set1, coins_ok. }
  destruct (N.eqb_spec h 0) as [->|H0].
  - rewrite genesis_eq. cbn [bind]. unfold mc_add_block. cbn [mc_height].
    change (bi_height (get_info genesis) =? 0) with true. cbn [negb]. unfold u256_add. change (0 + 1 <? 2 ^ 256) with true.
    cbn [change_context bind mc_get_height mc_height]. change (0 + 1 =? 1) with true. cbv iota.
    eexists. split; [reflexivity|]. unfold opened_at. cbn [t_main t_summary t_old_summary t_gas t_old_gas t_derivs t_closed mc_height mc_blocks mc_refs mc_txs].
    change (0 =? 0) with true. cbn [andb]. rewrite first_is_genesis. change (height_key 0) with (repeat 0 32).
    split; [reflexivity|]. split; [intros x; apply sled_get_insert|]. split; [intros x; apply sled_get_insert|].
    split; [reflexivity|]. split; [exact (Hroot (k_summary d))|]. split; [exact (Hcoins (k_summary d))|]. auto.
  - cbn [bind mc_get_height mc_height]. eexists. split; [reflexivity|]. unfold opened_at.
    cbn [t_main t_summary t_old_summary t_gas t_old_gas t_derivs t_closed mc_height mc_blocks mc_refs mc_txs].
    destruct (N.eqb_spec h 0) as [|_]; [contradiction|]. cbn [andb].
    assert (X : (h =? 1) = (h <=? 1)) by (destruct (N.eqb_spec h 1); destruct (N.leb_spec h 1); lia). rewrite X.
    split; [reflexivity|]. split; [reflexivity|]. split; [reflexivity|]. split; [reflexivity|].
    split; [exact (Hroot (k_summary d))|]. split; [exact (Hcoins (k_summary d))|]. auto.
Qed.

(*@T C126: a directory with any contents is opened, at the height its config file says, or refused because its config file is too short; and what the opened node then holds is what the
    directory holds, but for the first block when the height is 0 and the coins of the root account when it is at most 1. *)
Lemma p_C126_opening : forall d,
  match file_cur (md_cfg (k_main d)) with
  | None => exists t, t_new d = Ok t /\ opened_at 0 d t
  | Some c =>
      if Nat.ltb (length c) 64 then t_new d = Err EChainInit
      else exists t, t_new d = Ok t /\ opened_at (be_val (firstn 32 c)) d t
  end.
Proof.
  intros d. destruct (file_cur (md_cfg (k_main d))) as [c|] eqn:E.
  - destruct (Nat.ltb (length c) 64) eqn:L.
    + unfold t_new, mc_new, mc_read_config. rewrite E, read2, L. reflexivity.
    + eapply t_new_at. unfold mc_read_config. rewrite E, read2, L. cbn [bind index nth_error]. rewrite be_val_from_be. reflexivity.
  - eapply t_new_at. unfold mc_read_config. rewrite E. reflexivity.
Qed.

(*@E
Example C126_ex_opening :
  let with_config c := MkDisk (MkMainDisk (sled_insert (to_be 32 6) [9; 9] sled_empty) sled_empty sled_empty (MkFile (Some c) [])) sled_empty sled_empty sled_empty sled_empty [] in
  t_new (with_config (repeat 0 63)) = Err EChainInit /\
  (exists t, t_new (with_config (to_be 32 7 ++ repeat 0 32)) = Ok t /\ mc_height (t_main t) = 7 /\ mc_get_last_block (t_main t) = Err EChainFindByHeight /\
     t_get_amount ROOT_PUBLIC_ADDRESS t = Ok 0) /\
  (exists t, t_new (with_config (to_be 32 0 ++ repeat 0 99)) = Ok t /\ mc_height (t_main t) = 1 /\ mc_get_last_block (t_main t) = Ok (Some first_block)).
Proof.
  cbv zeta. split; [vm_compute; reflexivity|]. split.
  - eexists. split; [vm_compute; reflexivity|]. split; [vm_compute; reflexivity|]. split; vm_compute; reflexivity.
  - eexists. split; [vm_compute; reflexivity|]. split; vm_compute; reflexivity.
Qed.
@*)

(*@T C126: the same for the directory of a side chain, for a node whose last block can be read. *)
Lemma p_C126_side_opening : forall w t b, assoc_get w (t_derivs t) = None -> mc_get_last_block (t_main t) = Ok (Some b) ->
  let k := match assoc_get (hex_encode w) (t_closed t) with Some k => k | None => deriv_disk_empty end in
  let r := t_get_derivative_chain w t in
  match file_cur (dd_cfg k) with
  | None => exists c, snd r = Ok c /\ side_opened 0 (block_hash b) k c /\ assoc_get w (t_derivs (fst r)) = Some c
  | Some c =>
      if Nat.ltb (length c) 96 then r = (t, Err EChainInit)
      else exists x, snd r = Ok x /\ side_opened (be_val (firstn 32 c)) (firstn 32 (skipn 64 c)) k x /\ assoc_get w (t_derivs (fst r)) = Some x
  end.
Proof.
  intros w t b E Hl. cbv zeta. unfold t_get_derivative_chain. rewrite E, Hl. cbn [bind unwrap_opt].
  set (k := match assoc_get (hex_encode w) (t_closed t) with Some k => k | None => deriv_disk_empty end).
  unfold dc_new. destruct (file_cur (dd_cfg k)) as [c|].
  - rewrite read3. destruct (Nat.ltb (length c) 96); [reflexivity|]. cbn [bind index nth_error fst snd with_derivs t_derivs].
    eexists. split; [reflexivity|]. split; [|rewrite assoc_get_set, bytes_eqb_refl; reflexivity].
    unfold side_opened. cbn [dc_height dc_genesis dc_blocks dc_refs]. rewrite be_val_from_be. auto.
  - cbn [bind fst snd with_derivs t_derivs]. eexists. split; [reflexivity|]. split; [|rewrite assoc_get_set, bytes_eqb_refl; reflexivity].
    unfold side_opened. auto.
Qed.

(*@E
Example C126_ex_side_opening :
  let side c := (hex_encode addrA, MkDerivDisk sled_empty sled_empty (MkFile (Some c) [])) in
  let node c := MkTree0 (t_main fresh) [] (t_summary fresh) sled_empty sled_empty sled_empty [side c] in
  assoc_get addrA (t_derivs (node [])) = None /\ mc_get_last_block (t_main (node [])) = Ok (Some first_block) /\
  snd (t_get_derivative_chain addrA (node (repeat 0 95))) = Err EChainInit /\
  exists c, snd (t_get_derivative_chain addrA (node (to_be 32 5 ++ repeat 1 32 ++ repeat 2 40))) = Ok c /\ dc_height c = 5 /\ dc_genesis c = repeat 2 32.
Proof.
  cbv zeta. split; [vm_compute; reflexivity|]. split; [vm_compute; reflexivity|]. split; [vm_compute; reflexivity|].
  eexists. split; [vm_compute; reflexivity|]. split; vm_compute; reflexivity.
Qed.
@*)

(** *** Reading *)
Lemma bytes_skip n l : bytes_ok l -> bytes_ok (skipn n l).
Proof. unfold bytes_ok. rewrite !Forall_forall. intros H x Hx. apply H. rewrite <- (firstn_skipn n l). apply in_or_app. auto. Qed.
Definition main_kind (b : block) : Prop := block_wf b /\ match b with DerivBlock _ => False | _ => True end.
Lemma decode_safe d : (forall v, d = Some v -> bytes_ok v) -> safe_lookup main_kind (mc_decode d).
Proof.
  intros H. destruct d as [v|]; [|exact Logic.I]. unfold mc_decode. pose proof (deserialize_no_ub v (H v eq_refl)) as C.
  destruct (deserialize_main_chain_block v) as [b|e| |]; cbn [change_context bind safe_lookup]; auto.
Qed.
Definition side_kind (b : block) : Prop := exists i, b = DerivBlock i /\ info_wf i.
Lemma ddecode_safe d : (forall v, d = Some v -> bytes_ok v) -> safe_lookup side_kind (dc_decode d).
Proof.
  intros H. destruct d as [v|]; [|exact Logic.I]. unfold dc_decode, slice_from. destruct (Nat.leb 1 (length v)); [|exact Logic.I]. cbn [bind].
  unfold deriv_block_parse. destruct (Nat.ltb _ _); [cbn; auto|].
  pose proof (info_parse_cases _ (bytes_skip 1 v (H v eq_refl))) as C. destruct (info_parse (skipn 1 v)) as [i|e| |]; cbn [change_context bind safe_lookup]; auto.
  exists i. tauto.
Qed.
Lemma raw_height h m : byte_values (mc_blocks m) -> forall v, mc_find_raw_by_height h m = Some v -> bytes_ok v.
Proof. intros H v. unfold mc_find_raw_by_height. destruct (_ <? _); [discriminate|]. apply H. Qed.
Lemma draw_height h c : byte_values (dc_blocks c) -> forall v, dc_find_raw_by_height h c = Some v -> bytes_ok v.
Proof. intros H v. unfold dc_find_raw_by_height. destruct (_ <? _); [discriminate|]. apply H. Qed.
Lemma last_safe m : byte_values (mc_blocks m) -> safe_lookup main_kind (mc_get_last_block m).
Proof.
  intros H. unfold mc_get_last_block, mc_get_last_raw_block, u256_sub. destruct (_ <=? _); [|exact Logic.I]. cbn [bind]. apply decode_safe, raw_height, H.
Qed.
Lemma dlast_safe c : byte_values (dc_blocks c) -> safe_lookup side_kind (dc_get_last_block c).
Proof.
  intros H. unfold dc_get_last_block, dc_get_last_raw_block. destruct (_ =? 0); [exact Logic.I|]. unfold u256_sub. destruct (_ <=? _); [|exact Logic.I]. cbn [bind].
  apply ddecode_safe, draw_height, H.
Qed.

(*@T C126: whatever the databases hold, no lookup leads to undefined behaviour, and what a lookup returns is well formed. *)
Lemma p_C126_lookups : forall t, any_tree t ->
  (let m := t_main t in
   let is_main b := block_wf b /\ match b with DerivBlock _ => False | _ => True end in
   (forall h, safe_lookup is_main (mc_find_by_height h m)) /\ (forall h, safe_lookup is_main (mc_find_by_hash h m)) /\
   safe_lookup is_main (mc_get_last_block m) /\ (forall h, safe_lookup tx_wf (mc_get_transaction h m))) /\
  (forall w c, In (w, c) (t_derivs t) ->
   let is_side b := exists i, b = DerivBlock i /\ info_wf i in
   (forall h, safe_lookup is_side (dc_find_by_height h c)) /\ (forall h, safe_lookup is_side (dc_find_by_hash h c)) /\ safe_lookup is_side (dc_get_last_block c)).
Proof.
  intros t (H1 & H2 & H3 & _). cbv zeta. split; [split; [|split; [|split]]|intros w c Hc; split; [|split]].
  - intros h. apply decode_safe, raw_height, H1.
  - intros h. unfold mc_find_by_hash, mc_find_raw_by_hash. destruct (sled_get h _) as [hb|]; [|exact Logic.I]. destruct (Nat.ltb _ _); [exact Logic.I|]. cbn [bind]. apply decode_safe, raw_height, H1.
  - apply last_safe, H1.
  - intros h. unfold mc_get_transaction. destruct (mc_get_transaction_raw h (t_main t)) as [v|] eqn:E; [|exact Logic.I]. apply H2 in E. destruct (negb _); [right; reflexivity|].
    unfold slice_from. destruct (Nat.leb _ _); [|exact Logic.I]. cbn [bind]. pose proof (tx_parse_cases _ (bytes_skip 1 v E)) as C.
    destruct (tx_parse (skipn 1 v)) as [x|e| |]; cbn [change_context bind safe_lookup]; auto. apply C.
  - intros h. eapply ddecode_safe, draw_height, H3, Hc.
  - intros h. unfold dc_find_by_hash, dc_find_raw_by_hash. destruct (sled_get h _) as [hb|]; [|exact Logic.I]. destruct (Nat.ltb _ _); [exact Logic.I|]. cbn [bind]. eapply ddecode_safe, draw_height, H3, Hc.
  - eapply dlast_safe, H3, Hc.
Qed.

(*@E
Example C126_ex_lookups :
  let m v := MkMain (sled_insert (to_be 32 6) v sled_empty) (sled_insert [1] (to_be 32 6) sled_empty) (sled_insert [7] v sled_empty) 7 (repeat 0 32) file_absent in
  mc_find_by_height 6 (m [9; 9]) = Err EChainFindByHeight /\ mc_find_by_hash [1] (m (2 :: repeat 0 50)) = Err EChainFindByHeight /\
  mc_get_last_block (m [2]) = Panic /\ mc_get_last_block (m (block_dump first_block)) = Ok (Some first_block) /\
  mc_get_transaction [7] (m [0]) = Err EChainFindByHash /\ mc_get_transaction [7] (m (0 :: repeat 0 138 ++ [3])) = Err EChainFindByHash.
Proof. cbv zeta. repeat apply conj; vm_compute; reflexivity. Qed.
@*)

(** *** Undefined behaviour *)
Lemma recalc_ub p a b d : is_array 32 d -> u64_ok a ->
  (recalculate_difficulty p a b d = UB <-> p = Release /\ exists s, seconds Release a b = Some s /\ 600 < s /\ hd_error d = Some 255).
Proof.
  intros [Hl Hd] Ha. rewrite recalc_retarget.
  assert (R : forall c, retarget p c d = UB <-> p = Release /\ c = Gt /\ hd_error d = Some 255).
  { assert (Hs : forall i x, (i < 32)%nat -> set_unchecked d i x <> UB) by (intros i x Hi; rewrite set_unchecked_ok by lia; discriminate).
    assert (Hi : forall i, (i < 32)%nat -> exists x, index_unchecked d i = Ok x).
    { intros i Hi. unfold index_unchecked. destruct (nth_error d i) as [x|] eqn:E; [eauto|]. apply nth_error_None in E. lia. }
    assert (Hn : (first_nonzero 0 d < 32)%nat) by (destruct (LiveProps.first_nonzero_lt d 0) as [H|H]; lia).
    intros c. unfold retarget. cbv zeta. destruct (Hi _ Hn) as (v & Ev). destruct c.
    - split; [discriminate|]. intros (_ & H & _). discriminate.
    - rewrite Ev. cbn [bind]. split; [intros H; destruct (Hs _ _ Hn H)|]. intros (_ & H & _). discriminate.
    - rewrite Ev. cbn [bind]. destruct d as [|x d']; [discriminate|]. cbn [hd_error].
      assert (Hz : first_nonzero 0 (x :: d') = 0%nat -> index_unchecked (x :: d') 0 = Ok v -> x = v) by (intros _ E; injection E as ->; reflexivity).
      assert (H255 : x = 255 -> first_nonzero 0 (x :: d') = 0%nat) by (intros ->; reflexivity).
      destruct (Nat.eqb (first_nonzero 0 (x :: d')) 0 && (v =? 127))%bool eqn:B.
      { apply andb_prop in B as [B1 B2]. apply Nat.eqb_eq in B1. rewrite B1 in Ev. specialize (Hz B1 Ev). split; [discriminate|]. intros (_ & _ & H). injection H as H. lia. }
      destruct (N.eqb_spec v 255) as [->|V].
      + destruct (first_nonzero 0 (x :: d')) as [|i] eqn:F.
        * specialize (Hz eq_refl Ev). subst x. destruct p; split; auto; try discriminate. intros (H & _). discriminate.
        * destruct (Hi i ltac:(lia)) as (v' & ->). cbn [bind]. split; [intros H; destruct (Hs i _ ltac:(lia) H)|]. intros (_ & _ & H). injection H as H. specialize (H255 H). discriminate.
      + split; [intros H; destruct (Hs _ _ Hn H)|]. intros (_ & _ & H). injection H as H. specialize (H255 H). rewrite H255 in Ev. specialize (Hz H255 Ev). lia. }
  unfold u64_sub, seconds. destruct (N.leb_spec a b) as [L|L]; cbn [bind].
  - rewrite R. split.
    + intros (-> & C & H). split; [reflexivity|]. exists (b - a). split; [reflexivity|]. apply N.compare_gt_iff in C. auto.
    + intros (-> & s & E & C & H). injection E as <-. split; [reflexivity|]. split; [apply N.compare_gt_iff; exact C|exact H].
  - destruct p; cbn [bind]; [split; [discriminate|intros [E _]; discriminate]|].
    unfold u64_ok in Ha. rewrite N.mod_small by lia. rewrite R. split.
    + intros (_ & C & H). split; [reflexivity|]. exists (b + 2 ^ 64 - a). split; [reflexivity|]. apply N.compare_gt_iff in C. auto.
    + intros (_ & s & E & C & H). injection E as <-. split; [reflexivity|]. split; [apply N.compare_gt_iff; exact C|exact H].
Qed.

Lemma led_get_safe w s : led_get w s <> UB.
Proof. unfold led_get. destruct (decode_cases (sled_get w s)) as [[x ->]| ->]; discriminate. Qed.
Lemma add_safe w a s : snd (led_add w a s) <> UB.
Proof. apply LiveProps.led_tx_safe. unfold led_get. destruct (decode_cases (sled_get w s)) as [[x ->]| ->]; [|discriminate]. cbn [bind]. unfold u256_add. destruct (_ <? _); discriminate. Qed.
Lemma sub_safe w a s : snd (led_sub w a s) <> UB.
Proof.
  apply LiveProps.led_tx_safe. unfold led_get. destruct (decode_cases (sled_get w s)) as [[x ->]| ->]; [|discriminate]. cbn [bind]. destruct (_ <? _); [discriminate|].
  unfold u256_sub. destruct (_ <=? _); discriminate.
Qed.
Lemma send_safe x y a s : snd (led_send x y a s) <> UB.
Proof.
  apply LiveProps.led_tx_safe. unfold led_get. destruct (decode_cases (sled_get x s)) as [[u ->]| ->]; [|discriminate]. cbn [bind].
  destruct (decode_cases (sled_get y s)) as [[v ->]| ->]; [|discriminate]. cbn [bind].
  destruct (_ <? _); [discriminate|]. unfold u256_sub. destruct (_ <=? _); [|discriminate]. cbn [bind].
  unfold u256_add. destruct (_ <? _); discriminate.
Qed.
Lemma work_eq h d txs pow : is_array 32 d -> check_pow h d txs pow = Ok (enough_work h d (root_of txs) pow).
Proof. intros [_ H]. rewrite check_pow_eq, root_of_mroot. unfold enough_work. rewrite !clz_spec; [reflexivity|apply sha256_array|exact H]. Qed.
Lemma mc_add_safe b m : snd (mc_add_block b m) <> UB.
Proof. unfold mc_add_block. destruct (negb _); [discriminate|]. unfold u256_add. destruct (_ <? _); discriminate. Qed.
Lemma dc_add_safe i c : snd (dc_add_block i c) <> UB.
Proof. unfold dc_add_block. destruct (negb _); [discriminate|]. unfold u256_add. destruct (_ <? _); discriminate. Qed.

Lemma emit_main_ub p t pow founder txs ts : any_tree t ->
  (snd (t_emmit_new_main_block p pow founder txs ts t) = UB <-> p = Release /\ leaves_array t (OEmitMain pow founder txs ts)).
Proof.
  intros (H1 & _). unfold leaves_array. pose proof (last_safe _ H1) as Hl. unfold t_emmit_new_main_block.
  destruct (mc_get_last_block (t_main t)) as [[b|]|e| |]; cbn [bind unwrap_opt snd safe_lookup] in *; try (split; [discriminate|intros (_ & x & E & _); discriminate]); [|contradiction].
  destruct Hl as [Hw Hk]. pose proof (block_info_wf _ Hw) as (Hts & _ & _ & _ & Hd & _).
  rewrite work_eq by exact Hd. cbn [bind]. destruct (enough_work (block_hash b) (bi_difficulty (get_info b)) (root_of txs) pow) eqn:W; cbn [negb bind].
  2:{ split; [discriminate|]. intros (_ & x & E & E' & _). injection E as <-. congruence. }
  pose proof (recalc_ub p (bi_timestamp (get_info b)) ts _ Hd Hts) as R.
  destruct (recalculate_difficulty p (bi_timestamp (get_info b)) ts (bi_difficulty (get_info b))) as [d|e| |] eqn:Ed; cbn [bind snd].
  4:{ split; [|reflexivity]. intros _. destruct (proj1 R eq_refl) as [-> D]. split; [reflexivity|]. exists b. auto. }
  2,3: split; [discriminate|]; intros (P & x & E & _ & D); injection E as <-; discriminate (proj2 R (conj P D)).
  assert (N : forall X, X <> UB -> (X = @UB block <-> p = Release /\ exists b0, Ok (Some b) = Ok (Some b0) /\
     enough_work (block_hash b0) (bi_difficulty (get_info b0)) (root_of txs) pow = true /\ doubles_too_far b0 ts)).
  { intros X HX. split; [contradiction|]. intros (P & x & E & _ & D). injection E as <-. discriminate (proj2 R (conj P D)). }
  apply N. clear N R. pose proof (recalc_wf _ _ _ _ _ Hd Ed) as [Hdl' _].
  destruct (fee_eq d) as [-> _]; [lia|]. cbn [bind]. unfold u256_add at 1. destruct (_ <? _); [|discriminate]. cbn [bind bi_height].
  destruct (_ mod _ =? 0); destruct txs as [|x txs]; try discriminate.
  - rewrite summarize_ok. set (rt := mroot _).
    change (t_set_amount ROOT_PUBLIC_ADDRESS COINS_PER_CYCLE (t_rotate_dbs t)) with (rotated t, @Ok unit tt).
    cbv beta zeta iota. match goal with |- context [mc_add_block ?B ?M] => pose proof (mc_add_safe B M) as S; destruct (mc_add_block B M) as [m [u|e| |]] end; try discriminate. contradiction.
  - pose proof (mroot_ok (x :: txs)) as Hrt. rewrite Hrt.
    match goal with |- context [mc_add_block ?B ?M] => pose proof (mc_add_safe B M) as S; destruct (mc_add_block B M) as [m [u|e| |]] end; try discriminate. contradiction.
Qed.

Lemma dc_new_safe k g : dc_new k g <> UB.
Proof.
  unfold dc_new. destruct (file_cur (dd_cfg k)) as [c|]; [|discriminate]. rewrite read3. destruct (Nat.ltb _ _); [discriminate|]. discriminate.
Qed.
Lemma dc_new_blocks k g c : dc_new k g = Ok c -> dc_blocks c = dd_blocks k.
Proof. unfold dc_new. intros H. apply bind_ok in H as ([[h df] g'] & _ & H). injection H as <-. reflexivity. Qed.
Lemma get_deriv_any w t : any_tree t -> any_tree (fst (t_get_derivative_chain w t)) /\ t_main (fst (t_get_derivative_chain w t)) = t_main t /\
  match snd (t_get_derivative_chain w t) with Ok c => byte_values (dc_blocks c) | UB => False | _ => True end.
Proof.
  intros A. pose proof A as (H1 & H2 & H3 & H4). unfold t_get_derivative_chain. destruct (assoc_get w (t_derivs t)) as [c|] eqn:E.
  { cbn [fst snd]. split; [exact A|]. split; [reflexivity|]. eapply H3, assoc_get_in, E. }
  pose proof (last_safe _ H1) as Hl. destruct (mc_get_last_block (t_main t)) as [[b|]|e| |]; cbn [bind unwrap_opt safe_lookup] in *; try (cbn [fst snd]; auto); try contradiction.
  set (k := match assoc_get (hex_encode w) (t_closed t) with Some k => k | None => deriv_disk_empty end).
  assert (Hk : byte_values (dd_blocks k)).
  { unfold k. destruct (assoc_get (hex_encode w) (t_closed t)) as [k'|] eqn:Ek; [eapply H4, assoc_get_in, Ek|]. intros x v Hx. discriminate. }
  pose proof (dc_new_safe k (block_hash b)) as Sf. pose proof (dc_new_blocks k (block_hash b)) as Sb.
  destruct (dc_new k (block_hash b)) as [c|e| |]; cbn [fst snd with_derivs t_main]; auto. specialize (Sb c eq_refl). rewrite Sb.
  split; [|auto]. split; [exact H1|]. split; [exact H2|]. split; [|exact H4]. intros w' c' Hi. cbn [t_derivs] in Hi.
  apply assoc_set_in in Hi as [Hi|Hi]; [|eapply H3, Hi]. apply pair_inv in Hi as [_ ->]. rewrite Sb. exact Hk.
Qed.

Lemma begin_no_255 : hd_error BEGINNING_DIFFICULTY <> Some 255. Proof. discriminate. Qed.
Lemma emit_deriv_ub p t pow founder ts : any_tree t ->
  (snd (t_emmit_new_derivative_block p pow founder ts t) = UB <-> p = Release /\ leaves_array t (OEmitDeriv pow founder ts)).
Proof.
  intros A. destruct (get_deriv_any founder t A) as ((H1 & _) & _ & Hg). unfold leaves_array, t_emmit_new_derivative_block.
  destruct (t_get_derivative_chain founder t) as [t1 [c|e| |]]; cbn [fst snd] in *; try (split; [discriminate|intros (_ & x & y & E & _); discriminate]); [|contradiction].
  assert (Hend : forall h d a height, is_array 32 d -> u64_ok a ->
    (snd (match (let! ok := check_pow h d [] pow in
        if negb ok then Err ETreeWrongPow
        else let! d := recalculate_difficulty p a ts d in Ok (MkInfo ts pow h height d founder)) with
      | Ok info => let '(dc', ra) := dc_add_block info c in
          (with_derivs t1 (assoc_set founder dc' (t_derivs t1)),
           match ra with Ok _ => Ok (DerivBlock info) | Err e => Err e | Panic => Panic | UB => UB end)
      | Err e => (t1, Err e) | Panic => (t1, Panic) | UB => (t1, UB)
      end) = UB <-> p = Release /\ enough_work h d (root_of []) pow = true /\ exists s, seconds Release a ts = Some s /\ 600 < s /\ hd_error d = Some 255)).
  { intros h d a height Hd Ha. rewrite work_eq by exact Hd. cbn [bind]. destruct (enough_work h d (root_of []) pow); cbn [negb bind].
    2:{ split; [discriminate|]. intros (_ & E & _). discriminate. }
    pose proof (recalc_ub p a ts _ Hd Ha) as R.
    destruct (recalculate_difficulty p a ts d) as [d'|e| |] eqn:Ed; cbn [bind snd].
    4:{ split; [|reflexivity]. intros _. destruct (proj1 R eq_refl) as [-> D]. auto. }
    2,3: split; [discriminate|]; intros (P & _ & D); discriminate (proj2 R (conj P D)).
    split; [|intros (P & _ & D); discriminate (proj2 R (conj P D))].
    match goal with |- context [dc_add_block ?B ?M] => pose proof (dc_add_safe B M) as S; destruct (dc_add_block B M) as [m [u|e| |]] end; cbn [snd] in *; try discriminate. contradiction. }
  pose proof (dlast_safe _ Hg) as Hl.
  destruct (dc_get_last_block c) as [[b|]|e| |] eqn:El; cbn [bind snd safe_lookup] in *;
    try (split; [discriminate|intros (_ & x & y & E & E' & _); injection E as <-; congruence]); [| |contradiction].
  - destruct Hl as (i & -> & Hts & _ & _ & _ & Hd & _). cbn [get_info]. unfold u256_add. destruct (N.ltb_spec (bi_height i + 1) (2 ^ 256)) as [L|L]; cbn [bind snd].
    + rewrite Hend by assumption. split.
      * intros (P & W & D). split; [exact P|]. exists c, (DerivBlock i). auto 6.
      * intros (P & x & y & E & E' & _ & W & D). injection E as <-. rewrite El in E'. injection E' as <-. auto.
    + split; [discriminate|]. intros (_ & x & y & E & E' & L' & _). injection E as <-. rewrite El in E'. injection E' as <-. cbn [get_info] in L'. lia.
  - assert (No : ~ (p = Release /\ exists c0 b, @Ok deriv_chain c = Ok c0 /\ dc_get_last_block c0 = Ok (Some b) /\ bi_height (get_info b) + 1 < 2 ^ 256 /\
        enough_work (block_hash b) (bi_difficulty (get_info b)) (root_of []) pow = true /\ doubles_too_far b ts)).
    { intros (_ & x & y & E & E' & _). injection E as <-. congruence. }
    split; [|intros H; destruct (No H)]. intros H. exfalso. revert H.
    unfold mc_find_by_hash, mc_find_raw_by_hash. destruct (sled_get (dc_genesis c) _) as [hb|]; [|discriminate]. destruct (Nat.ltb _ _); [discriminate|]. cbn [bind].
    pose proof (decode_safe _ (raw_height (from_be hb) _ H1)) as Hf. destruct (mc_decode _) as [[b|]|e| |]; cbn [bind safe_lookup] in *; try discriminate; [|contradiction].
    destruct Hf as [Hw _]. pose proof (block_info_wf _ Hw) as (Hts & _).
    rewrite Hend; [|split; [reflexivity|vm_compute; repeat constructor]|exact Hts]. intros (_ & _ & s & _ & _ & B). discriminate B.
Qed.

Lemma send_tx_any tx t : any_tree t -> snd (t_send_transaction tx t) <> UB.
Proof.
  intros (H1 & _). unfold t_send_transaction, t_get_gas, t_get_amount, led_get.
  destruct (decode_cases (sled_get (tx_sender tx) (t_gas t))) as [[x ->]| ->]; [|discriminate]. cbn [bind].
  destruct (decode_cases (sled_get (tx_sender tx) (t_summary t))) as [[y ->]| ->]; [|discriminate]. cbn [bind].
  unfold u256_mul at 1. destruct (_ <? _); cbn [bind]; [|discriminate]. destruct (_ <? _); [discriminate|].
  pose proof (last_safe _ H1) as Hl. destruct (mc_get_last_block (t_main t)) as [[b|]|e| |]; cbn [bind unwrap_opt safe_lookup] in *; try discriminate; [|contradiction].
  unfold recalculate_fee, u256_mul. destruct (_ <? _); cbn [bind]; [|discriminate].
  unfold u256_add. destruct (_ <? _); cbn [bind]; [|discriminate]. destruct (_ <? _); [discriminate|].
  unfold t_send_amount. set (t1 := with_main t _). destruct (bytes_eqb _ _); [apply LiveProps.on_gas_safe, sub_safe|].
  pose proof (LiveProps.on_summary_safe (led_send (tx_sender tx) (tx_receiver tx) (tx_amount tx)) t1 (send_safe _ _ _ _)) as S.
  destruct (t_on_summary (led_send (tx_sender tx) (tx_receiver tx) (tx_amount tx)) t1) as [t2 [u|e| |]]; cbn [fst snd] in *; try discriminate; [|contradiction].
  apply LiveProps.on_gas_safe, sub_safe.
Qed.

(*@T C126: the calls that lead to undefined behaviour, whatever the databases hold: exactly the emissions, in a release build, after a block whose difficulty starts with the byte 255, with
    enough work and more than 600 seconds later (or seemingly so). *)
Lemma p_C126_undefined_exactly : forall p t o, any_tree t -> (snd (step p t o) = UB <-> p = Release /\ leaves_array t o).
Proof.
  intros p t o A.
  assert (Unit : forall x : bct * out unit, snd x <> UB -> (snd (ret_unit x) = UB <-> p = Release /\ False)).
  { intros x H. split; [intros E; destruct (LiveProps.ret_unit_safe x H E)|tauto]. }
  assert (Blk : forall x : bct * out block, snd (ret_block x) = UB <-> snd x = UB).
  { intros [t' [b|e| |]]; cbn; split; congruence. }
  destruct o; cbn [step leaves_array].
  - apply Unit, LiveProps.on_summary_safe, add_safe.
  - apply Unit, LiveProps.on_summary_safe. discriminate.
  - apply Unit, LiveProps.on_summary_safe, sub_safe.
  - apply Unit. unfold t_send_amount. destruct (bytes_eqb _ _); [discriminate|]. apply LiveProps.on_summary_safe, send_safe.
  - apply Unit, LiveProps.on_gas_safe, add_safe.
  - apply Unit, LiveProps.on_gas_safe, sub_safe.
  - apply Unit, LiveProps.on_gas_safe, send_safe.
  - apply Unit, send_tx_any, A.
  - rewrite Blk. apply (emit_main_ub p t pow founder txs ts A).
  - rewrite Blk. apply (emit_deriv_ub p t pow founder ts A).
  - destruct (get_deriv_any owner t A) as (_ & _ & Hg). destruct (t_get_derivative_chain owner t) as [t1 [c|e| |]]; cbn [fst snd bind] in *; try (split; [discriminate|tauto]). contradiction.
  - apply Unit. unfold t_add_new_block. pose proof (mc_add_safe b (t_main t)) as S. destruct (mc_add_block b (t_main t)) as [m [u|e| |]]; try discriminate. contradiction.
  - split; [discriminate|tauto].
  - destruct (assoc_get owner (t_derivs t)) as [c|]; [|split; [discriminate|tauto]]. pose proof (dc_add_safe i c) as S. destruct (dc_add_block i c) as [m [u|e| |]]; cbn [snd bind] in *; try (split; [discriminate|tauto]). contradiction.
  - split; [discriminate|tauto].
  - split; [discriminate|tauto].
  - destruct (assoc_get owner (t_derivs t)); split; (discriminate || tauto).
Qed.

(*@E
Example C126_ex_undefined :
  let b := SummBlock (MkInfo 1000 (repeat 0 32) (repeat 0 32) 1 (255 :: repeat 0 31) addrA) (repeat 0 32) in
  let t := MkTree0 (MkMain (sled_insert (to_be 32 1) (block_dump b) sled_empty) sled_empty sled_empty 2 (repeat 0 32) file_absent) [] sled_empty sled_empty sled_empty sled_empty [] in
  snd (step Release t (OEmitMain (repeat 0 32) addrA [] 1601)) = UB /\
  snd (step Release t (OEmitMain (repeat 0 32) addrA [] 999)) = UB /\
  snd (step Debug t (OEmitMain (repeat 0 32) addrA [] 1601)) = Panic /\
  snd (step Release t (OEmitMain (repeat 0 32) addrA [] 1600)) = Err ETreeCreateMainChainBlock /\
  leaves_array t (OEmitMain (repeat 0 32) addrA [] 1601).
Proof.
  cbv zeta. split; [vm_compute; reflexivity|]. split; [vm_compute; reflexivity|]. split; [vm_compute; reflexivity|]. split; [vm_compute; reflexivity|].
  eexists. split; [vm_compute; reflexivity|]. split; [vm_compute; reflexivity|]. exists 601. repeat split; reflexivity.
Qed.
@*)

(** *** Histories *)
Lemma values_insert k v s : byte_values s -> bytes_ok v -> byte_values (sled_insert k v s).
Proof. intros H Hv x y. rewrite sled_get_insert. destruct (bytes_eqb x k); [intros E; injection E as <-; exact Hv|apply H]. Qed.
Lemma tx_dump_bytes x : tx_wf x -> bytes_ok (tx_dump x).
Proof.
  intros ((_ & H1) & (_ & H2) & H3 & (_ & H4) & H5 & H6). rewrite tx_dump_eq. constructor; [reflexivity|]. rewrite !bytes_ok_app.
  repeat apply conj; auto using to_be_ok, enc_ok. destruct (tx_data x) as [d|]; [exact H6|constructor].
Qed.
Lemma hash_array b : is_array 32 (block_hash b). Proof. apply sha256_array. Qed.
Lemma any_same t t' : any_tree t -> t_main t' = t_main t -> t_derivs t' = t_derivs t -> t_closed t' = t_closed t -> any_tree t'.
Proof. intros H E1 E2 E3. unfold any_tree. rewrite E1, E2, E3. exact H. Qed.
Lemma any_main t m : any_tree t -> byte_values (mc_blocks m) -> byte_values (mc_txs m) -> any_tree (with_main t m).
Proof. intros (_ & _ & H3 & H4) H1 H2. exact (conj H1 (conj H2 (conj H3 H4))). Qed.
Lemma any_derivs t w c : any_tree t -> byte_values (dc_blocks c) -> any_tree (with_derivs t (assoc_set w c (t_derivs t))).
Proof.
  intros (H1 & H2 & H3 & H4) Hc. split; [exact H1|]. split; [exact H2|]. split; [|exact H4]. intros w' c' Hi. cbn [with_derivs t_derivs] in Hi.
  apply assoc_set_in in Hi as [Hi|Hi]; [|eapply H3, Hi]. apply pair_inv in Hi as [_ ->]. exact Hc.
Qed.
Lemma mc_add_any b m : block_wf b -> byte_values (mc_blocks m) -> byte_values (mc_txs m) -> byte_values (mc_blocks (fst (mc_add_block b m))) /\ byte_values (mc_txs (fst (mc_add_block b m))).
Proof.
  intros Hb H1 H2. unfold mc_add_block. destruct (negb _); [auto|]. destruct (u256_add _ _); cbn [fst mc_blocks mc_txs]; (split; [apply values_insert; [exact H1|apply block_dump_ok, Hb]|exact H2]).
Qed.
Lemma dc_add_any i c : info_wf i -> byte_values (dc_blocks c) -> byte_values (dc_blocks (fst (dc_add_block i c))).
Proof.
  intros Hb H1. unfold dc_add_block. destruct (negb _); [auto|]. destruct (u256_add _ _); cbn [fst dc_blocks]; (apply values_insert; [exact H1|apply block_dump_ok, Hb]).
Qed.
Lemma add_txs_any txs m : Forall tx_wf txs -> byte_values (mc_blocks m) -> byte_values (mc_txs m) ->
  byte_values (mc_blocks (mc_add_transactions txs m)) /\ byte_values (mc_txs (mc_add_transactions txs m)).
Proof.
  intros H. revert m. induction H as [|x l Hx Hl IH]; intros m H1 H2; [auto|]. cbn [mc_add_transactions fold_left]. apply IH; [exact H1|].
  apply values_insert; [exact H2|apply tx_dump_bytes, Hx].
Qed.
Lemma on_summary_any f t : any_tree t -> any_tree (fst (ret_unit (t_on_summary f t))).
Proof. intros H. unfold t_on_summary. destruct (f _). exact H. Qed.
Lemma on_gas_any f t : any_tree t -> any_tree (fst (ret_unit (t_on_gas f t))).
Proof. intros H. unfold t_on_gas. destruct (f _). exact H. Qed.
Lemma send_tx_keeps tx t : tx_wf tx -> any_tree t -> any_tree (fst (t_send_transaction tx t)).
Proof.
  intros Hx A. unfold t_send_transaction. destruct (let! g := _ in _) as [g|e| |]; try exact A.
  set (t1 := with_main t _). assert (A1 : any_tree t1).
  { apply any_main; [exact A|apply A|]. apply values_insert; [apply A|apply tx_dump_bytes, Hx]. }
  assert (A2 : any_tree (fst (t_send_amount (tx_sender tx) (tx_receiver tx) (tx_amount tx) t1))).
  { unfold t_send_amount. destruct (bytes_eqb _ _); [exact A1|apply (on_summary_any _ _ A1)]. }
  destruct (t_send_amount _ _ _ t1) as [t2 [u|e| |]]; try exact A2. apply (on_gas_any _ _ A2).
Qed.

Lemma emit_main_keeps p t pow founder txs ts : any_tree t -> op_wf (OEmitMain pow founder txs ts) -> any_tree (fst (t_emmit_new_main_block p pow founder txs ts t)).
Proof.
  intros A (Hpow & Hf & Htxs & Hts). pose proof A as (H1 & H2 & _). pose proof (last_safe _ H1) as Hl. unfold t_emmit_new_main_block.
  destruct (mc_get_last_block (t_main t)) as [[b|]|e| |]; cbn [bind unwrap_opt safe_lookup] in *; try exact A.
  destruct Hl as [Hw Hk]. pose proof (block_info_wf _ Hw) as (_ & _ & _ & _ & Hd & _).
  rewrite work_eq by exact Hd. cbn [bind]. destruct (negb _); [exact A|].
  destruct (recalculate_difficulty p (bi_timestamp (get_info b)) ts (bi_difficulty (get_info b))) as [d|e| |] eqn:Ed; cbn [bind]; try exact A.
  pose proof (recalc_wf _ _ _ _ _ Hd Ed) as Hd'. destruct (fee_eq d) as [-> Hfee]; [destruct Hd'; lia|]. cbn [bind]. unfold u256_add at 1.
  destruct (N.ltb_spec (bi_height (get_info b) + 1) (2 ^ 256)) as [L|L]; [|exact A]. cbn [bind bi_height].
  assert (Hi : info_wf (MkInfo ts pow (block_hash b) (bi_height (get_info b) + 1) d founder)).
  { unfold info_wf. cbn. split; [exact Hts|]. split; [exact Hpow|]. split; [apply hash_array|]. split; [exact L|]. auto. }
  destruct (_ mod _ =? 0); destruct txs as [|x txs]; try exact A.
  - rewrite summarize_ok. set (rt := mroot _).
    change (t_set_amount ROOT_PUBLIC_ADDRESS COINS_PER_CYCLE (t_rotate_dbs t)) with (rotated t, @Ok unit tt). cbv beta zeta iota.
    assert (Ar : any_tree (rotated t)) by exact A.
    assert (Hb : block_wf (SummBlock (MkInfo ts pow (block_hash b) (bi_height (get_info b) + 1) d founder) rt)) by (split; [exact Hi|apply mroot_array]).
    pose proof (mc_add_any _ (t_main (rotated t)) Hb (proj1 Ar) (proj1 (proj2 Ar))) as [M1 M2].
    destruct (mc_add_block _ (t_main (rotated t))) as [m r]. apply any_main; assumption.
  - pose proof (mroot_ok (x :: txs)) as Hrt. rewrite Hrt.
    assert (Hb : block_wf (TxBlock (62500 * count_leading_zeros d) (mroot (x :: txs)) (MkInfo ts pow (block_hash b) (bi_height (get_info b) + 1) d founder) (x :: txs))).
    { split; [unfold u256_ok; lia|]. split; [apply mroot_array|]. auto. }
    pose proof (mc_add_any _ (t_main t) Hb H1 H2) as [M1 M2]. destruct (mc_add_block _ (t_main t)) as [m r]. apply any_main; assumption.
Qed.
Lemma emit_deriv_keeps p t pow founder ts : any_tree t -> op_wf (OEmitDeriv pow founder ts) -> any_tree (fst (t_emmit_new_derivative_block p pow founder ts t)).
Proof.
  intros A (Hpow & Hf & Hts). destruct (get_deriv_any founder t A) as (A1 & _ & Hg). unfold t_emmit_new_derivative_block.
  destruct (t_get_derivative_chain founder t) as [t1 [c|e| |]]; cbn [fst snd] in *; try exact A1.
  assert (Hend : forall h d a height, is_array 32 h -> is_array 32 d -> u256_ok height ->
    any_tree (fst (match (let! ok := check_pow h d [] pow in
        if negb ok then Err ETreeWrongPow
        else let! d := recalculate_difficulty p a ts d in Ok (MkInfo ts pow h height d founder)) with
      | Ok info => let '(dc', ra) := dc_add_block info c in
          (with_derivs t1 (assoc_set founder dc' (t_derivs t1)),
           match ra with Ok _ => Ok (DerivBlock info) | Err e => Err e | Panic => Panic | UB => UB end)
      | Err e => (t1, Err e) | Panic => (t1, Panic) | UB => (t1, UB)
      end))).
  { intros h d a height Hh Hd Hht. rewrite work_eq by exact Hd. cbn [bind]. destruct (negb _); [exact A1|].
    destruct (recalculate_difficulty p a ts d) as [d'|e| |] eqn:Ed; cbn [bind]; try exact A1. pose proof (recalc_wf _ _ _ _ _ Hd Ed) as Hd'.
    assert (Hi : info_wf (MkInfo ts pow h height d' founder)) by (unfold info_wf; cbn; auto 6).
    pose proof (dc_add_any _ c Hi Hg) as X. destruct (dc_add_block _ c) as [c' ra]. cbn [fst] in *. apply any_derivs; assumption. }
  pose proof (dlast_safe _ Hg) as Hl.
  destruct (dc_get_last_block c) as [[b|]|e| |]; cbn [bind fst safe_lookup] in *; try exact A1.
  - destruct Hl as (i & -> & _ & _ & _ & _ & Hd & _). cbn [get_info]. unfold u256_add. destruct (N.ltb_spec (bi_height i + 1) (2 ^ 256)) as [L|L]; cbn [bind]; [|exact A1].
    apply Hend; [apply hash_array|exact Hd|exact L].
  - destruct (mc_find_by_hash (dc_genesis c) (t_main t1)) as [[b|]|e| |]; cbn [bind]; try exact A1.
    apply Hend; [apply hash_array|split; [reflexivity|vm_compute; repeat constructor]|reflexivity].
Qed.
Lemma step_any p t o : any_tree t -> op_wf o -> any_tree (fst (step p t o)).
Proof.
  intros A Hw. pose proof A as (H1 & H2 & H3 & H4). destruct o; cbn [step op_wf] in *.
  - apply on_summary_any, A.
  - apply on_summary_any, A.
  - apply on_summary_any, A.
  - unfold t_send_amount. destruct (bytes_eqb _ _); [exact A|apply on_summary_any, A].
  - apply on_gas_any, A.
  - apply on_gas_any, A.
  - apply on_gas_any, A.
  - apply send_tx_keeps; assumption.
  - apply emit_main_keeps; assumption.
  - apply emit_deriv_keeps; assumption.
  - destruct (get_deriv_any owner t A) as (A1 & _). destruct (t_get_derivative_chain owner t) as [t1 r]. exact A1.
  - destruct Hw as [Hb Ht]. unfold t_add_new_block. pose proof (mc_add_any b (t_main t) Hb H1 H2) as [M1 M2].
    destruct (mc_add_block b (t_main t)) as [m [u|e| |]]; cbn [fst] in *; try (apply any_main; assumption).
    destruct (add_txs_any txs m Ht M1 M2). apply any_main; assumption.
  - destruct (add_txs_any txs (t_main t) Hw H1 H2). apply any_main; assumption.
  - destruct (assoc_get owner (t_derivs t)) as [c|] eqn:E; [|exact A]. pose proof (dc_add_any i c (proj2 Hw) (H3 _ _ (assoc_get_in _ _ _ E))) as X.
    destruct (dc_add_block i c) as [c' r]. apply any_derivs; assumption.
  - exact A.
  - apply any_main; assumption.
  - destruct (assoc_get owner (t_derivs t)) as [c|] eqn:E; [|exact A]. apply any_derivs; [exact A|exact (H3 _ _ (assoc_get_in _ _ _ E))].
Qed.
Lemma new_any d t : any_disk d -> t_new d = Ok t -> any_tree t.
Proof.
  intros (H1 & H2 & H3) E. pose proof (p_C126_opening d) as O.
  assert (X : exists h, opened_at h d t).
  { destruct (file_cur (md_cfg (k_main d))) as [c|].
    - destruct (Nat.ltb _ _); [congruence|]. destruct O as (t' & E' & O). rewrite E in E'. injection E' as <-. eauto.
    - destruct O as (t' & E' & O). rewrite E in E'. injection E' as <-. eauto. }
  destruct X as (h & _ & B & _ & T & _ & _ & _ & _ & _ & D & C). unfold any_tree. rewrite T, D, C. split; [|split; [exact H2|split; [intros w c []|exact H3]]].
  intros k v. rewrite B. destruct (_ && _)%bool; [|apply H1]. intros X. assert (Y : forall a b : bytes, Some a = Some b -> a = b) by congruence. apply Y in X. rewrite <- X, first_is_genesis. apply block_dump_ok, genesis_readable.
Qed.

(*@T C126: a node opened on a directory with any contents never runs into undefined behaviour in a debug build, whatever is called afterwards; in a release build it does at exactly the
    calls named above. *)
Lemma p_C126_histories : forall p d t ops o, any_disk d -> t_new d = Ok t -> Forall op_wf ops ->
  (snd (step p (run p t ops) o) = UB <-> p = Release /\ leaves_array (run p t ops) o).
Proof.
  intros p d t ops o Hd E Hops. apply p_C126_undefined_exactly. apply (new_any _ _ Hd) in E. clear Hd. unfold run. revert t E.
  induction Hops as [|x l Hx Hl IH]; intros t A; [exact A|]. cbn [fold_left]. apply IH, step_any; assumption.
Qed.
(*@E
Example C126_ex_histories :
  let b := SummBlock (MkInfo 1000 (repeat 0 32) (repeat 0 32) 1 (255 :: repeat 0 31) addrA) (repeat 0 32) in
  let d := MkDisk (MkMainDisk (sled_insert (to_be 32 1) (block_dump b) sled_empty) sled_empty sled_empty (MkFile (Some (to_be 32 2 ++ repeat 0 32)) [])) sled_empty sled_empty sled_empty sled_empty [] in
  exists t, t_new d = Ok t /\ Forall op_wf [OAddGas addrA 3; OFlush] /\
  snd (step Release (run Release t [OAddGas addrA 3; OFlush]) (OEmitMain (repeat 0 32) addrA [] 1601)) = UB /\
  snd (step Debug (run Debug t [OAddGas addrA 3; OFlush]) (OEmitMain (repeat 0 32) addrA [] 1601)) = Panic.
Proof.
  cbv zeta. eexists. split; [vm_compute; reflexivity|]. split; [|split; vm_compute; reflexivity].
  constructor; [|constructor; [exact Logic.I|constructor]]. split; [|reflexivity]. repeat constructor.
Qed.
@*)
