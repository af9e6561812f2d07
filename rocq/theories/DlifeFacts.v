(** Facts about derivative chains in histories with faults, crashes and failing openings. *)
From Coq Require Import Lia ZifyBool ZifyNat ZifyN.
From Verif Require Import Base Sha256 Merkle Tools Transaction Block Sled Chain Tree Spec Reach QuietSpec Conc ConcTree ConcFlush ConcEmit Cancel ConcDeriv CrashSpec DcrashSpec Io IoSpec LifeSpec DlifeSpec.
From Verif Require Import BaseFacts ToolsFacts MerkleFacts DiffFacts CodecFacts SledFacts ChainFacts TreeFacts LedgerFacts CrashFacts ConcFacts EmitFacts DerivFacts IoFacts IoSure DcrashProps LifeFacts.

Local Strategy 1000 [u256_mul u256_add u256_sub BYTE_GAS_PRICE t_get_amount t_get_gas mc_decode dc_decode recalculate_fee recalculate_difficulty t_send_amount t_sub_gas sled_get check_pow emit_block next_info dc_new mc_read_config genesis_block].

(** ** Calls that leave the derivative chains alone *)
Definition deriv_call (o : op) : bool := match o with OEmitDeriv _ _ _ | OGetDeriv _ | ODerivAddBlock _ _ | ODerivFlush _ => true | _ => false end.
Section Frame.
Variable T : list (bytes * deriv_chain) -> list (bytes * deriv_disk) -> Prop.
Let I (h : host) : Prop := T (t_derivs (h_tree h)) (t_closed (h_tree h)).
Lemma fr_same h t : I h -> t_derivs t = t_derivs (h_tree h) -> t_closed t = t_closed (h_tree h) -> I (with_host h t).
Proof. unfold I. intros H E1 E2. cbn [with_host h_tree]. rewrite E1, E2. exact H. Qed.
Lemma fr_tree {A} (e : out A) f : (forall t, t_derivs (fst (f t)) = t_derivs t /\ t_closed (fst (f t)) = t_closed t) -> stays I (tree_op e f).
Proof. intros H. apply s_op. intros s A1. apply fr_same; [exact A1| |]; apply H. Qed.
Lemma fr_mop e f : stays I (main_op e f). Proof. apply fr_tree. split; reflexivity. Qed.
Lemma fr_write b d : stays I (write_cfg_io b d).
Proof. intros fs s A. unfold write_cfg_io. destruct (next_fault fs); cbn [fst snd]; (apply fr_same; [exact A|reflexivity..]). Qed.
Lemma fr_find e i : stays I (find_raw_io e i). Proof. unfold find_raw_io. stay. Qed.
Lemma fr_last : stays I last_block_io. Proof. unfold last_block_io. stay. apply fr_find. Qed.
Lemma fr_ledger f : (forall t, t_derivs (fst (f t)) = t_derivs t /\ t_closed (fst (f t)) = t_closed t) -> stays I (ledger_io f). Proof. apply fr_tree. Qed.
Lemma fr_send a b x : stays I (send_amount_io a b x).
Proof. unfold send_amount_io. destruct (bytes_eqb a b); [apply s_out|]. apply fr_ledger. intros t. apply on_summary_derivs. Qed.
Lemma fr_tx tx : stays I (add_tx_io tx). Proof. apply fr_mop. Qed.
Lemma fr_txs txs : stays I (add_txs_io txs). Proof. induction txs; cbn [add_txs_io]; stay; apply fr_tx. Qed.
Lemma fr_sendtx tx : stays I (send_tx_io tx).
Proof. unfold send_tx_io, get_gas_io, get_amount_io. stay; first [apply fr_tx|apply fr_last|apply fr_send|apply fr_ledger; intros t; apply on_gas_derivs|apply fr_tree; split; reflexivity]. Qed.
Lemma fr_mflush : stays I main_flush_io. Proof. unfold main_flush_io. stay; first [apply fr_mop|apply fr_write]. Qed.
Lemma fr_flush : stays I flush_io. Proof. unfold flush_io, flush_op. stay; first [apply fr_mflush|apply fr_tree; split; reflexivity]. Qed.
Lemma fr_rotate : stays I rotate_io.
Proof.
  unfold rotate_io, remove_dir_io, create_dir_io. stay; try apply fr_flush; try (apply fr_same; [assumption|reflexivity..]); match goal with |- context [if ?c then _ else _] => destruct c end; assumption.
Qed.
Lemma fr_add b : stays I (add_block_io b).
Proof. unfold add_block_io, main_put. stay; first [apply fr_mop|apply fr_same; [assumption|reflexivity..]]. Qed.
Lemma fr_emit p w f txs ts : stays I (emit_main_io p w f txs ts).
Proof. unfold emit_main_io. stay; first [apply fr_find|apply fr_rotate|apply fr_ledger; intros t; apply on_summary_derivs|apply fr_add]. Qed.
Lemma fr_step p o : deriv_call o = false -> stays I (io_step p o).
Proof.
  intros Ho. destruct o; try discriminate Ho; cbn [io_step]; first [apply w_unit|apply w_block];
    first [apply fr_send|apply fr_sendtx|apply fr_txs|apply fr_flush|apply fr_mflush|apply fr_emit|solve [apply fr_ledger; intros t; first [apply on_summary_derivs|apply on_gas_derivs]]|idtac].
  unfold add_new_block_io. stay; first [apply fr_add|apply fr_txs].
Qed.
End Frame.

(** ** What the calls on derivative chains leave *)
Definition dset (w : bytes) (c : deriv_chain) (h : host) : host := with_host h (with_derivs (h_tree h) (assoc_set w c (t_derivs (h_tree h)))).
Lemma dset_get w c h : assoc_get w (t_derivs (h_tree (dset w c h))) = Some c. Proof. apply IoFacts.assoc_get_set. Qed.
Lemma dset_set w c c' h : dset w c' (dset w c h) = dset w c' h.
Proof. unfold dset. cbn [with_host with_derivs h_tree t_derivs h_old h_old_gas t_main t_summary t_old_summary t_gas t_old_gas t_closed]. rewrite IoFacts.assoc_set_set. reflexivity. Qed.
Lemma dset_same w c h : assoc_get w (t_derivs (h_tree h)) = Some c -> dset w c h = h.
Proof.
  intros E. unfold dset. assert (assoc_set w c (t_derivs (h_tree h)) = t_derivs (h_tree h)) as ->; [|destruct h as [[] ? ?]; reflexivity].
  revert E. generalize (t_derivs (h_tree h)). induction l as [|[k v] l IH]; cbn [assoc_get assoc_set]; [discriminate|]. destruct (bytes_eqb w k) eqn:Ek; [|intros E; rewrite IH by exact E; reflexivity].
  intros E. injection E as ->. apply bytes_eqb_eq in Ek as ->. reflexivity.
Qed.
Lemma set_dset w c f h : assoc_get w (t_derivs (h_tree h)) = Some c -> with_host h (set_deriv w f (h_tree h)) = dset w (f c) h.
Proof. intros E. unfold set_deriv, deriv_of, dset. rewrite E. reflexivity. Qed.
Lemma dop_at w c e f fs h : assoc_get w (t_derivs (h_tree h)) = Some c ->
  deriv_op e w f fs h = (tl fs, match next_fault fs with Fails O => h | _ => dset w (f c) h end, match next_fault fs with Fine => Ok tt | _ => Err e end).
Proof.
  intros E. unfold deriv_op, tree_op, io_op, lift_tree. cbn [fst snd]. rewrite (set_dset w c) by exact E. destruct (next_fault fs) as [|[|k]]; reflexivity.
Qed.
Lemma dwrite_at w c b d fs h : assoc_get w (t_derivs (h_tree h)) = Some c ->
  exists k, write_dcfg_io b w d fs h = (tl fs, dset w (deriv_with_cfg (file_append (firstn k d) (dc_cfg c)) c) h, match next_fault fs with Fine => Ok tt | Fails _ => if b then Err EChainDumpConfig else Ok tt end) /\
    (b = true -> next_fault fs = Fine -> firstn k d = d).
Proof.
  intros E. unfold write_dcfg_io. cbv zeta. destruct (next_fault fs) as [|k].
  - exists (length d). rewrite (set_dset w c _ _ E), firstn_all. auto.
  - exists k. rewrite (set_dset w c _ _ E). split; [reflexivity|]. discriminate.
Qed.

(** Chains an addition can leave. *)
Definition add_ends (c : deriv_chain) (i : basic_info) (c' : deriv_chain) : Prop :=
  c' = c \/ bi_height i = dc_height c /\
  (c' = put_dblock i c \/ c' = put_dref i (put_dblock i c) \/ dc_height c + 1 < 2 ^ 256 /\ c' = put_dheight (dc_height c + 1) (put_dref i (put_dblock i c))).
Lemma dadd_ends w c i fs h : assoc_get w (t_derivs (h_tree h)) = Some c -> exists c', snd (fst (deriv_add_io w i fs h)) = dset w c' h /\ add_ends c i c'.
Proof.
  intros E. unfold deriv_add_io. bo. cbv zeta. unfold deriv_of. rewrite E. destruct (N.eqb_spec (bi_height i) (dc_height c)) as [Eh|Eh]; cbn [negb].
  2:{ exists c. cbn [io_out fst snd]. rewrite dset_same by exact E. split; [reflexivity|left; reflexivity]. }
  rewrite (bind_out _ _ _ _ _ _ _ (dop_at w c EChainAddingBlock (put_dblock i) fs h E)).
  destruct (next_fault fs) as [|[|k]]; cbn [fst snd].
  - set (h1 := dset w (put_dblock i c) h). assert (E1 : assoc_get w (t_derivs (h_tree h1)) = Some (put_dblock i c)) by apply dset_get.
    rewrite (bind_out _ _ _ _ _ _ _ (dop_at w _ EChainAddingBlock (put_dref i) (tl fs) h1 E1)). destruct (next_fault (tl fs)) as [|[|k]]; cbn [fst snd].
    + bo. unfold u256_add. destruct (N.ltb_spec (dc_height c + 1) (2 ^ 256)); cbn [fst snd].
      * unfold deriv_put, io_put. cbn [fst snd]. rewrite (set_dset w (put_dref i (put_dblock i c))) by apply dset_get. unfold h1. rewrite !dset_set. eexists. split; [reflexivity|]. right. auto 6.
      * unfold h1. rewrite dset_set. eexists. split; [reflexivity|]. right. auto.
    + exists (put_dblock i c). split; [reflexivity|]. right. auto.
    + unfold h1. rewrite dset_set. eexists. split; [reflexivity|]. right. auto.
  - exists c. rewrite dset_same by exact E. split; [reflexivity|left; reflexivity].
  - exists (put_dblock i c). split; [reflexivity|]. right. auto.
Qed.

(** Chains a flush can leave: unfinished config; complete one, [last_write] giving what was written of the genesis hash. *)
Definition cfg_part (c : deriv_chain) (f : file) : Prop :=
  let f1 := file_truncate (dc_cfg c) in
  f = dc_cfg c \/ f = f1 \/ (exists k, f = file_append (firstn k (height_key (dc_height c))) f1) \/
  exists k, f = file_append (firstn k (dc_difficulty c)) (file_append (height_key (dc_height c)) f1).
Definition cfg_whole (c : deriv_chain) (f : file) : Prop :=
  exists k, f = file_append (firstn k (dc_genesis c)) (file_append (dc_difficulty c) (file_append (height_key (dc_height c)) (file_truncate (dc_cfg c)))).
Definition flush_ends (c : deriv_chain) (a : fault) (c' : deriv_chain) : Prop :=
  exists f, (cfg_part c f /\ c' = deriv_with_cfg f c) \/
    (cfg_whole c f /\ ((a = Fails 0 /\ c' = deriv_with_cfg f c) \/ c' = dc_flush_blocks (deriv_with_cfg f c) \/ c' = dc_flush_refs (dc_flush_blocks (deriv_with_cfg f c)))).
Lemma with_cfg_same c : deriv_with_cfg (dc_cfg c) c = c. Proof. destruct c; reflexivity. Qed.
Lemma with_cfg_cfg c f f' : deriv_with_cfg f (deriv_with_cfg f' c) = deriv_with_cfg f c. Proof. reflexivity. Qed.
Lemma next_four fs : next_fault (tl (tl (tl (tl fs)))) = nth 4 fs Fine.
Proof. do 5 (destruct fs as [|? fs]; [reflexivity|]). reflexivity. Qed.
Lemma dflush_ends w c fs h : assoc_get w (t_derivs (h_tree h)) = Some c -> exists c', snd (fst (deriv_flush_io w fs h)) = dset w c' h /\ flush_ends c (nth 4 fs Fine) c'.
Proof.
  intros E. unfold deriv_flush_io. bo. cbv zeta. unfold deriv_of. rewrite E.
  set (f1 := file_truncate (dc_cfg c)).
  rewrite (bind_out _ _ _ _ _ _ _ (dop_at w c EChainDumpConfig (fun c => deriv_with_cfg (file_truncate (dc_cfg c)) c) fs h E)).
  assert (P0 : exists c', h = dset w c' h /\ flush_ends c (nth 4 fs Fine) c').
  { exists c. rewrite dset_same by exact E. split; [reflexivity|]. exists (dc_cfg c). left. rewrite with_cfg_same. split; [left; reflexivity|reflexivity]. }
  assert (P1 : forall f, cfg_part c f -> exists c', dset w (deriv_with_cfg f c) h = dset w c' h /\ flush_ends c (nth 4 fs Fine) c').
  { intros f Hf. eexists. split; [reflexivity|]. exists f. left. auto. }
  assert (Q1 : cfg_part c f1) by (right; left; reflexivity). fold f1.
  destruct (next_fault fs) as [|[|k0]]; cbn [fst snd]; [|exact P0|exact (P1 _ Q1)].
  set (h1 := dset w (deriv_with_cfg f1 c) h).
  destruct (dwrite_at w _ true (height_key (dc_height c)) (tl fs) h1 (dset_get _ _ _)) as (k1 & Ew1 & Ek1). rewrite (bind_out _ _ _ _ _ _ _ Ew1). clear Ew1. unfold h1. rewrite !dset_set. cbn [deriv_with_cfg dc_cfg]. fold (deriv_with_cfg f1 c). rewrite with_cfg_cfg.
  destruct (next_fault (tl fs)) as [|a1]; cbn [fst snd]; [|apply P1; right; right; left; eexists; reflexivity].
  rewrite (Ek1 eq_refl eq_refl). clear Ek1. set (f2 := file_append (height_key (dc_height c)) f1). set (h2 := dset w (deriv_with_cfg f2 c) h).
  destruct (dwrite_at w _ true (dc_difficulty c) (tl (tl fs)) h2 (dset_get _ _ _)) as (k2 & Ew1 & Ek1). rewrite (bind_out _ _ _ _ _ _ _ Ew1). clear Ew1. unfold h2. rewrite !dset_set. cbn [deriv_with_cfg dc_cfg]. fold (deriv_with_cfg f2 c). rewrite with_cfg_cfg.
  destruct (next_fault (tl (tl fs))) as [|a2]; cbn [fst snd]; [|apply P1; right; right; right; eexists; reflexivity].
  rewrite (Ek1 eq_refl eq_refl). clear Ek1. set (f3 := file_append (dc_difficulty c) f2). set (h3 := dset w (deriv_with_cfg f3 c) h).
  destruct (dwrite_at w _ false (dc_genesis c) (tl (tl (tl fs))) h3 (dset_get _ _ _)) as (k3 & Ew1 & _). rewrite (bind_out _ _ _ _ _ _ _ Ew1). clear Ew1. unfold h3. rewrite !dset_set. cbn [deriv_with_cfg dc_cfg]. fold (deriv_with_cfg f3 c). rewrite with_cfg_cfg.
  set (f4 := file_append (firstn k3 (dc_genesis c)) f3). assert (Q4 : cfg_whole c f4) by (exists k3; reflexivity).
  set (h4 := dset w (deriv_with_cfg f4 c) h).
  replace (match next_fault (tl (tl (tl fs))) with Fine => Ok tt | Fails _ => Ok tt end) with (Ok tt) by (destruct (next_fault _); reflexivity). cbv iota.
  rewrite (bind_out _ _ _ _ _ _ _ (dop_at w _ EChainDumpConfig dc_flush_blocks (tl (tl (tl (tl fs)))) h4 (dset_get _ _ _))).
  rewrite next_four.
  assert (P5 : forall c', c' = dc_flush_blocks (deriv_with_cfg f4 c) \/ c' = dc_flush_refs (dc_flush_blocks (deriv_with_cfg f4 c)) -> exists c1, dset w c' h = dset w c1 h /\ flush_ends c (nth 4 fs Fine) c1).
  { intros c' Hc'. exists c'. split; [reflexivity|]. exists f4. right. auto. }
  destruct (nth 4 fs Fine) as [|[|k4]] eqn:E4; cbn [fst snd].
  - set (h5 := dset w (dc_flush_blocks (deriv_with_cfg f4 c)) h4). rewrite (dop_at w _ EChainDumpConfig dc_flush_refs _ h5 (dset_get _ _ _)). cbn [fst snd].
    unfold h5, h4. destruct (next_fault _) as [|[|k5]]; rewrite !dset_set; apply P5; auto.
  - exists (deriv_with_cfg f4 c). split; [reflexivity|]. exists f4. right. auto.
  - unfold h4. rewrite !dset_set. apply P5. auto.
Qed.

(** Opening a chain that is not open. *)
Definition lost_config (d : deriv_disk) (g : bytes) : deriv_chain := MkDeriv (dd_blocks d) (dd_refs d) 0 g BEGINNING_DIFFICULTY (dd_cfg d).
Lemma read_at {A} (e : out A) (f : host -> A) fs h : exists r, io_read e f fs h = (tl fs, h, r) /\ (r = Ok (f h) \/ r = e).
Proof. unfold io_read, io_op. destruct (next_fault fs) as [|[|k]]; cbn [fst snd]; eexists; (split; [reflexivity|auto]). Qed.
Lemma last_at fs h : exists fs' r, last_block_io fs h = (fs', h, r) /\ forall b, r = Ok b -> fs' = tl fs.
Proof.
  unfold last_block_io. bo. bo. unfold u256_sub. destruct (N.leb_spec 1 (mc_height (t_main (h_tree h)))); cbn [fst snd]; [|exists fs, Panic; split; [reflexivity|discriminate]].
  assert (Er : exists r, find_raw_io EChainFindByHeight (mc_height (t_main (h_tree h)) - 1) fs h = (tl fs, h, r)).
  { unfold find_raw_io. bo. destruct (N.ltb_spec (mc_height (t_main (h_tree h))) (mc_height (t_main (h_tree h)) - 1)); [lia|].
    match goal with |- context [io_read ?e ?f] => destruct (read_at e f fs h) as (r & E & _) end. exists r. exact E. }
  destruct Er as (r & Er). rewrite (bind_out _ _ _ _ _ _ _ Er). destruct r; eexists; eexists; (split; [reflexivity|reflexivity]).
Qed.
Lemma dnew_at d g fs h : exists fs' r, deriv_new_io d g fs h = (fs', h, r) /\
  forall c, r = Ok c -> dc_new d g = Ok c \/ (nth 2 fs Fine <> Fine /\ c = lost_config d g).
Proof.
  unfold deriv_new_io. match goal with |- context [io_bind (io_read ?e ?f) _ fs h] => destruct (read_at e f fs h) as (r1 & E1 & C1) end. rewrite (bind_out _ _ _ _ _ _ _ E1).
  destruct r1 as [u|e| |]; try (eexists; eexists; split; [reflexivity|discriminate]).
  match goal with |- context [io_bind (io_read ?e ?f) _ ?x h] => destruct (read_at e f x h) as (r2 & E2 & C2) end. rewrite (bind_out _ _ _ _ _ _ _ E2).
  destruct r2 as [u2|e| |]; try (eexists; eexists; split; [reflexivity|discriminate]).
  bo. replace (next_fault (tl (tl fs))) with (nth 2 fs Fine) by (do 3 (destruct fs as [|? fs]; [reflexivity|]); reflexivity).
  destruct (file_cur (dd_cfg d)) as [x|] eqn:Ef.
  - destruct (nth 2 fs Fine) as [|k] eqn:En.
    + match goal with |- context [io_bind (io_read ?e ?f) _ ?x h] => destruct (read_at e f x h) as (r3 & E3 & C3) end. rewrite (bind_out _ _ _ _ _ _ _ E3).
      destruct r3 as [u3|e| |]; try (eexists; eexists; split; [reflexivity|discriminate]). eexists; eexists. split; [reflexivity|]. auto.
    + eexists; eexists. split; [reflexivity|]. intros c Hc. apply ok_inv in Hc. right. split; [discriminate|auto].
  - eexists; eexists. split; [reflexivity|]. intros c Hc. apply ok_inv in Hc. left. rewrite dc_new_absent by exact Ef. subst c. reflexivity.
Qed.
Lemma gderiv_at w fs h : exists fs' r,
  (assoc_get w (t_derivs (h_tree h)) <> None /\ get_deriv_io w fs h = (fs, h, Ok (deriv_of w (h_tree h)))) \/
  assoc_get w (t_derivs (h_tree h)) = None /\
  ((get_deriv_io w fs h = (fs', h, r) /\ forall c, r <> Ok c) \/
   exists c g, get_deriv_io w fs h = (fs', dset w c h, Ok c) /\ is_array 32 g /\
    (dc_new (disk_of w (h_tree h)) g = Ok c \/ (nth 3 fs Fine <> Fine /\ c = lost_config (disk_of w (h_tree h)) g))).
Proof.
  rewrite gderiv_eq. unfold deriv_of. destruct (assoc_get w (t_derivs (h_tree h))) as [c|]; [exists fs, Panic; left; split; [discriminate|reflexivity]|].
  unfold open_it. fold (disk_of w (h_tree h)). destruct (last_at fs h) as (fs1 & r1 & E1 & C1). rewrite (bind_out _ _ _ _ _ _ _ E1).
  destruct r1 as [b|e| |]; try (eexists; eexists; right; split; [reflexivity|]; left; split; [reflexivity|discriminate]). rewrite (C1 b eq_refl) in *. clear E1 C1.
  bo. destruct (unwrap_opt b) as [b'|e| |]; try (eexists; eexists; right; split; [reflexivity|]; left; split; [reflexivity|discriminate]).
  destruct (dnew_at (disk_of w (h_tree h)) (block_hash b') (tl fs) h) as (fs2 & r2 & E2 & C2). rewrite (bind_out _ _ _ _ _ _ _ E2).
  destruct r2 as [c|e| |]; try (eexists; eexists; right; split; [reflexivity|]; left; split; [reflexivity|discriminate]).
  exists fs2, Panic. right. split; [reflexivity|]. right. exists c, (block_hash b'). split; [reflexivity|]. split; [apply sha_ok|].
  destruct (C2 c eq_refl) as [C|[N C]]; [left; exact C|right]. split; [|exact C]. intros X. apply N. destruct fs; [reflexivity|exact X].
Qed.
Lemma dlast_at w fs h c : assoc_get w (t_derivs (h_tree h)) = Some c -> exists fs' r, deriv_last_io w fs h = (fs', h, r) /\
  forall b, r = Ok b -> match b with
    | None => True
    | Some b => dc_height c <> 0 /\ dc_decode (sled_get (height_key (dc_height c - 1)) (dc_blocks c)) = Ok (Some b)
    end.
Proof.
  intros E. unfold deriv_last_io. bo. cbv zeta. unfold deriv_of. rewrite E. destruct (N.eqb_spec (dc_height c) 0) as [E0|E0].
  - eexists; eexists. split; [reflexivity|]. intros b Hb. cbn [dc_decode] in Hb. apply ok_inv in Hb. subst b. exact Logic.I.
  - bo. unfold u256_sub. destruct (N.leb_spec 1 (dc_height c)); [|eexists; eexists; split; [reflexivity|discriminate]].
    destruct (N.ltb_spec (dc_height c) (dc_height c - 1)); [lia|].
    match goal with |- context [io_bind (io_read ?e ?f) _ fs h] => destruct (read_at e f fs h) as (r1 & E1 & C1) end. rewrite (bind_out _ _ _ _ _ _ _ E1).
    destruct C1 as [->| ->]; [|eexists; eexists; split; [reflexivity|discriminate]]. eexists; eexists. split; [reflexivity|]. intros [b|] Hb; [|exact Logic.I]. split; [exact E0|exact Hb].
Qed.
Lemma byhash_at x fs h : exists fs' r, find_by_hash_io x fs h = (fs', h, r).
Proof.
  assert (G : stays (fun s => s = h) (find_by_hash_io x)) by (unfold find_by_hash_io, find_raw_io; stay). specialize (G fs h eq_refl).
  destruct (find_by_hash_io x fs h) as [[fs' s'] r]. cbn [fst snd] in G. subst s'. eexists; eexists; reflexivity.
Qed.
(** The header an emission makes for the chain [c]. *)
Definition made (p : profile) (pow w : bytes) (ts : N) (c : deriv_chain) (i : basic_info) : Prop :=
  (exists b h, dc_height c <> 0 /\ dc_decode (sled_get (height_key (dc_height c - 1)) (dc_blocks c)) = Ok (Some b) /\ u256_add (bi_height (get_info b)) 1 = Ok h /\
     next_info p w pow ts (block_hash b) (bi_difficulty (get_info b)) (bi_timestamp (get_info b)) h = Ok i) \/
  exists b, next_info p w pow ts (block_hash b) BEGINNING_DIFFICULTY (bi_timestamp (get_info b)) 0 = Ok i.
Lemma demit_at p pow w ts fs h : exists h1, h1 = snd (fst (get_deriv_io w fs h)) /\
  (snd (fst (emit_deriv_io p pow w ts fs h)) = h1 \/
   exists c c' i, assoc_get w (t_derivs (h_tree h1)) = Some c /\ made p pow w ts c i /\ add_ends c i c' /\ snd (fst (emit_deriv_io p pow w ts fs h)) = dset w c' h1).
Proof.
  unfold emit_deriv_io. destruct (gderiv_at w fs h) as (fs0 & r0 & G).
  assert (G' : (exists fs1 h1 r, get_deriv_io w fs h = (fs1, h1, r) /\ forall c, r <> Ok c) \/ exists fs1 h1 c, get_deriv_io w fs h = (fs1, h1, Ok c) /\ assoc_get w (t_derivs (h_tree h1)) = Some c).
  { destruct G as [[G1 G2]|[G1 [[G2 G3]|(c & g & G2 & G3)]]].
    - right. do 3 eexists. split; [exact G2|]. unfold deriv_of. destruct (assoc_get w _); congruence.
    - left. eauto 6.
    - right. do 3 eexists. split; [exact G2|]. apply dset_get. }
  destruct G' as [(fs1 & h1 & r & E & N)|(fs1 & h1 & c & E & Ec)]; rewrite (bind_out _ _ _ _ _ _ _ E), E; exists h1; (split; [reflexivity|]).
  { left. destruct r as [c|e| |]; try reflexivity. destruct (N c eq_refl). }
  destruct (dlast_at w fs1 h1 c Ec) as (fs2 & r2 & E2 & C2). rewrite (bind_out _ _ _ _ _ _ _ E2). destruct r2 as [last|e| |]; try (left; reflexivity). specialize (C2 last eq_refl).
  set (info := match last with Some b => _ | None => _ end).
  assert (Ei : exists fs3 r3, info fs2 h1 = (fs3, h1, r3) /\ forall i, r3 = Ok i -> made p pow w ts c i).
  { unfold info. destruct last as [b|].
    - eexists; eexists. split; [reflexivity|]. intros i Hi. destruct (u256_add _ 1) as [h'|e| |] eqn:Eh; try discriminate Hi. cbn [bind] in Hi. left. exists b, h'. destruct C2. auto.
    - destruct (byhash_at (dc_genesis c) fs2 h1) as (fs4 & r4 & E4). rewrite (bind_out _ _ _ _ _ _ _ E4).
      destruct r4 as [[b|]|e| |]; try (eexists; eexists; split; [reflexivity|discriminate]). eexists; eexists. split; [reflexivity|]. intros i Hi. right. exists b. exact Hi. }
  destruct Ei as (fs3 & r3 & E3 & C3). rewrite (bind_out _ _ _ _ _ _ _ E3). destruct r3 as [i|e| |]; try (left; reflexivity). specialize (C3 i eq_refl).
  right. destruct (dadd_ends w c i fs3 h1 Ec) as (c' & E5 & C5). exists c, c', i. split; [exact Ec|]. split; [exact C3|]. split; [exact C5|].
  unfold io_bind. destruct (deriv_add_io w i fs3 h1) as [[fs5 h5] r5]. cbn [fst snd] in E5. subst h5. destruct r5; reflexivity.
Qed.

(** ** Properties of all derivative chains, through a history *)
Definition disk_in (w : bytes) (l : list (bytes * deriv_disk)) : deriv_disk := match assoc_get (hex_encode w) l with Some d => d | None => deriv_disk_empty end.
Section All.
Variables (ok : host -> op -> list fault -> Prop) (p : profile).
Variables (X : nat -> bytes -> deriv_chain -> Prop) (Y : nat -> bytes -> deriv_disk -> Prop).
Hypothesis Xm : forall n w c, X n w c -> X (S n) w c.
Hypothesis Ym : forall n w c, Y n w c -> Y (S n) w c.
Hypothesis Xopen : forall n w d g c, Y n w d -> is_array 33 w -> is_array 32 g -> dc_new d g = Ok c -> X n w c.
Hypothesis Xlost : forall n h o fs w g, ok h o fs -> (o = OGetDeriv w \/ exists pow ts, o = OEmitDeriv pow w ts) -> assoc_get w (t_derivs (h_tree h)) = None -> nth 3 fs Fine <> Fine ->
  Y n w (disk_of w (h_tree h)) -> is_array 32 g -> X n w (lost_config (disk_of w (h_tree h)) g).
Hypothesis Xemit : forall n h pow w ts fs c c' i, ok h (OEmitDeriv pow w ts) fs -> X n w c -> is_array 33 w -> is_array 32 pow -> u64_ok ts -> made p pow w ts c i -> add_ends c i c' -> X (S n) w c'.
Hypothesis Xadd : forall n h w i fs c c', ok h (ODerivAddBlock w i) fs -> X n w c -> is_array 33 w -> info_wf i -> add_ends c i c' -> X (S n) w c'.
Hypothesis Xflush : forall n h w fs c c', ok h (ODerivFlush w) fs -> X n w c -> is_array 33 w -> flush_ends c (nth 4 fs Fine) c' -> X (S n) w c'.
Hypothesis Xclose : forall n w c, X n w c -> Y n w (dc_close c).
Hypothesis Xcrash : forall n w c v, X n w c -> Y n w (dc_crash v c).

Definition all_ds (n : nat) (l : list (bytes * deriv_chain)) (k : list (bytes * deriv_disk)) : Prop :=
  NoDup (map fst l) /\ (forall w c, In (w, c) l -> is_array 33 w /\ X n w c) /\
  forall w, is_array 33 w -> assoc_get w l = None -> Y n w (disk_in w k).
Definition dall (n : nat) (h : host) : Prop := all_ds n (t_derivs (h_tree h)) (t_closed (h_tree h)).
Definition dmach (n : nat) (a : machine) : Prop :=
  match a with Up h => dall n h | Down d => forall w, is_array 33 w -> Y n w (disk_in w (k_derivs d)) end.
Lemma all_mono n l k : all_ds n l k -> all_ds (S n) l k.
Proof. intros (A & B & C). split; [exact A|]. split; [intros w c Hi; destruct (B w c Hi); auto|auto]. Qed.
Lemma all_get n h w c : dall n h -> assoc_get w (t_derivs (h_tree h)) = Some c -> is_array 33 w /\ X n w c.
Proof. intros (_ & B & _) E. apply B, assoc_get_in, E. Qed.
Lemma all_set n h w c : dall n h -> is_array 33 w -> X n w c -> dall n (dset w c h).
Proof.
  intros (A & B & C) Hw Hc. unfold dall, dset. cbn [with_host with_derivs h_tree t_derivs t_closed]. split; [apply assoc_set_nodup, A|]. split.
  - intros w' c' Hi. apply assoc_set_in in Hi as [Hi|Hi]; [|apply B, Hi]. apply pair_inv in Hi as [-> ->]. auto.
  - intros w' Hw' E. apply C; [exact Hw'|]. rewrite DerivFacts.assoc_get_set in E. destruct (bytes_eqb w' w); [discriminate E|exact E].
Qed.
Lemma all_getderiv n h o fs w : dall n h -> ok h o fs -> (o = OGetDeriv w \/ exists pow ts, o = OEmitDeriv pow w ts) -> is_array 33 w -> dall n (snd (fst (get_deriv_io w fs h))).
Proof.
  intros H Hok Ho Hw. destruct (gderiv_at w fs h) as (fs' & r & [[_ E]|[En [[E _]|(c & g & E & Hg & Hc)]]]); rewrite E; cbn [fst snd]; try exact H.
  apply all_set; [exact H|exact Hw|]. assert (Hd : Y n w (disk_of w (h_tree h))) by (apply H; assumption).
  destruct Hc as [Hc|[N ->]]; [eapply Xopen; eassumption|]. eapply Xlost; eassumption.
Qed.
Lemma after_unit (x : io host unit) fs h : snd (fst (io_unit x fs h)) = snd (fst (x fs h)).
Proof. unfold io_unit, io_bind. destruct (x fs h) as [[? ?] []]; reflexivity. Qed.
Lemma after_block (x : io host block) fs h : snd (fst (io_block x fs h)) = snd (fst (x fs h)).
Proof. unfold io_block, io_bind. destruct (x fs h) as [[? ?] []]; reflexivity. Qed.
Lemma all_step n h o fs : dall n h -> op_wf o -> ok h o fs -> dall (S n) (io_after (io_step p o) fs h).
Proof.
  intros H Ho Hok. unfold io_after. destruct (deriv_call o) eqn:Ed.
  - destruct o; try discriminate Ed; cbn [io_step op_wf] in *.
    + rewrite after_block. destruct Ho as (O1 & O2 & O3). destruct (demit_at p pow founder ts fs h) as (h1 & E1 & Hr).
      assert (H1 : dall n h1) by (rewrite E1; eapply all_getderiv; eauto). destruct Hr as [->|(c & c' & i & Ec & Hm & Ha & ->)]; [apply all_mono, H1|].
      apply all_set; [apply all_mono, H1|exact O2|]. destruct (all_get _ _ _ _ H1 Ec) as [_ Hc]. eapply Xemit; eassumption.
    + assert (H1 : dall n (snd (fst (get_deriv_io owner fs h)))) by (eapply all_getderiv; eauto). unfold io_bind. destruct (get_deriv_io owner fs h) as [[fs1 h1] r]. cbn [fst snd] in H1. destruct r; apply all_mono, H1.
    + destruct (assoc_get owner (t_derivs (h_tree h))) as [c|] eqn:Ec; [|apply all_mono, H]. rewrite after_unit. destruct Ho as [O1 O2]. destruct (all_get _ _ _ _ H Ec) as [_ Hc].
      destruct (dadd_ends owner c i fs h Ec) as (c' & -> & Ha). apply all_set; [apply all_mono, H|exact O1|eapply Xadd; eassumption].
    + destruct (assoc_get owner (t_derivs (h_tree h))) as [c|] eqn:Ec; [|apply all_mono, H]. rewrite after_unit. destruct (all_get _ _ _ _ H Ec) as [_ Hc].
      destruct (dflush_ends owner c fs h Ec) as (c' & -> & Ha). apply all_set; [apply all_mono, H|exact Ho|eapply Xflush; eassumption].
  - apply (fr_step (all_ds (S n)) p o Ed fs h), all_mono, H.
Qed.
Lemma all_closed n t (f : bytes -> deriv_chain -> deriv_disk) : all_ds n (t_derivs t) (t_closed t) -> (forall w c, X n w c -> Y n w (f w c)) ->
  forall w, is_array 33 w -> Y n w (disk_in w (close_derivs f t)).
Proof.
  intros (H1 & H2 & H3) Hf w Hw. unfold disk_in, close_derivs. destruct (assoc_get w (t_derivs t)) as [c|] eqn:Ew.
  - apply assoc_get_in in Ew. rewrite (close_derivs_open f w c) by (try assumption; intros w' c' Hi; apply (H2 w' c' Hi)). apply Hf, (H2 _ _ Ew).
  - destruct (close_derivs_get f (hex_encode w) (t_derivs t) (t_closed t)) as [A|(w' & c & Hi & Hk & A)]; rewrite A.
    + apply H3; assumption.
    + destruct (H2 _ _ Hi) as (Hw' & HB). apply hex_encode_inj in Hk; [|apply Hw'|apply Hw]. subst w'. apply Hf, HB.
Qed.
Lemma new_derivs_same fs d : config_opens fs -> k_derivs (io_after t_new_io fs d) = k_derivs d.
Proof.
  intros Hc. destruct (new_after fs d Hc) as [->|(fs' & ->)]; [reflexivity|]. unfold io_after.
  assert (G : stays (fun x => k_derivs x = k_derivs d) new_rest) by (unfold new_rest, disk_op; stay; assumption). exact (G fs' d eq_refl).
Qed.
Lemma all_life a m n b : life ok p a n b -> dmach m a -> dmach (m + n) b.
Proof.
  intros L A. induction L as [|n h o fs L IH Ho Hok|n h L IH|n h s L IH|n d fs t L IH Hc E|n d fs L IH Hc E|n d fs s L IH Hc]; cbn [dmach] in *.
  - rewrite Nat.add_0_r. exact A.
  - rewrite Nat.add_succ_r. apply all_step; assumption.
  - apply (all_closed (m + n) (h_tree h) (fun _ => dc_close) IH). intros w c. apply Xclose.
  - apply (all_closed (m + n) (h_tree h) (fun o c => dc_crash (sv_deriv s o) c) IH). intros w c. apply Xcrash.
  - destruct (t_new_closed _ _ (new_ok _ _ _ Hc E)) as [E1 E2]. unfold dall. cbn [opened h_tree]. rewrite E1, E2. split; [constructor|]. split; [intros w c []|]. intros w Hw _. apply IH, Hw.
  - intros w Hw. cbn [disk_settle k_derivs]. rewrite (new_derivs_same fs d Hc). apply IH, Hw.
  - intros w Hw. cbn [disk_crash k_derivs]. rewrite (new_derivs_same fs d Hc). apply IH, Hw.
Qed.
End All.
