(** Facts about emission next to chain handles. *)
From Coq Require Import Lia ZifyBool ZifyNat ZifyN.
From Verif Require Import Base Sha256 Merkle Tools Transaction Block Sled Chain Tree Spec Reach ConcSpec Conc ConcTree ConcFlush ConcEmit EmitSpec.
From Verif Require Import BaseFacts ToolsFacts MerkleFacts DiffFacts CodecFacts SledFacts ChainFacts TreeFacts ConcFacts FlushProps.

Local Strategy 1000 [u256_mul u256_add u256_sub BYTE_GAS_PRICE t_get_amount t_get_gas mc_decode recalculate_fee recalculate_difficulty t_send_amount t_sub_gas lcall_run sled_get check_pow].

(** ** The sequential emission in terms of [emit_block] *)
Lemma emit_block_seq p w f txs ts t : t_emmit_new_main_block p w f txs ts t =
  match (let! i := u256_sub (mc_height (t_main t)) 1 in emit_block p w f txs ts (mc_find_raw_by_height i (t_main t)) t) with
  | Ok b => let '(m, r) := mc_add_block b (t_main (emit_base b t)) in (with_main (emit_base b t) m, let! _ := r in Ok b)
  | Err e => (t, Err e) | Panic => (t, Panic) | UB => (t, UB)
  end.
Proof.
  unfold t_emmit_new_main_block, mc_get_last_block, mc_get_last_raw_block, emit_block.
  destruct (u256_sub (mc_height (t_main t)) 1) as [i|e| |]; cbn [bind]; try reflexivity.
  destruct (mc_decode _) as [last|e| |]; cbn [bind]; try reflexivity.
  destruct (unwrap_opt last) as [lb|e| |]; cbn [bind]; try reflexivity.
  destruct (check_pow _ _ _ _) as [[|]|e| |]; cbn [bind negb]; try reflexivity.
  destruct (recalculate_difficulty _ _ _ _) as [d|e| |]; cbn [bind]; try reflexivity.
  destruct (recalculate_fee d) as [fee|e| |]; cbn [bind]; try reflexivity.
  destruct (u256_add _ _) as [h|e| |]; cbn [bind bi_height]; try reflexivity.
  destruct (h mod BLOCKS_PER_EPOCH =? 0).
  - destruct txs; [|reflexivity]. destruct (t_summarize t) as [root|e| |]; cbn [bind]; try reflexivity.
  - destruct txs as [|x l]; [reflexivity|]. destruct (build_tree (x :: l)) as [tr|e| |]; cbn [bind]; try reflexivity.
    destruct (get_root tr) as [root|e| |]; cbn [bind]; try reflexivity.
Qed.

Lemma emit_block_spec p w f txs ts d t b i : emit_block p w f txs ts d t = Ok b ->
  (forall lb, mc_decode d = Ok (Some lb) -> block_wf lb /\ bi_height (get_info lb) = i) ->
  is_array 32 w -> is_array 33 f -> Forall (is_array 32) txs -> u64_ok ts ->
  block_wf b /\ bi_height (get_info b) = i + 1 /\ i + 1 < 2 ^ 256 /\
  (exists lb, mc_decode d = Ok (Some lb) /\ main_link p lb b) /\
  match b with SummBlock _ _ => txs = [] | TxBlock _ _ _ l => l = txs /\ txs <> [] | DerivBlock _ => False end.
Proof.
  intros E Hd Hw Hf Ht Hts. unfold emit_block in E. destruct (mc_decode d) as [[lb|]|e| |]; try discriminate E. cbn [bind unwrap_opt] in E.
  destruct (Hd lb eq_refl) as [Hwf Hi]. pose proof (block_info_wf _ Hwf) as (_ & _ & _ & _ & [Hdl Hdo] & _).
  rewrite check_pow_eq in E. cbn [bind] in E.
  destruct (N.leb_spec (count_leading_zeros (bi_difficulty (get_info lb)))
    (count_leading_zeros (sha256 (block_hash lb ++ mroot txs ++ w)))) as [Hk|Hk]; cbn [negb] in E; [|discriminate E].
  rewrite !clz_spec in Hk by (try exact Hdo; apply sha256_array).
  destruct (recalculate_difficulty p (bi_timestamp (get_info lb)) ts (bi_difficulty (get_info lb))) as [dd|e| |] eqn:Ed; try discriminate E. cbn [bind] in E.
  pose proof (recalc_wf _ _ _ _ _ (conj Hdl Hdo) Ed) as [Hl' Hok'].
  destruct (fee_eq dd) as [Hfe _]; [lia|]. rewrite Hfe in E. cbn [bind] in E.
  revert E. unfold u256_add at 1. destruct (N.ltb_spec (bi_height (get_info lb) + 1) (2 ^ 256)) as [Hlt|]; cbn [bind]; [|discriminate]. intros E.
  set (info := MkInfo ts w (block_hash lb) (bi_height (get_info lb) + 1) dd f) in *.
  assert (HW : forall b', main_link p lb b' -> get_info b' = info -> match b' with TxBlock _ _ _ l => l = txs | SummBlock _ root => is_array 32 root | DerivBlock _ => False end -> block_wf b').
  { intros b' Hl Hg Hm. apply (main_link_wf p lb b' w f txs ts); try assumption; rewrite Hg; reflexivity. }
  destruct (N.eqb_spec ((bi_height (get_info lb) + 1) mod BLOCKS_PER_EPOCH) 0) as [Hm|Hm].
  - destruct txs as [|x txs]; [|discriminate E]. rewrite summarize_ok in E. cbn [bind] in E. apply ok_inv in E. subst b.
    assert (Hlink : main_link p lb (SummBlock info (mroot (map (fun e => sha256 (summary_entry (t_gas t) e)) (sled_iter (t_summary t)))))).
    { split; [exact Hm|]. split; [reflexivity|]. split; [reflexivity|]. split; [exact Ed|].
      unfold work. cbn [get_info bi_pow info]. rewrite mroot_nil in Hk. exact Hk. }
    split; [apply HW; [exact Hlink|reflexivity|apply mroot_array]|]. split; [cbn [get_info info bi_height]; rewrite Hi; reflexivity|]. split; [rewrite <- Hi; exact Hlt|]. split; [eauto|reflexivity].
  - destruct txs as [|x txs]; [discriminate E|]. pose proof (mroot_ok (x :: txs)) as Hr.
    destruct (build_tree (x :: txs)) as [tr|e| |]; try discriminate Hr. cbn [bind] in Hr, E. rewrite Hr in E. cbn [bind] in E. apply ok_inv in E. subst b.
    assert (Hlink : main_link p lb (TxBlock (62500 * count_leading_zeros dd) (mroot (x :: txs)) info (x :: txs))).
    { split; [apply mroot_spec|]. split; [discriminate|]. split; [rewrite clz_spec by exact Hok'; reflexivity|].
      split; [exact Hm|]. split; [reflexivity|]. split; [reflexivity|]. split; [exact Ed|]. unfold work. cbn [get_info bi_pow info]. exact Hk. }
    split; [apply HW; [exact Hlink|reflexivity|reflexivity]|]. split; [cbn [get_info info bi_height]; rewrite Hi; reflexivity|]. split; [rewrite <- Hi; exact Hlt|]. split; [eauto|]. split; [reflexivity|discriminate].
Qed.

(** ** Parts of a step *)
Definition idle : thread := TDone CLast Panic.
Definition prj (th : ethread) : thread := match th with HTh (FTh a) => a | EAdd _ a => a | _ => idle end.
Definition active (th : ethread) : N :=
  match th with ELast _ _ _ _ | EIdx _ _ _ _ _ | EGet _ _ _ _ _ | EFlush _ _ | ERotate _ | EAdd _ _ => 1 | _ => 0 end.
Definition busy1 (st : estate) : N := if es_busy st then 1 else 0.
Definition eqv (s s' : shared) : Prop :=
  sh_locked s' = sh_locked s /\ mc_height (mainof s') = mc_height (mainof s) /\ cur (mc_blocks (mainof s')) = cur (mc_blocks (mainof s)).
Lemma eqv_refl s : eqv s s.
Proof. repeat split. Qed.
Lemma eqv_quiet s s' : quiet s s' -> eqv s s'.
Proof. intros (A & B & _ & C & _). repeat split; assumption. Qed.

Lemma set_root t : t_set_amount ROOT_PUBLIC_ADDRESS COINS_PER_CYCLE t =
  (with_summary t (sled_commit [(ROOT_PUBLIC_ADDRESS, led_encode COINS_PER_CYCLE)] (t_summary t)), Ok tt).
Proof. reflexivity. Qed.

Definition refilled (t : bct) : bct :=
  with_summary (rotate_ledgers t) (sled_commit [(ROOT_PUBLIC_ADDRESS, led_encode COINS_PER_CYCLE)] (t_summary (rotate_ledgers t))).
Inductive estep (p : profile) (st : estate) : ethread -> estate -> ethread -> Prop :=
| es_handle a a' s' : tree_step (es_sh st) a = Some (s', a') -> estep p st (HTh (FTh a)) (MkEs s' (es_busy st)) (HTh (FTh a'))
| es_hflush f f' m : is_flush f = true -> is_flush f' = true -> quiet (es_sh st) (with_tree (es_sh st) (with_main (sh_tree (es_sh st)) m)) ->
    estep p st (HTh f) (MkEs (with_tree (es_sh st) (with_main (sh_tree (es_sh st)) m)) (es_busy st)) (HTh f')
| es_txs_end : estep p st (HTxs []) st (HTh FDone)
| es_txs tx txs : estep p st (HTxs (tx :: txs))
    (MkEs (with_tree (es_sh st) (with_main (sh_tree (es_sh st)) (mc_add_transaction tx (t_main (sh_tree (es_sh st)))))) (es_busy st)) (HTxs txs)
| es_borrow w f txs ts : es_busy st = false -> estep p st (EStart w f txs ts) (MkEs (es_sh st) true) (ELast w f txs ts)
| es_last_panic w f txs ts : estep p st (ELast w f txs ts) (MkEs (es_sh st) false) (EDone Panic)
| es_last w f txs ts i : u256_sub (mc_height (mainof (es_sh st))) 1 = Ok i -> sh_locked (es_sh st) = false -> estep p st (ELast w f txs ts) st (EIdx w f txs ts i)
| es_idx_panic w f txs ts i : mc_height (mainof (es_sh st)) < i -> estep p st (EIdx w f txs ts i) (MkEs (es_sh st) false) (EDone Panic)
| es_idx w f txs ts i : estep p st (EIdx w f txs ts i) st (EGet w f txs ts i)
| es_summ w f txs ts i info root :
    emit_block p w f txs ts (sled_get (height_key i) (mc_blocks (mainof (es_sh st)))) (sh_tree (es_sh st)) = Ok (SummBlock info root) ->
    estep p st (EGet w f txs ts i) st (EFlush (SummBlock info root) FOpen)
| es_made w f txs ts i b :
    emit_block p w f txs ts (sled_get (height_key i) (mc_blocks (mainof (es_sh st)))) (sh_tree (es_sh st)) = Ok b ->
    (forall info root, b <> SummBlock info root) ->
    estep p st (EGet w f txs ts i) st (EAdd b (TStart (CAddBlock b)))
| es_refused w f txs ts i r :
    emit_block p w f txs ts (sled_get (height_key i) (mc_blocks (mainof (es_sh st)))) (sh_tree (es_sh st)) = r ->
    (forall b, r <> Ok b) -> estep p st (EGet w f txs ts i) (MkEs (es_sh st) false) (EDone r)
| es_eflush b f f' m : is_flush f = true -> is_flush f' = true -> quiet (es_sh st) (with_tree (es_sh st) (with_main (sh_tree (es_sh st)) m)) ->
    estep p st (EFlush b f) (MkEs (with_tree (es_sh st) (with_main (sh_tree (es_sh st)) m)) (es_busy st)) (EFlush b f')
| es_eflushed b : estep p st (EFlush b FDone) st (ERotate b)
| es_rotate b : estep p st (ERotate b) (MkEs (with_tree (es_sh st) (refilled (sh_tree (es_sh st)))) (es_busy st)) (EAdd b (TStart (CAddBlock b)))
| es_add b a a' s' : tree_step (es_sh st) a = Some (s', a') -> estep p st (EAdd b a) (MkEs s' (es_busy st)) (EAdd b a')
| es_added b c r : estep p st (EAdd b (TDone c r)) (MkEs (es_sh st) false) (EDone (let! _ := r in Ok b)).

Lemma flush_parts s f s' f' : is_flush f = true -> flush_step s f = Some (s', f') ->
  exists m, s' = with_tree s (with_main (sh_tree s) m) /\ is_flush f' = true /\ quiet s s'.
Proof.
  intros Hf E. destruct (fstep_cases s f s' f' E) as [(a & a' & -> & _)|(_ & H & Q)]; [discriminate Hf|].
  assert (exists m, s' = with_tree s (with_main (sh_tree s) m)) as (m & Hm); [|exists m; auto].
  destruct f; try discriminate Hf; cbn [flush_step] in E; try discriminate E; try (apply some_inv in E as [<- _]; eexists; reflexivity).
  destruct (sh_locked s); [discriminate E|]. apply some_inv in E as [<- _]. exists (t_main (sh_tree s)). destruct s as [[] l]. reflexivity.
Qed.
(* [b] stays [FTh _] inside [EFlush] only at the start, which never happens. *)
Definition flushing (th : ethread) : Prop := match th with EFlush _ f => is_flush f = true | _ => True end.
Lemma estep_of p st th st' th' : flushing th -> emit_step p st th = Some (st', th') -> estep p st th st' th'.
Proof.
  intros Hfl E. destruct th as [f|[|tx txs]|w f txs ts|w f txs ts|w f txs ts i|w f txs ts i|b f|b|b a|r]; cbn [emit_step] in E.
  - destruct (flush_step (es_sh st) f) as [[s' f']|] eqn:E1; [|discriminate E]. apply some_inv in E as [<- <-].
    destruct f as [a| | | | | | | |]; [|match type of E1 with flush_step _ ?z = _ => destruct (flush_parts _ z _ _ eq_refl E1) as (m & -> & H1 & H2) end; apply es_hflush; [reflexivity|assumption..]..].
    cbn [flush_step] in E1. destruct (tree_step (es_sh st) a) as [[s1 a']|] eqn:E2; [|discriminate E1]. apply some_inv in E1 as [<- <-]. apply es_handle, E2.
  - apply some_inv in E as [<- <-]. apply es_txs_end.
  - apply some_inv in E as [<- <-]. apply es_txs.
  - destruct (es_busy st) eqn:Eb; [discriminate E|]. apply some_inv in E as [<- <-]. apply es_borrow, Eb.
  - destruct (sh_locked (es_sh st)) eqn:El; [discriminate E|]. destruct (u256_sub _ _) as [i|e| |] eqn:Ei; unfold emit_ends in E; apply some_inv in E as [<- <-]; try apply es_last_panic. apply es_last; assumption.
  - destruct (sh_locked (es_sh st)) eqn:El; [discriminate E|]. destruct (N.ltb_spec (mc_height (t_main (sh_tree (es_sh st)))) i); unfold emit_ends in E; apply some_inv in E as [<- <-]; [apply es_idx_panic; assumption|apply es_idx].
  - destruct (emit_block p w f txs ts _ (sh_tree (es_sh st))) as [b|e| |] eqn:Eb; unfold emit_ends in E.
    + destruct b; apply some_inv in E as [<- <-]; [apply es_made; [exact Eb|discriminate]|apply es_made; [exact Eb|discriminate]|eapply es_summ; exact Eb].
    + apply some_inv in E as [<- <-]. eapply es_refused; [exact Eb|discriminate].
    + apply some_inv in E as [<- <-]. eapply es_refused; [exact Eb|discriminate].
    + apply some_inv in E as [<- <-]. eapply es_refused; [exact Eb|discriminate].
  - assert (f = FDone /\ Some (st, ERotate b) = Some (st', th') \/
            exists s' f', flush_step (es_sh st) f = Some (s', f') /\ st' = MkEs s' (es_busy st) /\ th' = EFlush b f') as [[-> E1]|(s' & f' & E1 & -> & ->)].
    { destruct f; try (right; destruct (flush_step (es_sh st) _) as [[s' f']|] eqn:E1; [|discriminate E]; apply some_inv in E as [<- <-]; exists s', f'; auto; fail). left. auto. }
    + apply some_inv in E1 as [<- <-]. apply es_eflushed.
    + destruct (flush_parts _ _ _ _ Hfl E1) as (m & -> & H1 & H2). apply es_eflush; assumption.
  - rewrite set_root in E. apply some_inv in E as [<- <-]. apply es_rotate.
  - assert ((exists c r, a = TDone c r /\ Some (MkEs (es_sh st) false, EDone (let! _ := r in Ok b)) = Some (st', th')) \/
            exists s' a', tree_step (es_sh st) a = Some (s', a') /\ st' = MkEs s' (es_busy st) /\ th' = EAdd b a') as [(c & r & -> & E1)|(s' & a' & E1 & -> & ->)].
    { destruct a; try (right; destruct (tree_step (es_sh st) _) as [[s' a']|] eqn:E1; [|discriminate E]; apply some_inv in E as [<- <-]; exists s', a'; auto; fail). left. eexists _, _. split; [reflexivity|exact E]. }
    + apply some_inv in E1 as [<- <-]. apply es_added.
    + apply es_add, E1.
  - discriminate E.
Qed.

(** ** What holds at every moment *)
Definition stored_ok (m : main_chain) (i : N) : Prop :=
  forall lb, mc_decode (sled_get (height_key i) (mc_blocks m)) = Ok (Some lb) -> block_wf lb /\ bi_height (get_info lb) = i.
(** A thread inside or before [add_block]. *)
Definition tok (m : main_chain) (a : thread) : Prop :=
  match a with
  | TStart (CAddBlock b) => block_wf b
  | TWrite b => block_wf b /\ bi_height (get_info b) = mc_height m
  | TRef b | TBump b => block_wf b /\ bi_height (get_info b) = mc_height m /\ sled_get (height_key (mc_height m)) (mc_blocks m) = Some (block_dump b)
  | _ => True
  end.
Definition handle_kind (a : thread) : Prop := match th_call a with CLedger _ | CSendTx _ => False | _ => True end.
Definition shape (b : block) (a : thread) : Prop :=
  match a with
  | TStart c => c = CAddBlock b
  | TWrite b' | TRef b' | TBump b' => b' = b
  | TDone c r => c = CAddBlock b /\ (r = Ok CRUnit \/ r = Err EChainAddingBlock \/ r = Panic)
  | _ => False
  end.
Definition args_ok (w f : bytes) (txs : list bytes) (ts : N) : Prop := is_array 32 w /\ is_array 33 f /\ Forall (is_array 32) txs /\ u64_ok ts.
Definition is_summ (b : block) : bool := match b with SummBlock _ _ => true | _ => false end.
Definition th_ok (m : main_chain) (th : ethread) : Prop :=
  match th with
  | HTh (FTh a) => tok m a /\ handle_kind a
  | EStart w f txs ts | ELast w f txs ts => args_ok w f txs ts
  | EIdx w f txs ts i | EGet w f txs ts i => args_ok w f txs ts /\ i + 1 <= mc_height m
  | EFlush b f => block_wf b /\ is_summ b = true /\ is_flush f = true
  | ERotate b => block_wf b /\ is_summ b = true
  | EAdd b a => block_wf b /\ tok m a /\ shape b a
  | _ => True
  end.
Record ginv (st : estate) (ts : list ethread) : Prop := {
  g_lock : lock_inv (es_sh st) (map prj ts);
  g_h : 1 <= mc_height (mainof (es_sh st)) < 2 ^ 256;
  g_st : forall i, i < mc_height (mainof (es_sh st)) -> stored_ok (mainof (es_sh st)) i;
  g_th : forall th, In th ts -> th_ok (mainof (es_sh st)) th;
  g_busy : total active ts = busy1 st }.

Lemma stored_cur m m' i : cur (mc_blocks m') = cur (mc_blocks m) -> stored_ok m i -> stored_ok m' i.
Proof. intros E H lb. rewrite (sled_get_cur _ _ _ E). apply H. Qed.
Lemma tok_eqv m m' a : mc_height m' = mc_height m -> cur (mc_blocks m') = cur (mc_blocks m) -> tok m a -> tok m' a.
Proof. intros E1 E2. destruct a as [[]| | | | | | | | | | | | |]; cbn [tok]; rewrite ?E1, ?(sled_get_cur _ _ _ E2); auto. Qed.
Lemma tok_free m m' a : in_add_block a = false -> tok m a -> tok m' a.
Proof. destruct a as [[]| | | | | | | | | | | | |]; cbn [tok in_add_block]; intros; try assumption; discriminate. Qed.
Lemma th_ok_eqv m m' th : mc_height m' = mc_height m -> cur (mc_blocks m') = cur (mc_blocks m) -> th_ok m th -> th_ok m' th.
Proof.
  intros E1 E2. destruct th as [[]| | | | | | | | |]; cbn [th_ok]; rewrite ?E1; auto.
  - intros [H ?]. split; [|assumption]. eapply tok_eqv; eassumption.
  - intros (? & H & ?). repeat split; try assumption. eapply tok_eqv; eassumption.
Qed.
Lemma th_ok_free m m' th : in_add_block (prj th) = false -> mc_height m <= mc_height m' -> th_ok m th -> th_ok m' th.
Proof.
  intros Hf Hle. destruct th as [[]| | | | | | | | |]; cbn [th_ok prj] in *; auto.
  - intros [H ?]. split; [|assumption]. eapply tok_free; eassumption.
  - intros [? ?]. split; [assumption|lia].
  - intros [? ?]. split; [assumption|lia].
  - intros (? & H & ?). repeat split; try assumption. eapply tok_free; eassumption.
Qed.

(** A step that leaves blocks, height and lock alone. *)
Lemma ginv_quiet st ts k th st' th' : ginv st ts -> nth_error ts k = Some th -> eqv (es_sh st) (es_sh st') ->
  holds (prj th) = 0 -> holds (prj th') = 0 -> busy1 st' + active th = busy1 st + active th' -> th_ok (mainof (es_sh st)) th' -> ginv st' (replace ts k th').
Proof.
  intros [G1 G2 G3 G4 G5] Hk (Q1 & Q2 & Q3) H1 H2 Hb Hok.
  pose proof (total_replace holds (map prj ts) k (prj th) (prj th')) as T1. rewrite nth_error_map, Hk in T1. specialize (T1 eq_refl).
  pose proof (total_replace active ts k th th' Hk) as T2.
  split.
  - unfold lock_inv, locked1 in *. rewrite Q1, map_replace. lia.
  - rewrite Q2. exact G2.
  - intros i Hi. rewrite Q2 in Hi. apply (stored_cur (mainof (es_sh st))); [exact Q3|]. apply G3, Hi.
  - intros z Hz. apply (th_ok_eqv (mainof (es_sh st))); [exact Q2|exact Q3|]. apply in_replace in Hz as [->|Hz]; [exact Hok|apply G4, Hz].
  - lia.
Qed.

Lemma step_shape b s a s' a' : shape b a -> tree_step s a = Some (s', a') -> shape b a'.
Proof.
  intros Hs E. destruct a as [c| | | | | | | |b'|b'|b'| | |]; cbn [shape] in Hs; try contradiction; subst; cbn [tree_step] in E.
  - destruct (sh_locked s); [discriminate E|]. destruct (negb _); apply some_inv in E as [_ <-]; cbn [shape]; auto.
  - apply some_inv in E as [_ <-]. reflexivity.
  - apply some_inv in E as [_ <-]. reflexivity.
  - destruct (u256_add _ _); apply some_inv in E as [_ <-]; cbn [shape]; auto.
  - discriminate E.
Qed.
(** What a step of a chain call does to the chain, and the thread after it. *)
Lemma step_tok s a s' a' : handle_kind a -> tree_step s a = Some (s', a') -> (in_add_block a = true -> sh_locked s = true) ->
  1 <= mc_height (mainof s) < 2 ^ 256 -> tok (mainof s) a ->
  tok (mainof s') a' /\ ledgers (sh_tree s') = ledgers (sh_tree s) /\
  mc_height (mainof s) <= mc_height (mainof s') < 2 ^ 256 /\ t_derivs (sh_tree s') = t_derivs (sh_tree s) /\ t_closed (sh_tree s') = t_closed (sh_tree s) /\
  (in_add_block a = false -> mc_height (mainof s') = mc_height (mainof s) /\ cur (mc_blocks (mainof s')) = cur (mc_blocks (mainof s))) /\
  (forall i, i < mc_height (mainof s) -> sled_get (height_key i) (mc_blocks (mainof s')) = sled_get (height_key i) (mc_blocks (mainof s))) /\
  (mc_height (mainof s) < mc_height (mainof s') -> exists b, a = TBump b /\ a' = TDone (CAddBlock b) (Ok CRUnit) /\ mc_height (mainof s') = mc_height (mainof s) + 1 /\
     sled_get (height_key (mc_height (mainof s))) (mc_blocks (mainof s')) = Some (block_dump b)).
Proof.
  intros Hk E Hl Hh Ht.
  assert (Hid : s' = s -> tok (mainof s') a' -> tok (mainof s') a' /\ ledgers (sh_tree s') = ledgers (sh_tree s) /\
    mc_height (mainof s) <= mc_height (mainof s') < 2 ^ 256 /\ t_derivs (sh_tree s') = t_derivs (sh_tree s) /\ t_closed (sh_tree s') = t_closed (sh_tree s) /\
    (in_add_block a = false -> mc_height (mainof s') = mc_height (mainof s) /\ cur (mc_blocks (mainof s')) = cur (mc_blocks (mainof s))) /\
    (forall i, i < mc_height (mainof s) -> sled_get (height_key i) (mc_blocks (mainof s')) = sled_get (height_key i) (mc_blocks (mainof s))) /\
    (mc_height (mainof s) < mc_height (mainof s') -> exists b, a = TBump b /\ a' = TDone (CAddBlock b) (Ok CRUnit) /\ mc_height (mainof s') = mc_height (mainof s) + 1 /\
       sled_get (height_key (mc_height (mainof s))) (mc_blocks (mainof s')) = Some (block_dump b))).
  { intros -> H. split; [exact H|]. split; [reflexivity|]. split; [lia|]. split; [reflexivity|]. split; [reflexivity|]. split; [auto|]. split; [reflexivity|]. lia. }
  destruct a as [[c|tx|b| |h|h]|tx g|tx g am|tx g am i|tx g am i|tx g|tx g|tx g|b|b|b|c i|c i|c r]; cbn [handle_kind th_call] in Hk; try contradiction; cbn [tree_step] in E.
  - destruct (sh_locked s); [discriminate E|]. destruct (N.eqb_spec (bi_height (get_info b)) (mc_height (t_main (sh_tree s)))) as [Heq|]; cbn [negb] in E; apply some_inv in E as [<- <-].
    + cbn [sh_tree mainof in_add_block tok] in *. unfold mainof. cbn [sh_tree]. split; [auto|]. split; [reflexivity|]. unfold mainof in Hh. split; [lia|]. split; [reflexivity|]. split; [reflexivity|]. split; [auto|]. split; [reflexivity|]. lia.
    + apply Hid; [reflexivity|exact I].
  - destruct (sh_locked s); [discriminate E|]. apply some_inv in E as [<- <-]. apply Hid; [reflexivity|]. destruct (u256_sub _ _); exact I.
  - destruct (sh_locked s); [discriminate E|]. apply some_inv in E as [<- <-]. apply Hid; [reflexivity|]. destruct (_ <? _); exact I.
  - apply some_inv in E as [<- <-]. apply Hid; [reflexivity|]. destruct (sled_get _ _); [destruct (Nat.ltb _ _)|]; exact I.
  - apply some_inv in E as [<- <-]. cbn [tok] in *. unfold mainof in *. cbn [with_tree sh_tree with_main t_main put_block mc_height mc_blocks] in *.
    split; [split; [apply Ht|split; [apply Ht|]]; rewrite sled_get_insert, bytes_eqb_refl; reflexivity|]. split; [reflexivity|]. split; [lia|]. split; [reflexivity|]. split; [reflexivity|]. split; [discriminate|].
    split; [|lia]. intros i Hi. rewrite sled_get_insert, height_key_eqb by lia. destruct (N.eqb_spec i (mc_height (t_main (sh_tree s)))); [lia|reflexivity].
  - apply some_inv in E as [<- <-]. cbn [tok] in *. unfold mainof in *. cbn [with_tree sh_tree with_main t_main put_ref mc_height mc_blocks] in *.
    split; [exact Ht|]. split; [reflexivity|]. split; [lia|]. split; [reflexivity|]. split; [reflexivity|]. split; [discriminate|]. split; [reflexivity|lia].
  - revert E. unfold u256_add. destruct (N.ltb_spec (mc_height (t_main (sh_tree s)) + 1) (2 ^ 256)) as [Hlt|]; intros E; apply some_inv in E as [<- <-].
    + unfold mainof in *. cbn [sh_tree with_main t_main put_height mc_height mc_blocks tok] in *. split; [exact I|]. split; [reflexivity|]. split; [lia|]. split; [reflexivity|]. split; [reflexivity|]. split; [discriminate|]. split; [reflexivity|].
      intros _. exists b. repeat split. apply Ht.
    + unfold mainof in *. cbn [sh_tree tok in_add_block] in *. split; [exact I|]. split; [reflexivity|]. split; [lia|]. split; [reflexivity|]. split; [reflexivity|]. split; [discriminate|]. split; [reflexivity|lia].
  - destruct (sh_locked s); [discriminate E|]. apply some_inv in E as [<- <-]. apply Hid; [reflexivity|]. destruct (_ <? _); exact I.
  - apply some_inv in E as [<- <-]. apply Hid; [reflexivity|exact I].
  - discriminate E.
Qed.

Lemma stored_dump b lb : block_wf b -> 1 <= bi_height (get_info b) -> mc_decode (Some (block_dump b)) = Ok (Some lb) -> lb = b.
Proof.
  intros Hw Hh E. destruct b as [fee root info txs|info|info root].
  - rewrite readable_decode in E by (split; [exact Hw|cbn [get_info] in Hh; lia]). injection E as <-. reflexivity.
  - unfold mc_decode in E. rewrite deserialize_deriv in E. discriminate E.
  - rewrite readable_decode in E by (split; [exact Hw|exact I]). injection E as <-. reflexivity.
Qed.

Lemma ginv_chain st ts k th s' th' a a' : ginv st ts -> nth_error ts k = Some th -> prj th = a -> prj th' = a' -> handle_kind a ->
  tree_step (es_sh st) a = Some (s', a') -> active th' = active th -> tok (mainof (es_sh st)) a ->
  (tok (mainof s') a' -> th_ok (mainof s') th') -> ginv (MkEs s' (es_busy st)) (replace ts k th').
Proof.
  intros [G1 G2 G3 G4 G5] Hk Ha Ha' Hkind E Hact Ht Hok. set (s := es_sh st) in *.
  assert (Hp : nth_error (map prj ts) k = Some a) by (rewrite nth_error_map, Hk, <- Ha; reflexivity).
  assert (Hl : in_add_block a = true -> sh_locked s = true) by (eapply lock_held; [exact G1|eapply nth_error_In, Hp]).
  destruct (step_tok s a s' a' Hkind E Hl G2 Ht) as (T1 & T2 & T3 & T4 & T5 & T6 & T7 & T8).
  pose proof (total_replace active ts k th th' Hk) as T.
  split; cbn [es_sh].
  - rewrite map_replace, Ha'. eapply lock_step; eassumption.
  - lia.
  - intros i Hi. destruct (N.lt_ge_cases i (mc_height (mainof s))) as [Hc|Hc].
    + intros lb. rewrite T7 by exact Hc. apply G3, Hc.
    + destruct T8 as (b & -> & -> & Hh & Hg); [lia|]. replace i with (mc_height (mainof s)) by lia. intros lb. rewrite Hg. intros Ed.
      cbn [tok] in Ht. apply stored_dump in Ed; [|apply Ht|destruct Ht as (_ & -> & _); lia]. subst lb. split; apply Ht.
  - intros z Hz. apply In_nth_error in Hz as (j & Hj). destruct (Nat.eq_dec k j) as [<-|Hne].
    { rewrite (replace_same _ _ _ th' Hk) in Hj. injection Hj as <-. apply Hok, T1. }
    rewrite replace_other in Hj by exact Hne. pose proof (G4 z (nth_error_In _ _ Hj)) as Hz.
    destruct (in_add_block a) eqn:Ea.
    + apply (th_ok_free (mainof s)); [|lia|exact Hz]. destruct (in_add_block (prj z)) eqn:Ez; [exfalso|reflexivity]. apply Hne.
      apply (lock_unique s (map prj ts) k j a (prj z)); try assumption. rewrite nth_error_map, Hj. reflexivity.
    + destruct T6 as [E1 E2]; [reflexivity|]. apply (th_ok_eqv (mainof s)); assumption.
  - unfold busy1 in *. cbn [es_busy]. lia.
Qed.
Lemma shape_kind b a : shape b a -> handle_kind a.
Proof. unfold handle_kind. destruct a; cbn [shape th_call]; intros H; try contradiction; try exact I; [subst c; exact I|destruct H as [-> _]; exact I]. Qed.
Lemma kind_step s a s' a' : handle_kind a -> tree_step s a = Some (s', a') -> handle_kind a'.
Proof. unfold handle_kind. intros H E. rewrite (step_call s a s' a' E). exact H. Qed.

Lemma ginv_step p st ts k th st' th' : ginv st ts -> nth_error ts k = Some th -> estep p st th st' th' -> ginv st' (replace ts k th').
Proof.
  intros G Hk E. pose proof (g_th _ _ G th (nth_error_In _ _ Hk)) as Ht. pose proof (g_h _ _ G) as Hh.
  assert (Hact : active th = 1 -> es_busy st = true).
  { intros Ha. pose proof (total_in active ts th (nth_error_In _ _ Hk)) as Hi. rewrite (g_busy _ _ G) in Hi. unfold busy1 in Hi. destruct (es_busy st); [reflexivity|lia]. }
  destruct E as [a a' s' E|f f' m F1 F2 Q| |tx txs|w f txs ts0 Eb|w f txs ts0|w f txs ts0 i Ei El|w f txs ts0 i El|w f txs ts0 i|w f txs ts0 i info root Eb|w f txs ts0 i b Eb Hs|w f txs ts0 i r Eb Hr|b f f' m F1 F2 Q|b|b|b a a' s' E|b c r].
  - cbn [th_ok] in Ht. destruct Ht as [Ht1 Ht2]. eapply (ginv_chain st ts k (HTh (FTh a)) s' (HTh (FTh a')) a a'); try reflexivity; try eassumption. intros X. split; [exact X|eapply kind_step; eassumption].
  - eapply ginv_quiet; try eassumption; try reflexivity; [apply eqv_quiet, Q|destruct f; [discriminate F1|reflexivity..]|destruct f'; [discriminate F2|reflexivity..]|destruct f'; [discriminate F2|exact I..]].
  - eapply ginv_quiet; try eassumption; try reflexivity. apply eqv_refl.
  - eapply ginv_quiet; try eassumption; try reflexivity. repeat split.
  - eapply ginv_quiet; try eassumption; try reflexivity; [apply eqv_refl|]. unfold busy1. cbn [es_busy active]. rewrite Eb. reflexivity.
  - eapply ginv_quiet; try eassumption; try reflexivity; [apply eqv_refl|]. unfold busy1. cbn [es_busy active]. rewrite Hact by reflexivity. reflexivity.
  - eapply ginv_quiet; try eassumption; try reflexivity; [apply eqv_refl|]. split; [exact Ht|]. revert Ei. unfold u256_sub. destruct (N.leb_spec 1 (mc_height (mainof (es_sh st)))); [|lia]. intros Ei. apply ok_inv in Ei. subst i. lia.
  - eapply ginv_quiet; try eassumption; try reflexivity; [apply eqv_refl|]. unfold busy1. cbn [es_busy active]. rewrite Hact by reflexivity. reflexivity.
  - eapply ginv_quiet; try eassumption; try reflexivity. apply eqv_refl.
  - destruct Ht as [(A1 & A2 & A3 & A4) Hi]. destruct (emit_block_spec _ _ _ _ _ _ _ _ _ Eb (g_st _ _ G i ltac:(lia)) A1 A2 A3 A4) as (B1 & _).
    eapply ginv_quiet; try eassumption; try reflexivity; [apply eqv_refl|]. split; [exact B1|]. split; reflexivity.
  - destruct Ht as [(A1 & A2 & A3 & A4) Hi]. destruct (emit_block_spec _ _ _ _ _ _ _ _ _ Eb (g_st _ _ G i ltac:(lia)) A1 A2 A3 A4) as (B1 & _).
    eapply ginv_quiet; try eassumption; try reflexivity; [apply eqv_refl|]. split; [exact B1|]. split; [exact B1|reflexivity].
  - eapply ginv_quiet; try eassumption; try reflexivity; [apply eqv_refl|]. unfold busy1. cbn [es_busy active]. rewrite Hact by reflexivity. reflexivity.
  - destruct Ht as (A1 & A2 & A3). eapply ginv_quiet; try eassumption; try reflexivity; [apply eqv_quiet, Q|]. split; [exact A1|]. split; [exact A2|exact F2].
  - destruct Ht as (A1 & A2 & A3). eapply ginv_quiet; try eassumption; try reflexivity; [apply eqv_refl|]. split; assumption.
  - destruct Ht as (A1 & A2). eapply ginv_quiet; try eassumption; try reflexivity; [repeat split|]. split; [exact A1|]. split; [exact A1|reflexivity].
  - destruct Ht as (A1 & A2 & A3). eapply (ginv_chain st ts k (EAdd b a) s' (EAdd b a') a a'); try reflexivity; try eassumption; [eapply shape_kind; exact A3|]. intros X. split; [exact A1|]. split; [exact X|eapply step_shape; eassumption].
  - eapply ginv_quiet; try eassumption; try reflexivity; [apply eqv_refl|]. unfold busy1. cbn [es_busy active]. rewrite Hact by reflexivity. reflexivity.
Qed.
Lemma ginv_flushing st ts k th : ginv st ts -> nth_error ts k = Some th -> flushing th.
Proof. intros G Hk. pose proof (g_th _ _ G th (nth_error_In _ _ Hk)) as H. destruct th; try exact I. apply H. Qed.
Lemma ginv_start t L calls : tree_inv t L -> N.of_nat (length L) < 2 ^ 256 -> Forall handle_or_emission calls ->
  ginv (MkEs (MkShared t false) false) (map estart calls).
Proof.
  intros H Hl Hc. pose proof (ti_main _ _ H) as HM. rewrite Forall_forall in Hc. split; cbn [es_sh mainof sh_tree].
  - unfold lock_inv, total. cbn [sh_locked locked1]. clear Hc. induction calls as [|c l IH]; [reflexivity|]. cbn [map fold_right]. unfold locked1 in *. rewrite IH. destruct c as [[c|]| |]; reflexivity.
  - unfold mainof. cbn [sh_tree]. rewrite (mi_height _ _ HM). pose proof (tree_inv_ne _ _ H). destruct L; [contradiction|cbn [length] in *; lia].
  - intros i Hi lb Ed. unfold mainof in *. cbn [sh_tree] in *. rewrite (mi_height _ _ HM) in Hi. rewrite (mi_blocks _ _ HM) in Ed by lia. destruct (nthN_ex L i Hi) as (b & Hb). rewrite Hb in Ed. cbn [option_map] in Ed.
    assert (lb = b) as ->.
    { destruct (tree_readable t L i b H Hl Hb) as [Hr|(info & ->)]; [rewrite readable_decode in Ed by exact Hr; injection Ed as <-; reflexivity|]. unfold mc_decode in Ed. rewrite deserialize_deriv in Ed. discriminate Ed. }
    split; [|apply (mi_heights _ _ HM), Hb]. pose proof (ti_wf _ _ H) as Hw. rewrite Forall_forall in Hw. eapply Hw, nthN_in, Hb.
  - intros th Hin. apply in_map_iff in Hin as (c & <- & Hin). specialize (Hc c Hin). destruct c as [[[| | | | |]|]| |]; cbn [estart fstart th_ok handle_or_emission] in *; try contradiction; try exact I; try (split; exact I); try (split; [exact Hc|exact I]). exact Hc.
  - unfold busy1. cbn [es_busy]. clear Hc. induction calls as [|c l IH]; [reflexivity|]. unfold total in *. cbn [map fold_right]. rewrite IH. destruct c; reflexivity.
Qed.
