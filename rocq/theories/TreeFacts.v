(** Lemmas about Tree.v: effect of every call on the main chain. *)
From Coq Require Import Lia ZifyBool ZifyNat ZifyN.
From Verif Require Import Base Sha256 Merkle Tools Transaction Block Sled Chain Tree Spec Reach.
From Verif Require Import BaseFacts ToolsFacts MerkleFacts DiffFacts CodecFacts SledFacts ChainFacts.

Lemma bytes_ok_replace l i x : bytes_ok l -> byte_ok x -> bytes_ok (replace l i x).
Proof.
  revert i; induction l as [|a l IH]; intros i Hl Hx; destruct i; cbn [replace]; auto; inversion Hl; subst;
    constructor; auto. apply IH; assumption.
Qed.

Lemma nth_error_ok l i (x : N) : bytes_ok l -> nth_error l i = Some x -> byte_ok x.
Proof. intros H E. apply nth_error_In in E. unfold bytes_ok in H. rewrite Forall_forall in H. auto. Qed.

Lemma recalc_wf p a b d d' : is_array 32 d -> recalculate_difficulty p a b d = Ok d' -> is_array 32 d'.
Proof.
  intros [Hl Hok]. unfold recalculate_difficulty.
  assert (Hset : forall i x r, byte_ok x -> set_unchecked d i x = Ok r -> is_array 32 r).
  { intros i x r Hx. unfold set_unchecked. destruct (Nat.ltb i (length d)); [|discriminate].
    intros E. injection E as <-. split; [rewrite replace_length; exact Hl|apply bytes_ok_replace; assumption]. }
  assert (Hidx : forall i x, index_unchecked d i = Ok x -> byte_ok x).
  { intros i x. unfold index_unchecked. destruct (nth_error d i) eqn:E; [|discriminate].
    intros H. injection H as <-. eapply nth_error_ok; eassumption. }
  assert (Hdbl : forall v, byte_ok ((v * 2) mod 256 + 1)).
  { intros v. unfold byte_ok. pose proof (N.mod_lt (v * 2) 256).
    assert (Hd : v * 2 = 256 * (v * 2 / 256) + (v * 2) mod 256) by (apply N.div_mod; lia). lia. }
  intros H. apply bind_ok in H as (g & _ & H). destruct (g ?= TIME_PER_BLOCK).
  - injection H as <-. split; assumption.
  - apply bind_ok in H as (v & Hv & H). apply Hset in H; [exact H|]. apply Hidx in Hv.
    unfold byte_ok in *. rewrite N.shiftr_div_pow2. change (2 ^ 1) with 2. lia.
  - apply bind_ok in H as (v & Hv & H). destruct (_ && _)%bool; [injection H as <-; split; assumption|].
    destruct (v =? 255).
    + destruct (first_nonzero 0 d); [destruct p; discriminate|].
      apply bind_ok in H as (v' & _ & H). apply Hset in H; [exact H|apply Hdbl].
    + apply Hset in H; [exact H|apply Hdbl].
Qed.

Lemma sha_ok l : is_array 32 (sha256 l).
Proof. apply sha256_array. Qed.

Lemma block_info_wf b : block_wf b -> info_wf (get_info b).
Proof. destruct b; cbn; tauto. Qed.

Lemma pair_inv {A B} (a a' : A) (b b' : B) : (a, b) = (a', b') -> a = a' /\ b = b'.
Proof. intros E. split; [exact (f_equal fst E)|exact (f_equal snd E)]. Qed.

(** ** Emission on the main chain *)

(** State on which the new block is put: after the epoch rotation if there is one. *)
Definition rotated (t : bct) : bct :=
  with_summary (t_rotate_dbs t)
    (sled_commit [(ROOT_PUBLIC_ADDRESS, led_encode COINS_PER_CYCLE)] (t_summary (t_rotate_dbs t))).

Definition emit_base (b : block) (t : bct) : bct :=
  match b with SummBlock _ _ => rotated t | _ => t end.

Lemma summarize_ok t : t_summarize t =
  Ok (mroot (map (fun e => sha256 (summary_entry (t_gas t) e)) (sled_iter (t_summary t)))).
Proof.
  unfold t_summarize. set (l := map _ _). pose proof (mroot_ok l) as H.
  destruct (build_tree l) as [x|e| |]; cbn [bind] in *; try discriminate. exact H.
Qed.

Lemma mroot_nil : mroot [] = ff32.
Proof. symmetry. apply mroot_iff. exists 0%nat. split; [split; [|left]; cbn; lia|reflexivity]. Qed.

Lemma emit_main_spec p pow founder txs ts t last t' r :
  mc_get_last_block (t_main t) = Ok (Some last) ->
  bytes_ok (bi_difficulty (get_info last)) -> length (bi_difficulty (get_info last)) = 32%nat ->
  bi_height (get_info last) + 1 = mc_height (t_main t) -> mc_height (t_main t) + 1 < 2 ^ 256 ->
  t_emmit_new_main_block p pow founder txs ts t = (t', r) ->
  match r with
  | Ok b => main_link p last b /\
      bi_timestamp (get_info b) = ts /\ bi_pow (get_info b) = pow /\ bi_founder (get_info b) = founder /\
      bi_height (get_info b) = mc_height (t_main t) /\
      match b with
      | TxBlock _ _ _ l => l = txs
      | SummBlock _ root => txs = [] /\ t_summarize t = Ok root
      | DerivBlock _ => False
      end /\
      t' = with_main (emit_base b t) (mc_appended b (t_main (emit_base b t)))
  | _ => t' = t
  end.
Proof.
  intros Hlast Hdok Hdl Hh Hb. unfold t_emmit_new_main_block. rewrite Hlast. cbn [bind unwrap_opt].
  rewrite check_pow_eq. cbn [bind].
  destruct (N.leb_spec (count_leading_zeros (bi_difficulty (get_info last)))
    (count_leading_zeros (sha256 (block_hash last ++ mroot txs ++ pow)))) as [Hw|Hw]; cbn [negb].
  2:{ intros E. apply pair_inv in E as [<- <-]. reflexivity. }
  rewrite !clz_spec in Hw by (try exact Hdok; apply sha256_array).
  destruct (recalculate_difficulty p (bi_timestamp (get_info last)) ts (bi_difficulty (get_info last))) as [d|e| |] eqn:Ed;
    cbn [bind]; try (intros E; apply pair_inv in E as [<- <-]; reflexivity).
  pose proof (recalc_wf _ _ _ _ _ (conj Hdl Hdok) Ed) as [Hl' Hok'].
  destruct (fee_eq d) as [Hf _]; [lia|]. rewrite Hf. cbn [bind].
  unfold u256_add at 1. destruct (N.ltb_spec (bi_height (get_info last) + 1) (2 ^ 256)) as [_|]; [|lia]. cbn [bind].
  set (info := MkInfo ts pow (block_hash last) (bi_height (get_info last) + 1) d founder).
  assert (Hih : bi_height info = mc_height (t_main t)) by exact Hh.
  destruct (N.eqb_spec (bi_height info mod BLOCKS_PER_EPOCH) 0) as [Hm|Hm].
  - destruct txs as [|x txs]; [|intros E; apply pair_inv in E as [<- <-]; reflexivity].
    rewrite summarize_ok. set (root := mroot _).
    assert (Hadd : mc_add_block (SummBlock info root) (t_main (rotated t)) =
      (mc_appended (SummBlock info root) (t_main (rotated t)), Ok tt)).
    { apply mc_add_block_right; [exact Hih|exact Hb]. }
    change (t_set_amount ROOT_PUBLIC_ADDRESS COINS_PER_CYCLE (t_rotate_dbs t)) with (rotated t, @Ok unit tt).
    cbv beta zeta iota. rewrite Hadd. intros E. apply pair_inv in E as [<- <-].
    split; [|repeat split].
    + split; [exact Hm|]. split; [reflexivity|]. split; [reflexivity|]. split; [exact Ed|].
      unfold work. cbn [get_info bi_pow info]. rewrite mroot_nil in Hw. exact Hw.
    + exact Hih.
  - destruct txs as [|x txs]; [intros E; apply pair_inv in E as [<- <-]; reflexivity|].
    pose proof (mroot_ok (x :: txs)) as Hr. rewrite Hr.
    rewrite mc_add_block_right by assumption. intros E. apply pair_inv in E as [<- <-].
    split; [|repeat split].
    + split; [apply mroot_spec|]. split; [discriminate|]. split; [rewrite clz_spec by exact Hok'; reflexivity|].
      split; [exact Hm|]. split; [reflexivity|]. split; [reflexivity|]. split; [exact Ed|].
      unfold work. cbn [get_info bi_pow info]. exact Hw.
    + exact Hih.
Qed.

(** ** The main chain under every call *)

Record tree_inv (t : bct) (L : list block) : Prop := {
  ti_main : main_inv (t_main t) L;
  ti_gen : nth_error L 0 = Some genesis;
  ti_wf : Forall block_wf L;
  ti_diff : mc_difficulty (t_main t) = BEGINNING_DIFFICULTY
}.

Lemma tree_inv_ne t L : tree_inv t L -> L <> [].
Proof. intros [_ H _ _] ->. discriminate. Qed.

Lemma tree_inv_main t t' L : tree_inv t L -> t_main t' = t_main t -> tree_inv t' L.
Proof. intros [H1 H2 H3 H4] E. split; rewrite ?E; assumption. Qed.

Lemma tree_inv_ext t t' L : tree_inv t L -> mc_height (t_main t') = mc_height (t_main t) ->
  (forall k, sled_get k (mc_blocks (t_main t')) = sled_get k (mc_blocks (t_main t))) ->
  (forall k, sled_get k (mc_refs (t_main t')) = sled_get k (mc_refs (t_main t))) ->
  mc_difficulty (t_main t') = mc_difficulty (t_main t) -> tree_inv t' L.
Proof.
  intros [H1 H2 H3 H4] E1 E2 E3 E4. split; try assumption; [|congruence].
  eapply main_inv_ext; eassumption.
Qed.

Lemma last_in {A} (l : list A) d : l <> [] -> In (last l d) l.
Proof. intros H. destruct (exists_last H) as (l' & x & ->). rewrite last_last. apply in_or_app. right. left. reflexivity. Qed.

(** Blocks of the chain are readable unless of the derivative kind. *)
Lemma tree_readable t L i b : tree_inv t L -> N.of_nat (length L) < 2 ^ 256 -> nthN L i = Some b ->
  readable b \/ exists info, b = DerivBlock info.
Proof.
  intros H Hlen Hn. pose proof (ti_wf _ _ H) as Hw. rewrite Forall_forall in Hw.
  pose proof (Hw b (nthN_in _ _ _ Hn)) as Hb. pose proof (mi_heights _ _ (ti_main _ _ H) _ _ Hn) as Hh.
  destruct b as [fee root info txs|info|info root]; [|right; eauto|left; split; [exact Hb|exact I]].
  left. split; [exact Hb|]. cbn in Hh. intros E. rewrite E in Hh. subst i.
  pose proof (ti_gen _ _ H) as Hg. unfold nthN in Hn. change (N.to_nat 0) with 0%nat in Hn. rewrite Hg in Hn. discriminate.
Qed.

Lemma tree_last t L : tree_inv t L -> N.of_nat (length L) < 2 ^ 256 ->
  (readable (last L genesis) /\ mc_get_last_block (t_main t) = Ok (Some (last L genesis))) \/
  ((exists info, last L genesis = DerivBlock info) /\ mc_get_last_block (t_main t) = Err EChainFindByHeight).
Proof.
  intros H Hlen. pose proof (tree_inv_ne _ _ H) as Hne.
  pose proof (nthN_last L genesis Hne) as Hn.
  destruct (tree_readable t L _ _ H Hlen Hn) as [Hr|(info & Hi)].
  - left. split; [exact Hr|]. apply main_last_block; try assumption. apply H.
  - right. split; [eauto|]. unfold mc_get_last_block.
    rewrite (main_last_raw' _ L genesis) by (try assumption; apply H). cbn [bind]. rewrite Hi.
    unfold mc_decode. rewrite deserialize_deriv. reflexivity.
Qed.

Lemma tree_last_height t L : tree_inv t L ->
  bi_height (get_info (last L genesis)) + 1 = mc_height (t_main t) /\ block_wf (last L genesis).
Proof.
  intros H. pose proof (tree_inv_ne _ _ H) as Hne. pose proof (nthN_last L genesis Hne) as Hn.
  rewrite (mi_heights _ _ (ti_main _ _ H) _ _ Hn), (mi_height _ _ (ti_main _ _ H)).
  split; [destruct L; [contradiction|cbn [length]; lia]|].
  pose proof (ti_wf _ _ H) as Hw. rewrite Forall_forall in Hw. apply Hw. eapply nthN_in, Hn.
Qed.

Lemma tree_inv_append t L b : tree_inv t L -> block_wf b -> bi_height (get_info b) = mc_height (t_main t) ->
  mc_height (t_main t) + 1 < 2 ^ 256 -> tree_inv (with_main t (mc_appended b (t_main t))) (L ++ [b]).
Proof.
  intros [H1 H2 H3 H4] Hw Hh Hb. split; cbn [t_main with_main].
  - apply main_inv_append; assumption.
  - destruct L; [discriminate|]. exact H2.
  - apply Forall_app. split; [exact H3|]. constructor; [exact Hw|constructor].
  - exact H4.
Qed.

Lemma main_add_txs_diff txs mc : mc_difficulty (mc_add_transactions txs mc) = mc_difficulty mc.
Proof. revert mc; induction txs as [|x txs IH]; intros mc; [reflexivity|]. exact (IH (mc_add_transaction x mc)). Qed.

Lemma tree_inv_txs t L txs : tree_inv t L -> tree_inv (with_main t (mc_add_transactions txs (t_main t))) L.
Proof.
  intros [H1 H2 H3 H4]. split; cbn [t_main with_main]; try assumption.
  - apply main_inv_add_transactions, H1.
  - rewrite main_add_txs_diff. exact H4.
Qed.

Lemma main_link_wf p prev b pow founder txs ts : main_link p prev b -> block_wf prev ->
  bi_height (get_info prev) + 1 < 2 ^ 256 ->
  is_array 32 pow -> is_array 33 founder -> Forall (is_array 32) txs -> u64_ok ts ->
  bi_timestamp (get_info b) = ts -> bi_pow (get_info b) = pow -> bi_founder (get_info b) = founder ->
  match b with TxBlock _ _ _ l => l = txs | SummBlock _ root => is_array 32 root | DerivBlock _ => False end ->
  block_wf b.
Proof.
  intros Hl Hw Hb Hpow Hf Ht Hts E1 E2 E3 Hk. apply block_info_wf in Hw.
  destruct Hw as (_ & _ & _ & _ & Hd & _).
  assert (Hi : forall root, header_follows p (block_hash prev) (bi_difficulty (get_info prev))
     (bi_timestamp (get_info prev)) (bi_height (get_info prev) + 1) root (get_info b) -> info_wf (get_info b)).
  { intros root (P1 & P2 & P3 & _). repeat split; rewrite ?E1, ?E2, ?E3, ?P1, ?P2; try assumption;
      try apply Hpow; try apply Hf; try apply sha_ok; eapply recalc_wf in P3; try apply P3; exact Hd. }
  destruct b as [fee root info l|info|info root]; cbn [main_link get_info] in *.
  - destruct Hl as (Hr & _ & Hfee & _ & Hh). pose proof (Hi root Hh) as Hi'. split; [|split; [|split]].
    + rewrite Hfee. unfold u256_ok. destruct Hi' as (_ & _ & _ & _ & [Hdl Hdo] & _).
      rewrite <- clz_spec by exact Hdo. pose proof (clz_bound (bi_difficulty info)) as Hc. rewrite Hdl in Hc.
      assert (16000000 < 2 ^ 256) by reflexivity. lia.
    + apply mroot_iff in Hr as ->. apply mroot_array.
    + exact Hi'.
    + subst l. exact Ht.
  - contradiction.
  - destruct Hl as (_ & Hh). split; [apply (Hi ff32), Hh|exact Hk].
Qed.

Lemma tree_inv_rotated t L : tree_inv t L -> tree_inv (rotated t) L.
Proof. intros H. apply (tree_inv_ext t); [exact H|reflexivity..]. Qed.

(** How the list of blocks changes under a call. *)
Definition main_grows (p : profile) (o : op) (L L' : list block) : Prop :=
  L' = L \/ exists b, L' = L ++ [b] /\
    ((exists txs, o = OAddNewBlock b txs) \/
     (exists pow founder txs ts, o = OEmitMain pow founder txs ts /\ main_link p (last L genesis) b)).

Lemma emit_main_tree p t L pow founder txs ts t' r :
  tree_inv t L -> N.of_nat (length L) + 1 < 2 ^ 256 ->
  is_array 32 pow -> is_array 33 founder -> Forall (is_array 32) txs -> u64_ok ts ->
  t_emmit_new_main_block p pow founder txs ts t = (t', r) ->
  match r with
  | Ok b => main_link p (last L genesis) b /\ block_wf b /\ tree_inv t' (L ++ [b]) /\
      bi_timestamp (get_info b) = ts /\ bi_pow (get_info b) = pow /\ bi_founder (get_info b) = founder /\
      bi_height (get_info b) = mc_height (t_main t) /\
      match b with
      | TxBlock _ _ _ l => l = txs
      | SummBlock _ root => txs = [] /\ t_summarize t = Ok root
      | DerivBlock _ => False
      end /\
      t' = with_main (emit_base b t) (mc_appended b (t_main (emit_base b t)))
  | _ => t' = t
  end.
Proof.
  intros H Hlen Hpow Hf Ht Hts E.
  destruct (tree_last t L H ltac:(lia)) as [[Hr Hl]|[_ Hl]].
  2:{ unfold t_emmit_new_main_block in E. rewrite Hl in E. cbn [bind] in E. apply pair_inv in E as [<- <-]. reflexivity. }
  destruct (tree_last_height t L H) as [Hh Hw]. pose proof (block_info_wf _ Hw) as (_ & _ & _ & _ & [Hdl Hdo] & _).
  pose proof (mi_height _ _ (ti_main _ _ H)) as Hlh.
  pose proof (emit_main_spec p pow founder txs ts t _ t' r Hl Hdo Hdl Hh ltac:(lia) E) as S.
  destruct r as [b|e| |]; try exact S. destruct S as (S1 & S2 & S3 & S4 & S5 & S6 & S7).
  assert (Hbw : block_wf b).
  { apply (main_link_wf p (last L genesis) b pow founder txs ts); try assumption; try lia.
    destruct b; try assumption. destruct S6 as [_ S6]. rewrite summarize_ok in S6.
    injection S6 as <-. apply mroot_array. }
  assert (X : tree_inv t' (L ++ [b])); [|exact (conj S1 (conj Hbw (conj X (conj S2 (conj S3 (conj S4 (conj S5 (conj S6 S7))))))))].
  rewrite S7. assert (Hb : tree_inv (emit_base b t) L) by (destruct b; [exact H|exact H|apply tree_inv_rotated, H]).
  assert (Hhb : mc_height (t_main (emit_base b t)) = mc_height (t_main t)) by (destruct b; reflexivity).
  apply tree_inv_append; [exact Hb|exact Hbw|congruence|rewrite Hhb; lia].
Qed.

Lemma get_deriv_main owner t : t_main (fst (t_get_derivative_chain owner t)) = t_main t.
Proof.
  unfold t_get_derivative_chain. destruct (assoc_get owner (t_derivs t)); [reflexivity|].
  destruct (let! last := _ in _); reflexivity.
Qed.

Lemma emit_deriv_main p pow founder ts t : t_main (fst (t_emmit_new_derivative_block p pow founder ts t)) = t_main t.
Proof.
  unfold t_emmit_new_derivative_block. pose proof (get_deriv_main founder t) as H.
  destruct (t_get_derivative_chain founder t) as [t1 rc]. cbn [fst] in H.
  destruct rc as [dc|e| |]; try exact H.
  match goal with |- context [match ?x with Ok _ => _ | Err _ => _ | Panic => _ | UB => _ end] => destruct x as [info|e| |] end; try exact H.
  destruct (dc_add_block info dc) as [dc' ra]. exact H.
Qed.

Lemma on_summary_main f t : t_main (fst (t_on_summary f t)) = t_main t.
Proof. unfold t_on_summary. destruct (f (t_summary t)). reflexivity. Qed.
Lemma on_gas_main f t : t_main (fst (t_on_gas f t)) = t_main t.
Proof. unfold t_on_gas. destruct (f (t_gas t)). reflexivity. Qed.
Lemma send_amount_main f w a t : t_main (fst (t_send_amount f w a t)) = t_main t.
Proof. unfold t_send_amount. destruct (bytes_eqb f w); [reflexivity|apply on_summary_main]. Qed.
Lemma send_tx_main tx t : t_main (fst (t_send_transaction tx t)) = t_main t \/
  t_main (fst (t_send_transaction tx t)) = mc_add_transaction tx (t_main t).
Proof.
  unfold t_send_transaction. match goal with |- context [match ?x with Ok _ => _ | Err _ => _ | Panic => _ | UB => _ end] => destruct x as [g|e| |] end;
    [|left; reflexivity..].
  right. set (t1 := with_main t _). pose proof (send_amount_main (tx_sender tx) (tx_receiver tx) (tx_amount tx) t1) as H.
  destruct (t_send_amount _ _ _ t1) as [t2 r]. cbn [fst] in H.
  destruct r as [u|e| |]; try exact H. unfold t_sub_gas. rewrite on_gas_main. exact H.
Qed.

Lemma step_main p t o L : tree_inv t L -> op_wf o -> N.of_nat (length L) + 1 < 2 ^ 256 ->
  exists L', tree_inv (fst (step p t o)) L' /\ main_grows p o L L'.
Proof.
  intros H Hwf Hlen.
  assert (Hsame : forall t', t_main t' = t_main t -> exists L', tree_inv t' L' /\ main_grows p o L L').
  { intros t' E. exists L. split; [eapply tree_inv_main; eassumption|left; reflexivity]. }
  destruct o; cbn [step ret_unit ret_block fst].
  - apply Hsame, on_summary_main.
  - apply Hsame, on_summary_main.
  - apply Hsame, on_summary_main.
  - apply Hsame, send_amount_main.
  - apply Hsame, on_gas_main.
  - apply Hsame, on_gas_main.
  - apply Hsame, on_gas_main.
  - destruct (send_tx_main tx t) as [E|E]; [apply Hsame, E|]. exists L. split; [|left; reflexivity].
    apply (tree_inv_ext t); [exact H|rewrite E; reflexivity..].
  - destruct Hwf as (W1 & W2 & W3 & W4).
    destruct (t_emmit_new_main_block p pow founder txs ts t) as [t' r] eqn:E. cbn [fst].
    pose proof (emit_main_tree p t L _ _ _ _ _ _ H Hlen W1 W2 W3 W4 E) as S.
    destruct r as [b|e| |]; try (subst t'; exists L; split; [exact H|left; reflexivity]).
    destruct S as (S1 & _ & S2 & _). exists (L ++ [b]). split; [exact S2|]. right. exists b. split; [reflexivity|].
    right. eauto 8.
  - apply Hsame, emit_deriv_main.
  - destruct (t_get_derivative_chain owner t) as [t' r] eqn:E. cbn [fst]. apply Hsame.
    change t' with (fst (t', r)). rewrite <- E. apply get_deriv_main.
  - unfold t_add_new_block. destruct (N.eq_dec (bi_height (get_info b)) (mc_height (t_main t))) as [E|E].
    + rewrite mc_add_block_right; [|exact E|rewrite (mi_height _ _ (ti_main _ _ H)); lia].
      cbn [fst]. exists (L ++ [b]). split; [|right; exists b; split; [reflexivity|left; eauto]].
      apply (tree_inv_txs (with_main t (mc_appended b (t_main t)))).
      apply tree_inv_append; [exact H|apply Hwf|exact E|rewrite (mi_height _ _ (ti_main _ _ H)); lia].
    + rewrite mc_add_block_wrong by exact E. cbn [fst]. apply Hsame. reflexivity.
  - exists L. split; [apply tree_inv_txs, H|left; reflexivity].
  - destruct (assoc_get owner (t_derivs t)); [|apply Hsame; reflexivity].
    destruct (dc_add_block i d). apply Hsame. reflexivity.
  - exists L. split; [|left; reflexivity]. apply (tree_inv_ext t); [exact H|reflexivity..].
  - exists L. split; [|left; reflexivity]. apply (tree_inv_ext t); [exact H|reflexivity..].
  - destruct (assoc_get owner (t_derivs t)); apply Hsame; reflexivity.
Qed.

(** Opening *)
Lemma open_main t : t_new disk_empty = Ok t -> tree_inv t [genesis].
Proof.
  unfold t_new. cbn [k_main disk_empty]. rewrite mc_new_empty. cbn [bind]. intros E. injection E as <-.
  split; cbn [t_main].
  - exact mc_fresh_inv.
  - reflexivity.
  - constructor; [apply genesis_readable|constructor].
  - reflexivity.
Qed.

Lemma open_exists : exists t, t_new disk_empty = Ok t.
Proof. unfold t_new. cbn [k_main disk_empty]. rewrite mc_new_empty. cbn [bind]. eauto. Qed.

Lemma reopen_main t L : tree_inv t L -> N.of_nat (length L) < 2 ^ 256 ->
  exists t', t_new (t_close (t_flush t)) = Ok t' /\ tree_inv t' L /\
    mc_height (t_main t') = mc_height (t_main t) /\
    mc_blocks (t_main t') = sled_flush (mc_blocks (t_main t)) /\
    mc_refs (t_main t') = sled_flush (mc_refs (t_main t)) /\
    mc_txs (t_main t') = sled_flush (mc_txs (t_main t)) /\
    t_summary t' = (if mc_height (t_main t) =? 1
       then sled_commit [(ROOT_PUBLIC_ADDRESS, led_encode COINS_PER_CYCLE)] (sled_flush (t_summary t))
       else sled_flush (t_summary t)) /\
    t_old_summary t' = sled_flush (t_old_summary t) /\
    t_gas t' = sled_flush (t_gas t) /\ t_old_gas t' = sled_flush (t_old_gas t) /\
    t_derivs t' = [] /\ t_closed t' = close_derivs (fun _ => dc_close) t.
Proof.
  intros H Hlen. pose proof (mi_height _ _ (ti_main _ _ H)) as Hh. pose proof (tree_inv_ne _ _ H) as Hne.
  assert (0 < N.of_nat (length L)) by (destruct L; [contradiction|cbn [length]; lia]).
  destruct (mc_reopen (t_main t)) as (m & Hm & M1 & M2 & M3 & M4 & M5).
  - rewrite (ti_diff _ _ H). reflexivity.
  - lia.
  - unfold t_new. change (k_main (t_close (t_flush t))) with (mc_close0 (mc_flush (t_main t))). rewrite Hm.
    cbn [bind]. eexists. split; [reflexivity|]. split.
    + apply (tree_inv_ext t); cbn [t_main]; [exact H|exact M1|intros k; rewrite M3; reflexivity|intros k; rewrite M4; reflexivity|exact M2].
    + cbn [t_main]. unfold mc_get_height. rewrite M1. repeat split; assumption.
Qed.

Lemma reachable_inv ok p n t : reachable ok p n t -> few n ->
  exists L, tree_inv t L /\ (length L <= n + 1)%nat.
Proof.
  unfold few. induction 1 as [t E|n t o _ IH Hwf _|n t t' _ IH E]; intros Hn.
  - exists [genesis]. split; [apply open_main, E|cbn; lia].
  - destruct IH as (L & HL & Hlen); [lia|]. destruct (step_main p t o L HL Hwf) as (L' & HL' & Hg); [lia|].
    exists L'. split; [exact HL'|]. destruct Hg as [->|(b & -> & _)]; [lia|]. rewrite app_length. cbn. lia.
  - destruct IH as (L & HL & Hlen); [lia|]. destruct (reopen_main t L HL) as (t1 & E1 & H1 & _); [lia|].
    rewrite E in E1. injection E1 as <-. exists L. auto.
Qed.
