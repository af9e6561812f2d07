(** The simulation between the code and the abstract node. *)
From Coq Require Import Lia ZifyBool ZifyNat ZifyN.
From Verif Require Import Base Sha256 Merkle Tools Transaction Block Sled Chain Tree Spec Reach LedgerSpec NodeSpec.
From Verif Require Import BaseFacts ToolsFacts MerkleFacts DiffFacts CodecFacts SledFacts ChainFacts TreeFacts LedgerFacts DerivFacts NodeFacts.

Local Strategy 1000 [sha256 block_dump tx_dump mroot build_tree block_hash to_be root_of].

Definition main_kind (b : block) : Prop := match b with DerivBlock _ => False | _ => True end.
Definition in_txs (h : bytes) (X : list transaction) : option transaction := find (fun x => bytes_eqb h (sha256 (tx_dump x))) X.

(** Main chain *)
Record msim (k : nat) (t : bct) (L : list block) (X : list transaction) : Prop := {
  ms_tree : tree_inv t L;
  ms_len : (length L <= k + 1)%nat;
  ms_kind : Forall main_kind L;
  ms_dom : Forall (fun b => In (bi_difficulty (get_info b)) domain) L;
  ms_refs : forall h, sled_get h (mc_refs (t_main t)) = refs_of L h;
  ms_txs : forall h, sled_get h (mc_txs (t_main t)) = option_map tx_dump (in_txs h X);
  ms_txwf : Forall tx_wf X
}.
(** Accounts *)
Record lsim (t : bct) (n : anode) : Prop := {
  ls_amounts : holds (t_summary t) (n_amounts n);
  ls_gas : holds (t_gas t) (n_gas n);
  ls_old_amounts : holds (t_old_summary t) (n_old_amounts n);
  ls_old_gas : holds (t_old_gas t) (n_old_gas n)
}.
(** Derivative chains *)
Definition opened (w : bytes) (o : list bytes) : bool := existsb (bytes_eqb w) o.
Definition csim (k : nat) (t : bct) (C : list (bytes * side_chain)) (o : list bytes) (w : bytes) : Prop :=
  match assoc_get w (t_derivs t) with
  | Some c => opened w o = true /\ exists s, assoc_get w C = Some s /\ rep c s /\ (length (snd s) <= k)%nat
  | None => opened w o = false /\
      match assoc_get w C with
      | Some s => (exists d, assoc_get (hex_encode w) (t_closed t) = Some d /\ rep_disk d s) /\ (length (snd s) <= k)%nat
      | None => assoc_get (hex_encode w) (t_closed t) = None
      end
  end.
Record dsim (k : nat) (t : bct) (C : list (bytes * side_chain)) (o : list bytes) : Prop := {
  ds_nodup : NoDup (map fst (t_derivs t));
  ds_keys : forall w c, In (w, c) (t_derivs t) -> is_array 33 w;
  ds_chain : forall w, is_array 33 w -> csim k t C o w
}.
Record sim (k : nat) (t : bct) (n : anode) : Prop := {
  si_main : msim k t (n_blocks n) (n_txs n);
  si_led : lsim t n;
  si_deriv : dsim k t (n_chains n) (n_open n)
}.

Lemma msim_same k k' t t' L X : msim k t L X -> (k <= k')%nat -> t_main t' = t_main t -> msim k' t' L X.
Proof.
  intros [H1 H2 H3 H4 H5 H6 H7] Hk E. split; try assumption; [eapply tree_inv_main; eassumption|lia| |]; rewrite E; assumption.
Qed.
Lemma msim_ext k t t' L X : msim k t L X -> mc_height (t_main t') = mc_height (t_main t) -> mc_difficulty (t_main t') = mc_difficulty (t_main t) ->
  cur (mc_blocks (t_main t')) = cur (mc_blocks (t_main t)) -> cur (mc_refs (t_main t')) = cur (mc_refs (t_main t)) ->
  cur (mc_txs (t_main t')) = cur (mc_txs (t_main t)) -> msim k t' L X.
Proof.
  intros [H1 H2 H3 H4 H5 H6 H7] E1 E2 E3 E4 E5. split; try assumption.
  - apply (tree_inv_ext t); try assumption; intros h; unfold sled_get; [rewrite E3|rewrite E4]; reflexivity.
  - intros h. unfold sled_get. rewrite E4. apply H5.
  - intros h. unfold sled_get. rewrite E5. apply H6.
Qed.
Lemma csim_mono k k' t t' C o w : csim k t C o w -> (k <= k')%nat -> t_derivs t' = t_derivs t -> t_closed t' = t_closed t -> csim k' t' C o w.
Proof.
  unfold csim. intros H Hk -> ->. destruct (assoc_get w (t_derivs t)).
  - destruct H as (H & s & H1 & H2 & H3). split; [exact H|]. exists s. repeat split; try assumption; try apply H2. lia.
  - destruct H as [H H1]. split; [exact H|]. destruct (assoc_get w C); [|exact H1]. destruct H1 as [H1 H2]. split; [exact H1|lia].
Qed.
Lemma dsim_same k k' t t' C o : dsim k t C o -> (k <= k')%nat -> t_derivs t' = t_derivs t -> t_closed t' = t_closed t -> dsim k' t' C o.
Proof.
  intros [H1 H2 H3] Hk E1 E2. split; rewrite ?E1; try assumption. intros w Hw. eapply csim_mono; [apply H3, Hw|exact Hk|exact E1|exact E2].
Qed.
Lemma lsim_same t t' n n' : lsim t n -> t_summary t' = t_summary t -> t_gas t' = t_gas t -> t_old_summary t' = t_old_summary t -> t_old_gas t' = t_old_gas t ->
  n_amounts n' = n_amounts n -> n_gas n' = n_gas n -> n_old_amounts n' = n_old_amounts n -> n_old_gas n' = n_old_gas n -> lsim t' n'.
Proof. intros [H1 H2 H3 H4] E1 E2 E3 E4 F1 F2 F3 F4. split; congruence. Qed.

Lemma msim_append k t L X b : msim k t L X -> N.of_nat k + 2 < 2 ^ 256 -> block_wf b -> main_kind b -> In (bi_difficulty (get_info b)) domain ->
  bi_height (get_info b) = N.of_nat (length L) -> msim (S k) (with_main t (mc_appended b (t_main t))) (L ++ [b]) X.
Proof.
  intros [H1 H2 H3 H4 H5 H6 H7] Hk Hw Hm Hd Hh. pose proof (mi_height _ _ (ti_main _ _ H1)) as Hl. split; try assumption.
  - apply tree_inv_append; [exact H1|exact Hw|congruence|lia].
  - rewrite app_length. cbn [length]. lia.
  - apply Forall_app. split; [exact H3|]. constructor; [exact Hm|constructor].
  - apply Forall_app. split; [exact H4|]. constructor; [exact Hd|constructor].
  - intros h. cbn [with_main t_main mc_appended mc_refs]. rewrite sled_get_insert. unfold refs_of. rewrite by_hash_snoc.
    destruct (bytes_eqb h (block_hash b)); [cbn [option_map]; congruence|apply H5].
Qed.
Lemma msim_tx k t L X x : msim k t L X -> tx_wf x -> msim k (with_main t (mc_add_transaction x (t_main t))) L (x :: X).
Proof.
  intros [H1 H2 H3 H4 H5 H6 H7] Hx. split; try assumption.
  - apply (tree_inv_ext t); [exact H1|reflexivity..].
  - intros h. cbn [with_main t_main mc_add_transaction mc_txs in_txs find]. rewrite sled_get_insert. unfold in_txs. cbn [find].
    destruct (bytes_eqb h (sha256 (tx_dump x))); [reflexivity|apply H6].
  - constructor; assumption.
Qed.
Lemma msim_txs k xs : forall t L X, msim k t L X -> Forall tx_wf xs -> msim k (with_main t (mc_add_transactions xs (t_main t))) L (rev xs ++ X).
Proof.
  induction xs as [|x xs IH]; intros t L X H Hx.
  - apply (msim_same k k t); [exact H|lia|]. reflexivity.
  - inversion Hx; subst. cbn [rev]. rewrite <- app_assoc. cbn [app].
    exact (IH (with_main t (mc_add_transaction x (t_main t))) L (x :: X) (msim_tx k t L X x H H2) H3).
Qed.

(** ** Reading the main chain *)
Lemma msim_readable k t L X b : msim k t L X -> N.of_nat k + 1 < 2 ^ 256 -> In b L -> readable b.
Proof.
  intros H Hk Hb. apply In_nth_error in Hb as (i & Hb).
  assert (Hb' : nthN L (N.of_nat i) = Some b) by (unfold nthN; rewrite Nnat.Nat2N.id; exact Hb).
  pose proof (ms_len _ _ _ _ H) as Hl.
  destruct (tree_readable t L _ _ (ms_tree _ _ _ _ H) ltac:(lia) Hb') as [R|(x & ->)]; [exact R|].
  pose proof (ms_kind _ _ _ _ H) as K. rewrite Forall_forall in K. destruct (K _ (nthN_in _ _ _ Hb')).
Qed.
Lemma last_default {A} (l : list A) d d' : l <> [] -> last l d = last l d'.
Proof. intros H. destruct (exists_last H) as (l' & x & ->). rewrite !last_last. reflexivity. Qed.
Lemma n_last_eq n : n_last n = last (n_blocks n) genesis.
Proof. unfold n_last. rewrite first_is_genesis. reflexivity. Qed.
Lemma sim_ne k t n : sim k t n -> n_blocks n <> [].
Proof. intros H. eapply tree_inv_ne, ms_tree, si_main, H. Qed.
Lemma sim_last_in k t n : sim k t n -> In (n_last n) (n_blocks n).
Proof. intros H. unfold n_last. apply last_in. eapply sim_ne, H. Qed.
Lemma sim_last k t n : sim k t n -> N.of_nat k + 1 < 2 ^ 256 -> mc_get_last_block (t_main t) = Ok (Some (n_last n)).
Proof.
  intros H Hk. pose proof (sim_last_in k t n H) as Hi. pose proof (ms_len _ _ _ _ (si_main _ _ _ H)).
  unfold n_last in *. apply main_last_block; [exact (ti_main _ _ (ms_tree _ _ _ _ (si_main _ _ _ H)))|eapply sim_ne, H|lia|].
  eapply msim_readable; [apply (si_main _ _ _ H)|exact Hk|exact Hi].
Qed.
Lemma sim_last_facts k t n : sim k t n -> N.of_nat k + 1 < 2 ^ 256 ->
  In (bi_difficulty (get_info (n_last n))) domain /\ info_wf (get_info (n_last n)) /\
  bi_height (get_info (n_last n)) + 1 = mc_height (t_main t) /\ mc_height (t_main t) = n_height n /\ n_height n <= N.of_nat k + 1.
Proof.
  intros H Hk. pose proof (si_main _ _ _ H) as M. pose proof (sim_last_in k t n H) as Hi.
  pose proof (ms_dom _ _ _ _ M) as D. rewrite Forall_forall in D. split; [apply D, Hi|].
  destruct (tree_last_height t _ (ms_tree _ _ _ _ M)) as [Hh Hw]. rewrite n_last_eq.
  split; [apply block_info_wf, Hw|]. split; [exact Hh|]. pose proof (ms_len _ _ _ _ M). unfold n_height.
  split; [apply (mi_height _ _ (ti_main _ _ (ms_tree _ _ _ _ M)))|lia].
Qed.
Lemma sim_hash k t n h : sim k t n -> N.of_nat k + 1 < 2 ^ 256 ->
  mc_find_raw_by_hash h (t_main t) = Ok (option_map block_dump (block_by_hash h (n_blocks n))) /\
  mc_find_by_hash h (t_main t) = Ok (block_by_hash h (n_blocks n)).
Proof.
  intros H Hk. pose proof (si_main _ _ _ H) as M. pose proof (ms_len _ _ _ _ M) as Hl.
  assert (R : mc_find_raw_by_hash h (t_main t) = Ok (option_map block_dump (block_by_hash h (n_blocks n)))).
  { unfold mc_find_raw_by_hash. rewrite (ms_refs _ _ _ _ M). unfold refs_of.
    destruct (block_by_hash h (n_blocks n)) as [b|] eqn:E; cbn [option_map]; [|reflexivity].
    rewrite height_key_length. cbn [Nat.ltb Nat.leb]. apply by_hash_in in E as [E _]. apply In_nth_error in E as (j & E).
    assert (E' : nthN (n_blocks n) (N.of_nat j) = Some b) by (unfold nthN; rewrite Nnat.Nat2N.id; exact E).
    rewrite (mi_heights _ _ (ti_main _ _ (ms_tree _ _ _ _ M)) _ _ E'). pose proof (nthN_some _ _ _ E') as Hj.
    rewrite from_height_key by lia. rewrite (main_find_raw _ (n_blocks n)); [|apply (ms_tree _ _ _ _ M)|lia].
    rewrite E'. reflexivity. }
  split; [exact R|]. unfold mc_find_by_hash. rewrite R. cbn [bind].
  destruct (block_by_hash h (n_blocks n)) as [b|] eqn:E; [|reflexivity]. apply by_hash_in in E as [E _].
  apply readable_decode. eapply msim_readable; eassumption.
Qed.

Lemma get_tx_dump h m tx : tx_wf tx -> mc_get_transaction_raw h m = Some (tx_dump tx) -> mc_get_transaction h m = Ok (Some (reread tx)).
Proof.
  intros Hw E. unfold mc_get_transaction. rewrite E.
  assert (E1 : hd 10 (tx_dump tx) = 0) by (rewrite tx_dump_eq; reflexivity). rewrite E1. cbn [negb header_code N.eqb].
  assert (Es : slice_from (tx_dump tx) 1 = Ok (tl (tx_dump tx))) by (rewrite tx_dump_eq; reflexivity).
  rewrite Es. cbn [bind]. rewrite tx_parse_dump by exact Hw. cbn [change_context bind]. do 2 f_equal.
  unfold reread. rewrite (tx_eta (tx_new_signed _ _ _ _ _ _)) by reflexivity. unfold tx_new_of, tx_new_signed. cbn.
  destruct (tx_data tx) as [[|b d]|] eqn:Ed; cbn [norm_data]; f_equal; f_equal; unfold tx_dump; cbn; rewrite ?Ed; reflexivity.
Qed.

Lemma sim_summarize k t n : sim k t n -> t_summarize t = Ok (root_of (summary_leaves n)).
Proof.
  intros H. destruct (si_led _ _ _ H) as [[A1 A2] [G1 G2] _ _]. rewrite summarize_ok, root_of_mroot. do 2 f_equal.
  unfold sled_iter. rewrite A1. unfold encl, summary_leaves. rewrite map_map. apply map_ext. intros [w x]. cbn [fst snd].
  f_equal. unfold summary_entry, leaf_text, sled_get. rewrite G1, encl_get. destruct (entry w (n_gas n)); reflexivity.
Qed.

(** ** Ledger calls *)
Lemma sim_amounts k t n call f : sim k t n -> does call f ->
  let '(t', r) := ret_unit (t_on_summary call t) in let '(n', a) := do_amounts f n in sim (S k) t' n' /\ same_answer r a.
Proof.
  intros [M L D] Hd. pose proof (Hd _ _ (ls_amounts _ _ L)) as X. unfold t_on_summary, do_amounts, ret_unit.
  destruct (f (n_amounts n)) as [l|].
  - destruct X as (s' & -> & Hs). cbn [fst snd bind]. split; [|exact I]. split.
    + eapply msim_same; [exact M|lia|reflexivity].
    + destruct L. split; assumption.
    + eapply dsim_same; [exact D|lia|reflexivity..].
  - rewrite X. cbn [fst snd bind]. split; [|exact I]. split.
    + eapply msim_same; [exact M|lia|reflexivity].
    + destruct L. split; assumption.
    + eapply dsim_same; [exact D|lia|reflexivity..].
Qed.
Lemma sim_gas k t n call f : sim k t n -> does call f ->
  let '(t', r) := ret_unit (t_on_gas call t) in let '(n', a) := do_gas f n in sim (S k) t' n' /\ same_answer r a.
Proof.
  intros [M L D] Hd. pose proof (Hd _ _ (ls_gas _ _ L)) as X. unfold t_on_gas, do_gas, ret_unit.
  destruct (f (n_gas n)) as [l|].
  - destruct X as (s' & -> & Hs). cbn [fst snd bind]. split; [|exact I]. split.
    + eapply msim_same; [exact M|lia|reflexivity].
    + destruct L. split; assumption.
    + eapply dsim_same; [exact D|lia|reflexivity..].
  - rewrite X. cbn [fst snd bind]. split; [|exact I]. split.
    + eapply msim_same; [exact M|lia|reflexivity].
    + destruct L. split; assumption.
    + eapply dsim_same; [exact D|lia|reflexivity..].
Qed.
Lemma sim_idle k t n : sim k t n -> sim (S k) t n.
Proof.
  intros [M L D]. split; [eapply msim_same; [exact M|lia|reflexivity]|exact L|eapply dsim_same; [exact D|lia|reflexivity..]].
Qed.

Lemma sim_send k t n tx : sim k t n -> N.of_nat k + 2 < 2 ^ 256 -> tx_wf tx -> N.of_nat (length (tx_dump tx)) < 2 ^ 63 ->
  let '(t', r) := ret_unit (t_send_transaction tx t) in let '(n', a) := n_send tx n in sim (S k) t' n' /\ same_answer r a.
Proof.
  intros H Hk Hw Hsz. pose proof H as [M L D]. pose proof (sim_idle _ _ _ H) as Hidle.
  unfold ret_unit, t_send_transaction, n_send, t_get_gas, t_get_amount.
  rewrite (holds_get _ _ _ (ls_gas _ _ L)), (holds_get _ _ _ (ls_amounts _ _ L)). cbn [bind].
  rewrite (tx_dump_size tx Hw).
  replace (N.of_nat (length (tx_dump tx) + (if tx_amount tx =? 0 then 1 else 0))) with (N.of_nat (length (tx_dump tx)) + (if tx_amount tx =? 0 then 1 else 0))
    by (destruct (tx_amount tx =? 0); lia).
  set (size := N.of_nat (length (tx_dump tx)) + (if tx_amount tx =? 0 then 1 else 0)).
  assert (Hs : size < 2 ^ 64) by (unfold size; destruct (tx_amount tx =? 0); lia).
  assert (Hm : u256_mul BYTE_GAS_PRICE size = Ok (gas_for size)).
  { unfold u256_mul, gas_for, BYTE_GAS_PRICE. assert (Hl : 625000000000 * size < 2 ^ 256) by lia.
    apply N.ltb_lt in Hl. rewrite Hl. reflexivity. }
  rewrite Hm. cbn [bind]. clearbody size. set (gas := gas_for size).
  destruct (held (tx_sender tx) (n_gas n) <? gas) eqn:Eg; cbn [bind fst snd]; [split; [exact Hidle|reflexivity]|].
  rewrite (sim_last k t n H) by lia. cbn [bind unwrap_opt].
  destruct (sim_last_facts k t n H) as (Hd & (_ & _ & _ & _ & [Hdl Hdo] & _) & _); [lia|].
  destruct (fee_eq (bi_difficulty (get_info (n_last n)))) as [Hfee _]; [lia|]. rewrite Hfee, clz_spec by exact Hdo. cbn [bind].
  fold (fee_after (n_last n)). set (fee := fee_after (n_last n)).
  unfold u256_add. rewrite (N.leb_antisym (fee + tx_amount tx) (2 ^ 256)).
  destruct (fee + tx_amount tx <? 2 ^ 256) eqn:Ea; cbn [bind fst snd negb]; [|split; [exact Hidle|reflexivity]].
  destruct (held (tx_sender tx) (n_amounts n) <? fee + tx_amount tx) eqn:Eb; cbn [bind fst snd]; [split; [exact Hidle|reflexivity]|].
  cbn [with_txs n_amounts n_gas].
  set (t1 := with_main t (mc_add_transaction tx (t_main t))).
  assert (M1 : msim (S k) t1 (n_blocks n) (tx :: n_txs n)).
  { apply (msim_same k (S k) t1); [apply msim_tx; assumption|lia|reflexivity]. }
  assert (Hpay : forall t2 l, t_main t2 = t_main t1 -> t_gas t2 = t_gas t -> t_old_summary t2 = t_old_summary t -> t_old_gas t2 = t_old_gas t ->
     t_derivs t2 = t_derivs t -> t_closed t2 = t_closed t -> holds (t_summary t2) l ->
     let '(t', r) := (let '(x, y) := t_sub_gas (tx_sender tx) gas t2 in (x, let! _ := y in Ok RUnit)) in
     sim (S k) t' (with_amounts (with_gases (with_txs n (tx :: n_txs n)) (put (tx_sender tx) (held (tx_sender tx) (n_gas n) - gas) (n_gas n))) l) /\
     r = Ok RUnit).
  { intros t2 l E1 E2 E3 E4 E5 E6 Hl. unfold t_sub_gas, t_on_gas. rewrite E2.
    pose proof (does_sub (tx_sender tx) gas _ _ (ls_gas _ _ L)) as G. unfold take in G.
    apply N.ltb_ge in Eg. apply N.leb_le in Eg. rewrite Eg in G. destruct G as (s' & -> & Hs'). cbn [bind]. split; [|reflexivity].
    split; cbn [n_blocks n_txs n_chains n_open with_amounts with_gases with_txs].
    - eapply msim_same; [exact M1|lia|]. exact E1.
    - destruct L. split; cbn; rewrite ?E3, ?E4; assumption.
    - eapply dsim_same; [exact D|lia| |]; cbn; assumption. }
  unfold t_send_amount. destruct (bytes_eqb (tx_sender tx) (tx_receiver tx)) eqn:Esr.
  - specialize (Hpay t1 (n_amounts n) eq_refl eq_refl eq_refl eq_refl eq_refl eq_refl (ls_amounts _ _ L)).
    destruct (t_sub_gas (tx_sender tx) gas t1) as [t' r]. cbn [fst snd]. destruct Hpay as [P1 ->]. split; [|exact I].
    destruct P1 as [P1 P2 P3]. split; [exact P1|destruct P2; split; assumption|exact P3].
  - pose proof (does_send (tx_sender tx) (tx_receiver tx) (tx_amount tx) (t_summary t1) (n_amounts n) (ls_amounts _ _ L)) as S.
    unfold t_on_summary. destruct (move _ _ _ (n_amounts n)) as [l|].
    + destruct S as (s' & -> & Hs').
      specialize (Hpay (with_summary t1 s') l eq_refl eq_refl eq_refl eq_refl eq_refl eq_refl Hs').
      destruct (t_sub_gas (tx_sender tx) gas (with_summary t1 s')) as [t' r]. cbn [fst snd]. destruct Hpay as [P1 ->]. split; [exact P1|exact I].
    + rewrite S. cbn [fst snd bind]. split; [|exact I]. split; cbn [n_blocks n_txs n_chains n_open with_txs].
      * eapply msim_same; [exact M1|lia|reflexivity].
      * destruct L. split; assumption.
      * eapply dsim_same; [exact D|lia|reflexivity..].
Qed.

(** ** Emission on the main chain *)
Lemma sim_emit p k t n pow founder txs ts : sim k t n -> N.of_nat k + 2 < 2 ^ 256 ->
  is_array 32 pow -> is_array 33 founder -> Forall (is_array 32) txs -> u64_ok ts ->
  let '(t', r) := ret_block (t_emmit_new_main_block p pow founder txs ts t) in let '(n', a) := n_emit p pow founder txs ts n in
  sim (S k) t' n' /\ same_answer r a.
Proof.
  intros H Hk Hpow Hf Ht Hts. pose proof H as [M L D]. pose proof (sim_idle _ _ _ H) as Hidle.
  destruct (sim_last_facts k t n H) as (Hd & Hw & Hh & Hhn & Hkn); [lia|]. pose proof Hw as (Hpts & _ & _ & _ & [Hdl Hdo] & _).
  unfold ret_block, t_emmit_new_main_block, n_emit, n_header. rewrite (sim_last k t n H) by lia. cbn [bind unwrap_opt].
  set (prev := n_last n) in *. rewrite check_pow_eq. cbn [bind]. rewrite root_of_mroot, (work_bool _ _ _ _ Hdo).
  destruct (enough_work (block_hash prev) (bi_difficulty (get_info prev)) (mroot txs) pow); cbn [negb fst snd bind]; [|split; [exact Hidle|reflexivity]].
  rewrite (recalc_target p _ ts _ Hd Hpts). destruct (seconds p _ ts) as [sec|]; cbn [bind fst snd]; [|split; [exact Hidle|reflexivity]].
  pose proof (target_domain p (sec ?= 600) _ Hd) as Hdd. set (d := to_be 32 _) in *. pose proof (domain_ok d Hdd) as [[Hdl' Hdo'] _].
  destruct (fee_eq d) as [Hfe Hfb]; [lia|]. rewrite Hfe. cbn [bind].
  assert (Ha : u256_add (bi_height (get_info prev)) 1 = Ok (n_height n)).
  { unfold u256_add. destruct (N.ltb_spec (bi_height (get_info prev) + 1) (2 ^ 256)) as [_|]; [|lia]. congruence. }
  rewrite Ha. cbn [bind bi_height]. change BLOCKS_PER_EPOCH with 1000000.
  set (info := MkInfo ts pow (block_hash prev) (n_height n) d founder).
  assert (Hi : info_wf info).
  { split; [exact Hts|]. split; [exact Hpow|]. split; [apply sha_ok|]. split; [unfold u256_ok; cbn; lia|]. split; [split; assumption|exact Hf]. }
  destruct (n_height n mod 1000000 =? 0).
  - destruct txs as [|x txs]; cbn [fst snd bind]; [|split; [exact Hidle|reflexivity]].
    rewrite (sim_summarize k t n H). set (root := root_of (summary_leaves n)).
    change (t_set_amount ROOT_PUBLIC_ADDRESS COINS_PER_CYCLE (t_rotate_dbs t)) with (rotated t, @Ok unit tt). cbv beta zeta iota.
    rewrite mc_add_block_right; [|cbn [get_info bi_height info]; change (mc_height (t_main (rotated t))) with (mc_height (t_main t)); lia|
      change (mc_height (t_main (rotated t))) with (mc_height (t_main t)); lia].
    cbn [fst snd bind]. split; [|reflexivity]. split; cbn [n_blocks n_txs n_chains n_open].
    + apply (msim_append k (rotated t)); try assumption; try exact I; try reflexivity.
      * apply (msim_ext k t); [exact M|reflexivity..].
      * split; [exact Hi|]. unfold root. rewrite root_of_mroot. apply mroot_array.
    + destruct L as [L1 L2 L3 L4]. split; cbn [n_amounts n_gas n_old_amounts n_old_gas with_main rotated with_summary t_rotate_dbs t_flush t_summary t_gas t_old_summary t_old_gas].
      * apply holds_commit1; [apply holds_flush, L1|reflexivity].
      * apply holds_flush, L2.
      * apply holds_flush, holds_flush, L1.
      * apply holds_flush, holds_flush, L2.
    + eapply dsim_same; [exact D|lia|reflexivity..].
  - destruct txs as [|x txs]; cbn [fst snd bind]; [split; [exact Hidle|reflexivity]|].
    pose proof (mroot_ok (x :: txs)) as Hrt. rewrite Hrt, (clz_spec d Hdo').
    rewrite mc_add_block_right; [|cbn [get_info bi_height info]; lia|lia].
    cbn [fst snd bind]. split; [|reflexivity]. split; cbn [n_blocks n_txs n_chains n_open with_blocks].
    + apply msim_append; try assumption; try exact I; try reflexivity.
      split; [|split; [apply mroot_array|split; [exact Hi|exact Ht]]].
      rewrite (clz_spec d Hdo') in Hfb. apply (N.le_lt_trans _ 16000000 _ Hfb). reflexivity.
    + destruct L. split; assumption.
    + eapply dsim_same; [exact D|lia|reflexivity..].
Qed.

(** ** Derivative chains *)
Lemma opened_cons w o w' : opened w' (w :: o) = (bytes_eqb w' w || opened w' o)%bool.
Proof. reflexivity. Qed.
Lemma dsim_set k t C o w c s : dsim k t C o -> is_array 33 w -> rep c s -> (length (snd s) <= k)%nat ->
  dsim k (with_derivs t (assoc_set w c (t_derivs t))) (assoc_set w s C) (w :: o).
Proof.
  intros [H1 H2 H3] Hw Hr Hl. split; cbn [with_derivs t_derivs].
  - apply assoc_set_nodup, H1.
  - intros w' c' Hi. apply assoc_set_in in Hi as [E|Hi]; [apply pair_inv in E as [-> ->]; exact Hw|eapply H2, Hi].
  - intros w' Hw'. unfold csim. cbn [with_derivs t_derivs t_closed]. rewrite !assoc_get_set, opened_cons.
    destruct (bytes_eqb w' w) eqn:E.
    + split; [reflexivity|]. exists s. auto.
    + cbn [orb]. exact (H3 w' Hw').
Qed.

(** The state in which the chain of [w] is open. *)
Lemma sim_get k t n w : sim k t n -> N.of_nat k + 2 < 2 ^ 256 -> is_array 33 w ->
  exists c, snd (t_get_derivative_chain w t) = Ok c /\ rep c (n_chain w n) /\ (length (snd (n_chain w n)) <= k)%nat /\
    assoc_get w (t_derivs (fst (t_get_derivative_chain w t))) = Some c /\
    sim k (fst (t_get_derivative_chain w t)) (with_chain n w (n_chain w n)).
Proof.
  intros H Hk Hw. pose proof H as [M L D]. pose proof (ds_chain _ _ _ _ D w Hw) as C. unfold csim in C.
  assert (Hopen : forall c, rep c (n_chain w n) -> (length (snd (n_chain w n)) <= k)%nat ->
    sim k (with_derivs t (assoc_set w c (t_derivs t))) (with_chain n w (n_chain w n))).
  { intros c Hc Hl. split; [eapply msim_same; [exact M|lia|reflexivity]|destruct L; split; assumption|].
    apply dsim_set; assumption. }
  unfold t_get_derivative_chain. destruct (assoc_get w (t_derivs t)) as [c|] eqn:E.
  - destruct C as (Ho & s & Hs & Hr & Hl). exists c. cbn [fst snd].
    assert (Hn : n_chain w n = s) by (unfold n_chain; rewrite Hs; reflexivity). rewrite Hn in *. clear Hopen.
    split; [reflexivity|]. split; [exact Hr|]. split; [exact Hl|]. split; [exact E|].
    split; [exact M|destruct L; split; assumption|]. destruct D as [D1 D2 D3]. split; [exact D1|exact D2|].
    intros w' Hw'. cbn [with_chain n_chains n_open]. unfold csim. rewrite assoc_get_set, opened_cons.
    destruct (bytes_eqb w' w) eqn:E'.
    + apply bytes_eqb_eq in E' as ->. rewrite E. split; [reflexivity|]. exists s. auto.
    + exact (D3 w' Hw').
  - rewrite (sim_last k t n H) by lia. cbn [bind unwrap_opt]. destruct C as [_ C].
    destruct (assoc_get w (n_chains n)) as [s|] eqn:Es.
    + destruct C as [(d & Hd & Hr) Hl]. rewrite Hd.
      assert (Hn : n_chain w n = s) by (unfold n_chain; rewrite Es; reflexivity). rewrite Hn in *.
      destruct (rep_opened d s (block_hash (n_last n)) Hr) as (c & -> & Hc); [lia|]. exists c. cbn [fst snd with_derivs t_derivs].
      rewrite assoc_get_set, bytes_eqb_refl. auto 8.
    + rewrite C. assert (Hn : n_chain w n = (block_hash (n_last n), [])) by (unfold n_chain; rewrite Es; reflexivity). rewrite Hn in *.
      rewrite dc_new_absent by reflexivity. cbn [dd_blocks dd_refs dd_cfg deriv_disk_empty]. eexists. cbn [fst snd with_derivs t_derivs].
      rewrite assoc_get_set, bytes_eqb_refl. split; [reflexivity|].
      assert (R : rep (MkDeriv sled_empty sled_empty 0 (block_hash (n_last n)) BEGINNING_DIFFICULTY file_absent) (block_hash (n_last n), [])) by apply rep_new, sha_ok.
      split; [exact R|]. split; [cbn; lia|]. split; [reflexivity|]. apply Hopen; [exact R|cbn; lia].
Qed.

Lemma assoc_set_set {A} k (v v' : A) l : assoc_set k v' (assoc_set k v l) = assoc_set k v' l.
Proof.
  induction l as [|[a x] l IH]; cbn [assoc_set].
  - rewrite bytes_eqb_refl. reflexivity.
  - destruct (bytes_eqb k a) eqn:E; cbn [assoc_set]; [rewrite bytes_eqb_refl; reflexivity|rewrite E, IH; reflexivity].
Qed.

Lemma header_code p h d a height txs pow founder ts : In d domain -> u64_ok a ->
  (let! ok := check_pow h d txs pow in
   if negb ok then Err ETreeWrongPow
   else let! d' := recalculate_difficulty p a ts d in Ok (MkInfo ts pow h height d' founder)) =
  n_header p h d a height (root_of txs) pow founder ts.
Proof.
  intros Hd Ha. unfold n_header. pose proof (domain_ok d Hd) as [[_ Hdo] _]. rewrite check_pow_eq. cbn [bind].
  rewrite root_of_mroot, (work_bool _ _ _ _ Hdo). destruct (enough_work _ _ _ _); cbn [negb]; [|reflexivity].
  rewrite (recalc_target p a ts d Hd Ha). destruct (seconds p a ts); reflexivity.
Qed.
Lemma header_wf p h d a height root pow founder ts i : In d domain -> is_array 32 h -> u256_ok height -> is_array 32 pow -> is_array 33 founder -> u64_ok ts ->
  n_header p h d a height root pow founder ts = Ok i -> info_wf i /\ In (bi_difficulty i) domain /\ bi_height i = height.
Proof.
  intros Hd Hh Hht Hp Hf Hts. unfold n_header. destruct (enough_work _ _ _ _); cbn [negb]; [|discriminate].
  destruct (seconds p a ts) as [s|]; [|discriminate]. intros E. apply ok_inj in E. subst i. cbn [bi_difficulty bi_height].
  pose proof (target_domain p (s ?= 600) d Hd) as Hdd. pose proof (domain_ok _ Hdd) as [Hda _].
  split; [|split; [exact Hdd|reflexivity]]. repeat split; cbn; try assumption; try apply Hp; try apply Hh; try apply Hf; try apply Hda.
Qed.
