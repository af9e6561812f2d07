(** Facts about the ledgers in histories with faults, crashes and failing openings. *)
From Coq Require Import Lia ZifyBool ZifyNat ZifyN.
From Verif Require Import Base Sha256 Merkle Tools Transaction Block Sled Chain Tree Spec Reach LedgerSpec SupplySpec QuietSpec Conc ConcTree ConcFlush ConcEmit Cancel ConcDeriv CrashSpec Io IoSpec LifeSpec Demo.
From Verif Require Import BaseFacts ToolsFacts MerkleFacts DiffFacts CodecFacts SledFacts ChainFacts TreeFacts LedgerFacts CrashFacts ConcFacts EmitFacts IoFacts IoSure DcrashProps LifeFacts.

Local Strategy 1000 [u256_mul u256_add u256_sub BYTE_GAS_PRICE t_get_amount t_get_gas mc_decode dc_decode recalculate_fee recalculate_difficulty t_send_amount t_sub_gas sled_get check_pow emit_block next_info dc_new mc_read_config genesis_block].

(** ** How a call changes the ledgers *)
Section Frame.
Variable T : sled -> sled -> Prop.
Let I (h : host) : Prop := T (t_summary (h_tree h)) (t_gas (h_tree h)).
Lemma lf_same h t : I h -> t_summary t = t_summary (h_tree h) -> t_gas t = t_gas (h_tree h) -> I (with_host h t).
Proof. unfold I. intros H E1 E2. cbn [with_host h_tree]. rewrite E1, E2. exact H. Qed.
Lemma lf_tree {A} (e : out A) f : (forall t, t_summary (fst (f t)) = t_summary t /\ t_gas (fst (f t)) = t_gas t) -> stays I (tree_op e f).
Proof. intros H. apply s_op. intros s A1. apply lf_same; [exact A1| |]; apply H. Qed.
Lemma lf_mop e f : stays I (main_op e f). Proof. apply lf_tree. split; reflexivity. Qed.
Lemma lf_dop e w f : stays I (deriv_op e w f). Proof. apply lf_tree. split; reflexivity. Qed.
Lemma lf_write b d : stays I (write_cfg_io b d).
Proof. intros fs s A. unfold write_cfg_io. destruct (next_fault fs); cbn [fst snd]; (apply lf_same; [exact A|reflexivity..]). Qed.
Lemma lf_dwrite b w d : stays I (write_dcfg_io b w d).
Proof. intros fs s A. unfold write_dcfg_io. destruct (next_fault fs); cbn [fst snd]; (apply lf_same; [exact A|reflexivity..]). Qed.
Lemma lf_find e i : stays I (find_raw_io e i). Proof. unfold find_raw_io. stay. Qed.
Lemma lf_last : stays I last_block_io. Proof. unfold last_block_io. stay. apply lf_find. Qed.
Lemma lf_byhash x : stays I (find_by_hash_io x). Proof. unfold find_by_hash_io. stay. apply lf_find. Qed.
Lemma lf_tx tx : stays I (add_tx_io tx). Proof. apply lf_mop. Qed.
Lemma lf_txs txs : stays I (add_txs_io txs). Proof. induction txs; cbn [add_txs_io]; stay; apply lf_tx. Qed.
Lemma lf_mflush : stays I main_flush_io. Proof. unfold main_flush_io. stay; first [apply lf_mop|apply lf_write]. Qed.
Lemma lf_add b : stays I (add_block_io b).
Proof. unfold add_block_io, main_put. stay; first [apply lf_mop|apply lf_same; [assumption|reflexivity..]]. Qed.
Lemma lf_newblock b l : stays I (add_new_block_io b l). Proof. unfold add_new_block_io. stay; first [apply lf_add|apply lf_txs]. Qed.
Lemma lf_dlast w : stays I (deriv_last_io w). Proof. unfold deriv_last_io. stay. Qed.
Lemma lf_dnew d x : stays I (deriv_new_io d x). Proof. unfold deriv_new_io. stay. Qed.
Lemma lf_gderiv w : stays I (get_deriv_io w).
Proof. unfold get_deriv_io. stay; first [apply lf_last|apply lf_dnew|apply lf_same; [assumption|reflexivity..]]. Qed.
Lemma lf_dadd w i : stays I (deriv_add_io w i).
Proof. unfold deriv_add_io, deriv_put. stay; first [apply lf_dop|apply lf_same; [assumption|reflexivity..]]. Qed.
Lemma lf_dflush w : stays I (deriv_flush_io w). Proof. unfold deriv_flush_io. stay; first [apply lf_dop|apply lf_dwrite]. Qed.
Lemma lf_demit p w f ts : stays I (emit_deriv_io p w f ts).
Proof. unfold emit_deriv_io. stay; first [apply lf_gderiv|apply lf_dlast|apply lf_byhash|apply lf_last|apply lf_dadd]. Qed.
Hypothesis Fs : forall s g, T s g -> T (sled_flush s) g.
Hypothesis Fg : forall s g, T s g -> T s (sled_flush g).
Lemma lf_flush : stays I flush_io.
Proof.
  unfold flush_io, flush_op. apply s_bind; [apply lf_mflush|intros _]. apply s_bind; [apply s_op; intros s A; apply Fs, A|intros _]. apply s_bind; [apply lf_tree; auto|intros _].
  apply s_bind; [apply s_op; intros s A; apply Fg, A|intros _]. apply lf_tree; auto.
Qed.
Lemma lf_rotate : stays I rotate_io.
Proof.
  unfold rotate_io, remove_dir_io, create_dir_io. stay; try apply lf_flush; try (apply lf_same; [assumption|reflexivity..]); match goal with |- context [if ?c then _ else _] => destruct c end; assumption.
Qed.
End Frame.

(** At most one commit, perhaps after a flush. *)
Definition evo (s s' : sled) : Prop := s' = s \/ s' = sled_flush s \/ exists b, s' = sled_commit b s \/ s' = sled_commit b (sled_flush s).
Definition same_or_flushed (s s' : sled) : Prop := s' = s \/ s' = sled_flush s.
Lemma sof_refl s : same_or_flushed s s. Proof. left. reflexivity. Qed.
Lemma sof_flush s s' : same_or_flushed s s' -> same_or_flushed s (sled_flush s'). Proof. intros [->| ->]; right; reflexivity. Qed.
Lemma sof_evo s s' : same_or_flushed s s' -> evo s s'. Proof. unfold evo. intros [->| ->]; auto. Qed.
Lemma sof_commit s s' b : same_or_flushed s s' -> evo s (sled_commit b s'). Proof. intros [->| ->]; right; right; exists b; auto. Qed.
Definition small (F : sled -> sled * out unit) : Prop := forall s, fst (F s) = s \/ exists b, fst (F s) = sled_commit b s.
Lemma small_tx (f : sled -> out (list (bytes * bytes))) : small (fun s => led_tx s (f s)).
Proof. intros s. unfold led_tx. destruct (f s); cbn [fst]; eauto. Qed.
Lemma small_evo F s s' : small F -> same_or_flushed s s' -> evo s (fst (F s')).
Proof. intros Hf H. destruct (Hf s') as [->|(b & ->)]; [apply sof_evo, H|apply sof_commit, H]. Qed.
Definition bef (s g : sled) (h : host) : Prop := same_or_flushed s (t_summary (h_tree h)) /\ same_or_flushed g (t_gas (h_tree h)).
Definition mid (s g : sled) (h : host) : Prop := evo s (t_summary (h_tree h)) /\ same_or_flushed g (t_gas (h_tree h)).
Definition aft (s g : sled) (h : host) : Prop := evo s (t_summary (h_tree h)) /\ evo g (t_gas (h_tree h)).
Lemma bef_mid s g h : bef s g h -> mid s g h. Proof. intros [A B]. split; [apply sof_evo, A|exact B]. Qed.
Lemma mid_aft s g h : mid s g h -> aft s g h. Proof. intros [A B]. split; [exact A|apply sof_evo, B]. Qed.
Lemma bef_aft s g h : bef s g h -> aft s g h. Proof. intros H. apply mid_aft, bef_mid, H. Qed.
Lemma led_summary s g F : small F -> hoare (bef s g) (ledger_io (t_on_summary F)) (fun _ => mid s g).
Proof.
  intros Hf fs h [A B]. unfold ledger_io, tree_op, io_op, lift_tree. assert (X : mid s g (with_host h (fst (t_on_summary F (h_tree h))))).
  { unfold t_on_summary, mid. pose proof (small_evo F s _ Hf A) as E. destruct (F (t_summary (h_tree h))) as [s' r]. split; [exact E|exact B]. }
  destruct (next_fault fs) as [|[|k]]; cbn [fst snd]; first [exact X|apply bef_mid; split; assumption].
Qed.
Lemma led_gas s g F : small F -> hoare (mid s g) (ledger_io (t_on_gas F)) (fun _ => aft s g).
Proof.
  intros Hf fs h [A B]. unfold ledger_io, tree_op, io_op, lift_tree. assert (X : aft s g (with_host h (fst (t_on_gas F (h_tree h))))).
  { unfold t_on_gas, aft. pose proof (small_evo F g _ Hf B) as E. destruct (F (t_gas (h_tree h))) as [s' r]. split; [exact A|exact E]. }
  destruct (next_fault fs) as [|[|k]]; cbn [fst snd]; first [exact X|apply mid_aft; split; assumption].
Qed.
Lemma led_send_s s g a b x : hoare (bef s g) (send_amount_io a b x) (fun _ => mid s g).
Proof. unfold send_amount_io. destruct (bytes_eqb a b); [apply h_out; intros; apply bef_mid; assumption|]. apply led_summary. unfold led_send. apply small_tx. Qed.
Lemma u_unit (P : host -> Prop) (x : io host unit) (Q : host -> Prop) : hoare P x (fun _ => Q) -> hoare P (io_unit x) (fun _ => Q).
Proof. intros H fs s A. specialize (H fs s A). unfold io_unit, io_bind. destruct (x fs s) as [[f' s'] [a|e| |]]; exact H. Qed.
Lemma u_block (P : host -> Prop) (x : io host block) (Q : host -> Prop) : hoare P x (fun _ => Q) -> hoare P (io_block x) (fun _ => Q).
Proof. intros H fs s A. specialize (H fs s A). unfold io_block, io_bind. destruct (x fs s) as [[f' s'] [a|e| |]]; exact H. Qed.
Lemma led_step s g p o : hoare (bef s g) (io_step p o) (fun _ => aft s g).
Proof.
  assert (W : forall A (x : io host A), stays (bef s g) x -> hoare (bef s g) x (fun _ => aft s g)).
  { intros A x S. eapply h_weaken; [exact S|auto|intros r h; apply bef_aft]. }
  assert (Wm : forall A (x : io host A), hoare (bef s g) x (fun _ => mid s g) -> hoare (bef s g) x (fun _ => aft s g)).
  { intros A x S. eapply h_weaken; [exact S|auto|intros r h; apply mid_aft]. }
  assert (Wg : forall A (x : io host A), hoare (mid s g) x (fun _ => aft s g) -> hoare (bef s g) x (fun _ => aft s g)).
  { intros A x S. eapply h_weaken; [exact S|intros h; apply bef_mid|auto]. }
  assert (K : forall A (x : io host A) B (k : A -> io host B), stays (bef s g) x -> (forall a, hoare (bef s g) (k a) (fun _ => aft s g)) -> hoare (bef s g) (io_bind x k) (fun _ => aft s g)).
  { intros A x B k S H. eapply h_bind; [exact S|intros h; split; [|split]; intros; apply bef_aft; assumption|exact H]. }
  set (Z := fun a b => same_or_flushed s a /\ same_or_flushed g b).
  destruct o; cbn [io_step]; try apply u_unit; try apply u_block.
  - apply Wm, led_summary. unfold led_add. apply small_tx.
  - apply Wm, led_summary. unfold led_set. apply (small_tx (fun _ => _)).
  - apply Wm, led_summary. unfold led_sub. apply small_tx.
  - apply Wm, led_send_s.
  - apply Wg, led_gas. unfold led_add. apply small_tx.
  - apply Wg, led_gas. unfold led_sub. apply small_tx.
  - apply Wg, led_gas. unfold led_send. apply small_tx.
  - unfold send_tx_io, get_gas_io, get_amount_io.
    apply K; [apply (lf_tree Z); auto|intros gas]. apply K; [apply (lf_tree Z); auto|intros amount]. apply K; [apply s_out|intros gq]. destruct (gas <? gq); [apply W, s_out|].
    apply K; [apply (lf_last Z)|intros l]. apply K; [apply s_out|intros b]. apply K; [apply s_out|intros fee]. apply K; [apply s_out|intros need]. destruct (amount <? need); [apply W, s_out|].
    apply K; [apply (lf_tx Z)|intros u]. eapply h_bind; [apply led_send_s|intros h; split; [|split]; intros; apply mid_aft; assumption|intros u1]. apply led_gas. unfold led_sub. apply small_tx.
  - unfold emit_main_io. apply K; [apply s_mget|intros m]. apply K; [apply s_out|intros i]. apply K; [apply (lf_find Z)|intros d]. apply K; [apply s_get|intros n]. apply K; [apply s_out|intros b].
    eapply h_bind with (R := fun _ => mid s g); [|intros h; split; [|split]; intros; apply mid_aft; assumption|].
    + destruct b; try (apply h_out; intros; apply bef_mid; assumption).
      assert (K' : forall A (x : io host A) B (k : A -> io host B), stays (bef s g) x -> (forall a, hoare (bef s g) (k a) (fun _ => mid s g)) -> hoare (bef s g) (io_bind x k) (fun _ => mid s g)).
      { intros A x B k S H. eapply h_bind; [exact S|intros h; split; [|split]; intros; apply bef_mid; assumption|exact H]. }
      apply K'; [apply s_read|intros u]. apply K'; [apply (lf_rotate Z)|intros u1].
      * intros a b [A B]. split; [apply sof_flush, A|exact B].
      * intros a b [A B]. split; [exact A|apply sof_flush, B].
      * apply led_summary. unfold led_set. apply (small_tx (fun _ => _)).
    + intros u. assert (S : stays (mid s g) (do! _ := add_block_io b in io_out (Ok b))) by (stay; apply (lf_add (fun a b => evo s a /\ same_or_flushed g b))).
      eapply h_weaken; [exact S|auto|intros r h; apply mid_aft].
  - apply W, (lf_demit Z).
  - apply W. stay. apply (lf_gderiv Z).
  - apply W, (lf_newblock Z).
  - apply W, (lf_txs Z).
  - intros fs h A. destruct (assoc_get _ _); [|apply bef_aft, A]. apply (u_unit _ _ _ (W _ _ (lf_dadd Z owner i)) fs h A).
  - apply W, (lf_flush Z).
    + intros a b [A B]. split; [apply sof_flush, A|exact B].
    + intros a b [A B]. split; [exact A|apply sof_flush, B].
  - apply W, (lf_mflush Z).
  - intros fs h A. destruct (assoc_get _ _); [|apply bef_aft, A]. apply (u_unit _ _ _ (W _ _ (lf_dflush Z owner)) fs h A).
Qed.
Lemma step_evo p o fs h : evo (t_summary (h_tree h)) (t_summary (h_tree (io_after (io_step p o) fs h))) /\ evo (t_gas (h_tree h)) (t_gas (h_tree (io_after (io_step p o) fs h))).
Proof. apply (led_step (t_summary (h_tree h)) (t_gas (h_tree h)) p o fs h). split; apply sof_refl. Qed.

Lemma alw_evo (P P' : smap -> Prop) s s' : alw P s -> evo s s' -> (forall x, P x -> P' x) -> P' (cur s') -> alw P' s'.
Proof.
  intros A E H C. apply (alw_impl _ _ _ H) in A. destruct E as [->|[->|(b & [->| ->])]]; [exact A|apply alw_flush, A|apply alw_commit; assumption|apply alw_commit; [apply alw_flush, A|assumption]].
Qed.
Lemma alw_settled (P : smap -> Prop) s : P (cur s) -> alw P (sled_flush s). Proof. apply alw_flat. Qed.

(** ** How an opening changes them *)
Definition reset (x : smap) : smap := sm_insert ROOT_PUBLIC_ADDRESS (led_encode COINS_PER_CYCLE) x.
Section Open.
Variable U : sled -> sled -> Prop.
Let J (d : disk) : Prop := U (k_summary d) (k_gas d).
Lemma lo_blocks e f : stays J (disk_op e (disk_main f)). Proof. unfold disk_op. apply s_op. auto. Qed.
Lemma lo_rest d : J d -> ((forall s g, U s g -> U (sled_insert ROOT_PUBLIC_ADDRESS (led_encode COINS_PER_CYCLE) s) g) \/
    exists h df, 2 <= h /\ file_cur (md_cfg (k_main d)) <> None /\ forall y, mc_read_config (md_cfg (k_main d)) = Ok y -> y = (h, df)) ->
  forall fs, J (io_after new_rest fs d).
Proof.
  intros Hd HU. assert (Hs : hoare (fun d' => J d' /\ d' = d) new_rest (fun _ => J)); [|intros fs; apply (Hs fs d (conj Hd eq_refl))].
  unfold new_rest. eapply h_bind with (R := fun r d' => J d' /\ r = Ok d); [apply h_get; intros s [A ->]; auto|intros s; split; [|split]; intros; tauto|].
  intros d1. apply h_pure. intros E. apply ok_inv in E. subst d1.
  eapply h_bind with (R := fun r d' => J d' /\ match r with Ok (h, _) => (forall s g, U s g -> U (sled_insert ROOT_PUBLIC_ADDRESS (led_encode COINS_PER_CYCLE) s) g) \/ 2 <= h | _ => True end); [|intros s; split; [|split]; intros; tauto|].
  { destruct (file_cur (md_cfg (k_main d))) as [x|] eqn:Ex.
    - eapply h_bind with (R := fun _ => J); [apply h_read; auto|auto|]. intros u fs s A. split; [exact A|]. cbn [io_out snd]. destruct (mc_read_config _) as [[h df]|e| |]; try exact Logic.I.
      destruct HU as [HU|(h0 & df0 & Hh & _ & HU)]; [left; exact HU|right]. specialize (HU _ eq_refl). injection HU as -> _. exact Hh.
    - apply h_out. intros s A. split; [exact A|]. destruct HU as [HU|(h0 & df0 & Hh & HU & _)]; [left; exact HU|contradiction]. }
  intros [h df]. apply h_pure. intros Hh.
  eapply h_bind with (R := fun r d' => J d' /\ match r with Ok h' => (forall s g, U s g -> U (sled_insert ROOT_PUBLIC_ADDRESS (led_encode COINS_PER_CYCLE) s) g) \/ 2 <= h' | _ => True end); [|intros s; split; [|split]; intros; tauto|].
  { destruct (N.eqb_spec h 0) as [->|Hne]; [|apply h_out; auto]. destruct Hh as [Hh|Hh]; [|lia]. intros fs s A.
    assert (S : stays J (do! g := io_out genesis_block in
      do! _ := disk_op (Err EChainInit) (disk_main (disk_blocks (sled_insert (height_key 0) (block_dump g)))) in
      do! _ := disk_op (Err EChainInit) (disk_main (disk_refs (sled_insert (sha256 (block_dump g)) (height_key 0)))) in io_out (Ok 1))) by (stay; apply lo_blocks).
    split; [exact (S fs s A)|]. destruct (snd _); auto. }
  intros h'. apply h_pure. intros Hh'.
  eapply h_bind with (R := fun _ => J); [|auto|].
  { destruct (N.eqb_spec h' 1) as [->|Hne]; [|apply h_out; auto]. destruct Hh' as [Hh'|Hh']; [|lia]. unfold disk_op. intros fs s A. unfold io_op. destruct (next_fault fs) as [|[|k]]; cbn [fst snd]; first [exact A|apply Hh', A]. }
  intros u fs s A. exact A.
Qed.
End Open.
(** [low] with a height of at least 2 on disk: openings leave the ledgers alone. *)
Lemma open_high (P Q : smap -> Prop) H d fs : config_opens fs -> 2 <= H -> dkeeps P Q H (k_main d) ->
  k_summary (io_after t_new_io fs d) = k_summary d /\ k_gas (io_after t_new_io fs d) = k_gas d.
Proof.
  intros Hc HH Hd. destruct (new_after fs d Hc) as [->|(fs' & ->)]; [auto|].
  apply (lo_rest (fun s g => s = k_summary d /\ g = k_gas d)); [auto|]. right.
  pose proof (fc_cur _ _ (dk_cfg _ _ _ _ Hd)) as Hl.
  destruct (mc_read_config (md_cfg (k_main d))) as [[h df]|e| |] eqn:Er.
  - destruct (low_read (fun _ => True) H ltac:(auto) ltac:(auto) _ _ _ Hl Er) as [_ [[E0 _]|E1]]; [lia|]. exists h, df. split; [lia|]. split; [intros X; rewrite X in Hl; cbn [low] in Hl; lia|]. intros y E. congruence.
  - exists 2, []. split; [lia|]. split; [intros X; rewrite X in Hl; cbn [low] in Hl; lia|discriminate].
  - exists 2, []. split; [lia|]. split; [intros X; rewrite X in Hl; cbn [low] in Hl; lia|discriminate].
  - exists 2, []. split; [lia|]. split; [intros X; rewrite X in Hl; cbn [low] in Hl; lia|discriminate].
Qed.
Lemma open_any (P : smap -> Prop) d fs : config_opens fs -> (forall x, P x -> P (reset x)) -> alw P (k_summary d) ->
  alw P (k_summary (io_after t_new_io fs d)).
Proof.
  intros Hc HP A. destruct (new_after fs d Hc) as [->|(fs' & ->)]; [auto|].
  apply (lo_rest (fun s _ => alw P s)); [auto|]. left. intros s _ B. apply alw_insert; [exact B|apply HP, (alw_cur _ _ B)].
Qed.
Lemma open_gas d fs : config_opens fs -> k_gas (io_after t_new_io fs d) = k_gas d.
Proof.
  intros Hc. destruct (new_after fs d Hc) as [->|(fs' & ->)]; [auto|]. apply (lo_rest (fun _ g => g = k_gas d)); auto.
Qed.
(** The tree that is opened is what the opening left. *)
Lemma opened_ledgers fs d t : config_opens fs -> io_result t_new_io fs d = Ok t -> t_summary t = k_summary (io_after t_new_io fs d) /\ t_gas t = k_gas (io_after t_new_io fs d).
Proof.
  intros _. unfold io_result, io_after. set (R := fun (r : out bct) (d : disk) => forall t, r = Ok t -> t_summary t = k_summary d /\ t_gas t = k_gas d).
  assert (H : hoare (fun _ => True) t_new_io R).
  { assert (K : forall A (x : io disk A) (k : A -> io disk bct), (forall a, hoare (fun _ => True) (k a) R) -> hoare (fun _ => True) (io_bind x k) R).
    { intros A x k Hk. eapply h_bind with (R := fun _ _ => True); [intros f s _; exact Logic.I|intros s; split; [|split]; intros; unfold R; discriminate|]. intros a. apply Hk. }
    unfold t_new_io. do 4 (apply K; intros). apply K. intros [h df]. do 2 (apply K; intros).
    eapply h_bind with (R := fun r d => match r with Ok x => x = d | _ => False end); [apply h_get; auto|intros s; split; [|split]; intros; contradiction|].
    intros x. apply h_out. intros s ->. unfold R. intros t' E. apply ok_inv in E. rewrite <- E. split; reflexivity. }
  intros E. exact (H fs d Logic.I t E).
Qed.

(** ** A whole life *)
Lemma life_trans ok p a n b m c : life ok p a n b -> life ok p b m c -> life ok p a (n + m) c.
Proof.
  intros L1 L2. induction L2 as [|m h o fs L IH Ho Hok|m h L IH|m h s L IH|m d fs t L IH Hc E|m d fs L IH Hc E|m d fs s L IH Hc].
  - rewrite Nat.add_0_r. exact L1.
  - rewrite Nat.add_succ_r. apply life_call; assumption.
  - apply life_close, IH.
  - apply life_crash, IH.
  - eapply life_open; eassumption.
  - eapply life_open_fails; eassumption.
  - eapply life_open_crash; eassumption.
Qed.
Definition summary_of (b : machine) : sled := match b with Up h => t_summary (h_tree h) | Down d => k_summary d end.
Definition gas_of (b : machine) : sled := match b with Up h => t_gas (h_tree h) | Down d => k_gas d end.
Section Whole.
Variables (ok : host -> op -> list fault -> Prop) (p : profile) (a : machine).
Variable PP : nat -> machine -> smap -> Prop.
Hypothesis HM : forall n b m c x, life ok p a n b -> life ok p b m c -> PP n b x -> PP (n + m) c x.
Lemma hm0 n b c x : life ok p a n b -> life ok p b 0 c -> PP n b x -> PP n c x.
Proof. intros L1 L2 H. apply (HM _ _ 0 c) in H; [|assumption..]. rewrite Nat.add_0_r in H. exact H. Qed.
Lemma gas_life n b : (forall n h o fs, life ok p a n (Up h) -> op_wf o -> ok h o fs -> alw (PP n (Up h)) (t_gas (h_tree h)) -> let h' := io_after (io_step p o) fs h in
    PP (S n) (Up h') (cur (t_gas (h_tree h')))) ->
  alw (PP 0 a) (gas_of a) -> life ok p a n b -> alw (PP n b) (gas_of b).
Proof.
  intros HS H0 L. induction L as [|n h o fs L IH Ho Hok|n h L IH|n h s L IH|n d fs t L IH Hc E|n d fs L IH Hc E|n d fs s L IH Hc]; cbn [gas_of] in *.
  - exact H0.
  - eapply alw_evo; [exact IH|apply step_evo| |apply HS; assumption]. intros x Hx. rewrite <- Nat.add_1_r. eapply HM; [exact L| |exact Hx]. apply life_call; [apply life_start|assumption..].
  - apply (alw_impl (PP n (Up h))); [|apply alw_flush, IH]. intros x. apply hm0; [exact L|apply life_close, life_start].
  - apply (alw_impl (PP n (Up h))); [|apply alw_crash, IH]. intros x. apply hm0; [exact L|apply life_crash, life_start].
  - cbn [opened h_tree]. destruct (opened_ledgers _ _ _ Hc E) as [_ E2]. rewrite E2, (open_gas _ _ Hc). apply (alw_impl (PP n (Down d))); [|exact IH]. intros x. apply hm0; [exact L|eapply life_open; [apply life_start|exact Hc|exact E]].
  - cbn [disk_settle k_gas]. rewrite (open_gas _ _ Hc). apply (alw_impl (PP n (Down d))); [|apply alw_flush, IH]. intros x. apply hm0; [exact L|apply life_open_fails; [apply life_start|exact Hc|exact E]].
  - cbn [disk_crash k_gas]. rewrite (open_gas _ _ Hc). apply (alw_impl (PP n (Down d))); [|apply alw_crash, IH]. intros x. apply hm0; [exact L|apply life_open_crash; [apply life_start|exact Hc]].
Qed.
Lemma summary_life n b : (forall n h o fs, life ok p a n (Up h) -> op_wf o -> ok h o fs -> alw (PP n (Up h)) (t_summary (h_tree h)) -> let h' := io_after (io_step p o) fs h in
    PP (S n) (Up h') (cur (t_summary (h_tree h')))) ->
  (forall n d x, life ok p a n (Down d) -> PP n (Down d) x -> PP n (Down d) (reset x)) \/
  (forall n d fs, life ok p a n (Down d) -> config_opens fs -> k_summary (io_after t_new_io fs d) = k_summary d) ->
  alw (PP 0 a) (summary_of a) -> life ok p a n b -> alw (PP n b) (summary_of b).
Proof.
  intros HS HO H0 L. assert (Hop : forall n d fs, life ok p a n (Down d) -> config_opens fs -> alw (PP n (Down d)) (k_summary d) -> alw (PP n (Down d)) (k_summary (io_after t_new_io fs d))).
  { intros n0 d fs L0 Hc A. destruct HO as [HO|HO]; [|rewrite HO with (n := n0); assumption]. apply open_any; [exact Hc| |exact A]. intros x. apply HO, L0. }
  induction L as [|n h o fs L IH Ho Hok|n h L IH|n h s L IH|n d fs t L IH Hc E|n d fs L IH Hc E|n d fs s L IH Hc]; cbn [summary_of] in *.
  - exact H0.
  - eapply alw_evo; [exact IH|apply step_evo| |apply HS; assumption]. intros x Hx. rewrite <- Nat.add_1_r. eapply HM; [exact L| |exact Hx]. apply life_call; [apply life_start|assumption..].
  - apply (alw_impl (PP n (Up h))); [|apply alw_flush, IH]. intros x. apply hm0; [exact L|apply life_close, life_start].
  - apply (alw_impl (PP n (Up h))); [|apply alw_crash, IH]. intros x. apply hm0; [exact L|apply life_crash, life_start].
  - cbn [opened h_tree]. destruct (opened_ledgers _ _ _ Hc E) as [E1 _]. rewrite E1. apply (alw_impl (PP n (Down d))); [|apply Hop; assumption]. intros x. apply hm0; [exact L|eapply life_open; [apply life_start|exact Hc|exact E]].
  - cbn [disk_settle k_summary]. apply (alw_impl (PP n (Down d))); [|apply alw_flush, Hop; assumption]. intros x. apply hm0; [exact L|apply life_open_fails; [apply life_start|exact Hc|exact E]].
  - cbn [disk_crash k_summary]. apply (alw_impl (PP n (Down d))); [|apply alw_crash, Hop; assumption]. intros x. apply hm0; [exact L|apply life_open_crash; [apply life_start|exact Hc]].
Qed.
End Whole.
