(** Balances after calls during which I/O operations fail. *)
From Coq Require Import Lia ZifyBool ZifyNat ZifyN.
From Verif Require Import Base Sha256 Merkle Tools Transaction Block Sled Chain Tree Spec Reach LedgerSpec SupplySpec QuietSpec Conc ConcTree ConcFlush ConcEmit Cancel ConcDeriv Io IoSpec Demo.
From Verif Require Import BaseFacts ToolsFacts MerkleFacts DiffFacts CodecFacts SledFacts ChainFacts TreeFacts LedgerFacts CrashFacts ConcFacts EmitFacts LedgerProps SupplyProps QuietProps IoFacts IoSure IoProps IoRetryProps.

Local Strategy 1000 [u256_mul u256_add u256_sub BYTE_GAS_PRICE t_get_amount t_get_gas mc_decode dc_decode recalculate_fee recalculate_difficulty t_send_amount t_sub_gas sled_get check_pow emit_block next_info dc_new mc_read_config genesis_block].

Definition fund (f g : bytes -> N) (h : host) : Prop := led_ok (t_summary (h_tree h)) /\ led_ok (t_gas (h_tree h)) /\ funds (h_tree h) f g.
Lemma fund_same f g h t' : t_summary t' = t_summary (h_tree h) -> t_gas t' = t_gas (h_tree h) -> fund f g h -> fund f g (with_host h t').
Proof. intros E1 E2 (A & B & C & D). unfold fund, funds, amounts, gases, t_get_amount, t_get_gas in *. cbn [with_host h_tree]. rewrite E1, E2. auto. Qed.
Lemma fd_tree f g {A} (e : out A) F : (forall t, t_summary (fst (F t)) = t_summary t /\ t_gas (fst (F t)) = t_gas t) -> stays (fund f g) (tree_op e F).
Proof. intros H. apply s_op. intros s A1. unfold lift_tree. cbn [fst]. apply fund_same; [apply H|apply H|exact A1]. Qed.
Lemma fd_mop f g e F : stays (fund f g) (main_op e F). Proof. apply fd_tree. auto. Qed.
Lemma fd_mput f g F : stays (fund f g) (main_put F). Proof. apply s_put. intros s A1. apply fund_same; auto. Qed.
Lemma fd_dop f g e w F : stays (fund f g) (deriv_op e w F). Proof. apply fd_tree. auto. Qed.
Lemma fd_dput f g w F : stays (fund f g) (deriv_put w F). Proof. apply s_put. intros s A1. apply fund_same; auto. Qed.
Lemma fd_write f g b d : stays (fund f g) (write_cfg_io b d).
Proof. intros fs s A. unfold write_cfg_io. destruct (next_fault fs); cbn [fst snd]; apply fund_same; auto. Qed.
Lemma fd_dwrite f g b w d : stays (fund f g) (write_dcfg_io b w d).
Proof. intros fs s A. unfold write_dcfg_io. destruct (next_fault fs); cbn [fst snd]; apply fund_same; auto. Qed.
Lemma fd_sput f g F : (forall s, t_summary (F s) = t_summary (h_tree s) /\ t_gas (F s) = t_gas (h_tree s)) -> stays (fund f g) (io_put (fun n => with_host n (F n))).
Proof. intros H. apply s_put. intros s A. apply fund_same; [apply H|apply H|exact A]. Qed.
#[export] Hint Resolve fd_mop fd_mput fd_dop fd_dput fd_write fd_dwrite : stays.
Lemma fd_mflush f g : stays (fund f g) main_flush_io. Proof. unfold main_flush_io. stay. Qed.
#[export] Hint Resolve fd_mflush : stays.
Lemma fund_flush_s f g h : fund f g h -> fund f g (with_host h (with_summary (h_tree h) (sled_flush (t_summary (h_tree h))))).
Proof. intros (A & B & C & D). split; [apply led_ok_flush, A|]. split; [exact B|]. split; [exact C|exact D]. Qed.
Lemma fund_flush_g f g h : fund f g h -> fund f g (with_host h (with_gas (h_tree h) (sled_flush (t_gas (h_tree h))))).
Proof. intros (A & B & C & D). split; [exact A|]. split; [apply led_ok_flush, B|]. split; [exact C|exact D]. Qed.
Lemma fd_flush f g : stays (fund f g) flush_io.
Proof.
  unfold flush_io. apply s_bind; [apply fd_mflush|intros _]. apply s_bind; [apply s_op; intros s A; apply fund_flush_s, A|intros _]. apply s_bind; [apply fd_tree; auto|intros _].
  apply s_bind; [apply s_op; intros s A; apply fund_flush_g, A|intros _]. apply fd_tree; auto.
Qed.
#[export] Hint Resolve fd_flush : stays.
Lemma fd_rotate f g : stays (fund f g) rotate_io.
Proof.
  unfold rotate_io, remove_dir_io, create_dir_io. stay; try (match goal with A : fund f g ?s |- context [if ?c then _ else _] => destruct c; exact A end); apply fund_same; auto.
Qed.
Lemma fd_find f g e i : stays (fund f g) (find_raw_io e i). Proof. unfold find_raw_io. stay. Qed.
#[export] Hint Resolve fd_rotate fd_find : stays.
Lemma fd_last f g : stays (fund f g) last_block_io. Proof. unfold last_block_io. stay. Qed.
Lemma fd_hash f g x : stays (fund f g) (find_by_hash_io x). Proof. unfold find_by_hash_io. stay. Qed.
Lemma fd_dlast f g w : stays (fund f g) (deriv_last_io w). Proof. unfold deriv_last_io. stay. Qed.
Lemma fd_dnew f g d x : stays (fund f g) (deriv_new_io d x). Proof. unfold deriv_new_io. stay. Qed.
Lemma fd_add f g b : stays (fund f g) (add_block_io b). Proof. unfold add_block_io. stay. Qed.
Lemma fd_dadd f g w i : stays (fund f g) (deriv_add_io w i). Proof. unfold deriv_add_io. stay. Qed.
Lemma fd_dflush f g w : stays (fund f g) (deriv_flush_io w). Proof. unfold deriv_flush_io. stay. Qed.
Lemma fd_txs f g l : stays (fund f g) (add_txs_io l). Proof. induction l; cbn [add_txs_io]; unfold add_tx_io; stay. Qed.
#[export] Hint Resolve fd_last fd_hash fd_dlast fd_dnew fd_add fd_dadd fd_dflush fd_txs : stays.
Lemma fd_gderiv f g w : stays (fund f g) (get_deriv_io w). Proof. unfold get_deriv_io. stay. Qed.
#[export] Hint Resolve fd_gderiv : stays.
Lemma fd_demit f g p pow w ts : stays (fund f g) (emit_deriv_io p pow w ts). Proof. unfold emit_deriv_io. stay. Qed.
Lemma fd_newblock f g b l : stays (fund f g) (add_new_block_io b l). Proof. unfold add_new_block_io. stay. Qed.
#[export] Hint Resolve fd_demit fd_newblock : stays.

(** One transaction on a ledger. *)
Definition makes (F : bct -> bct * out unit) (f g f' g' : bytes -> N) : Prop := forall h, fund f g h -> fund f' g' (with_host h (fst (F (h_tree h)))) \/ (fst (F (h_tree h)) = h_tree h /\ snd (F (h_tree h)) <> Ok tt).
Lemma with_host_id h : with_host h (h_tree h) = h. Proof. destruct h; reflexivity. Qed.
Lemma h_ledger F f g f' g' : makes F f g f' g' -> hoare (fund f g) (ledger_io F) (fun r h => match r with Ok _ => fund f' g' h | _ => fund f g h \/ fund f' g' h end).
Proof.
  intros M fs h A. unfold ledger_io, tree_op, io_op, lift_tree. destruct (M h A) as [B|[B1 B2]].
  - destruct (next_fault fs) as [|[|k]]; cbn [fst snd]; [|auto..]. destruct (snd (F (h_tree h))); auto.
  - rewrite B1, with_host_id. destruct (next_fault fs) as [|[|k]]; cbn [fst snd]; [|auto..]. destruct (snd (F (h_tree h))) as [[]|e| |]; [contradiction|auto..].
Qed.
Lemma summary_on F t : t_summary (fst (t_on_summary F t)) = fst (F (t_summary t)) /\ t_gas (fst (t_on_summary F t)) = t_gas t.
Proof. unfold t_on_summary. destruct (F (t_summary t)). auto. Qed.
Lemma gas_on F t : t_gas (fst (t_on_gas F t)) = fst (F (t_gas t)) /\ t_summary (fst (t_on_gas F t)) = t_summary t.
Proof. unfold t_on_gas. destruct (F (t_gas t)). auto. Qed.
Lemma makes_summary F f g f' : (forall s, led_ok s -> led_ok (fst (F s))) ->
  (forall t, led_ok (t_summary t) -> amounts t f -> amounts (fst (t_on_summary F t)) f' \/ (fst (t_on_summary F t) = t /\ snd (t_on_summary F t) <> Ok tt)) -> makes (t_on_summary F) f g f' g.
Proof.
  intros H1 H2 h (A & B & C & D). destruct (H2 _ A C) as [E|E]; [left|right; exact E]. destruct (summary_on F (h_tree h)) as [E1 E2]. split; [cbn [with_host h_tree]; rewrite E1; apply H1, A|]. split; [cbn [with_host h_tree]; rewrite E2; exact B|].
  split; [exact E|]. unfold gases, t_get_gas in *. cbn [with_host h_tree]. rewrite E2. exact D.
Qed.
Lemma makes_gas F f g g' : (forall s, led_ok s -> led_ok (fst (F s))) ->
  (forall t, led_ok (t_gas t) -> gases t g -> gases (fst (t_on_gas F t)) g' \/ (fst (t_on_gas F t) = t /\ snd (t_on_gas F t) <> Ok tt)) -> makes (t_on_gas F) f g f g'.
Proof.
  intros H1 H2 h (A & B & C & D). destruct (H2 _ B D) as [E|E]; [left|right; exact E]. destruct (gas_on F (h_tree h)) as [E1 E2]. split; [cbn [with_host h_tree]; rewrite E2; exact A|]. split; [cbn [with_host h_tree]; rewrite E1; apply H1, B|].
  split; [|exact E]. unfold amounts, t_get_amount in *. cbn [with_host h_tree]. rewrite E2. exact C.
Qed.
Lemma m_add w a f g : makes (t_add_amount w a) f g (if f w + a <? 2 ^ 256 then upd f w (f w + a) else f) g.
Proof.
  apply makes_summary; [intros s; apply led_add_ok|]. intros t H1 H2. pose proof (add_amount_eff w a t f H1 H2) as E. unfold t_add_amount in E. destruct (t_on_summary _ t) as [t' r]. destruct E as [_ E]. destruct (_ <? _); destruct E as [-> E]; [left; exact E|right; split; [exact E|discriminate]].
Qed.
Lemma m_sub w a f g : makes (t_sub_amount w a) f g (if a <=? f w then upd f w (f w - a) else f) g.
Proof.
  apply makes_summary; [intros s; apply led_sub_ok|]. intros t H1 H2. pose proof (sub_amount_eff w a t f H1 H2) as E. unfold t_sub_amount in E. destruct (t_on_summary _ t) as [t' r]. destruct E as [_ E]. destruct (_ <=? _); destruct E as [-> E]; [left; exact E|right; split; [exact E|discriminate]].
Qed.
Lemma m_set w a f g : u256_ok a -> makes (t_set_amount w a) f g (upd f w a) g.
Proof.
  intros Ha. apply makes_summary; [intros s; apply led_set_ok, Ha|]. intros t H1 H2. pose proof (set_amount_eff w a t f H1 Ha H2) as E. unfold t_set_amount in E. destruct (t_on_summary _ t) as [t' r]. destruct E as (_ & _ & E). left; exact E.
Qed.
Lemma m_send x y a f g : bytes_eqb x y = false -> makes (t_on_summary (led_send x y a)) f g (if (a <=? f x) && (f y + a <? 2 ^ 256) then moved f x y a else f) g.
Proof.
  intros Exy. apply makes_summary; [intros s; apply led_send_ok|]. intros t H1 H2. pose proof (send_amount_eff x y a t f H1 H2) as E. unfold t_send_amount in E. rewrite Exy in E. destruct (t_on_summary _ t) as [t' r]. destruct E as [_ E]. destruct (_ && _); destruct E as [-> E]; [left; exact E|right; split; [exact E|discriminate]].
Qed.
Lemma m_gadd w a f g : makes (t_add_gas w a) f g f (if g w + a <? 2 ^ 256 then upd g w (g w + a) else g).
Proof.
  apply makes_gas; [intros s; apply led_add_ok|]. intros t H1 H2. pose proof (add_gas_eff w a t g H1 H2) as E. unfold t_add_gas in E. destruct (t_on_gas _ t) as [t' r]. destruct E as [_ E]. destruct (_ <? _); destruct E as [-> E]; [left; exact E|right; split; [exact E|discriminate]].
Qed.
Lemma m_gsub w a f g : makes (t_sub_gas w a) f g f (if a <=? g w then upd g w (g w - a) else g).
Proof.
  apply makes_gas; [intros s; apply led_sub_ok|]. intros t H1 H2. pose proof (sub_gas_eff w a t g H1 H2) as E. unfold t_sub_gas in E. destruct (t_on_gas _ t) as [t' r]. destruct E as [_ E]. destruct (_ <=? _); destruct E as [-> E]; [left; exact E|right; split; [exact E|discriminate]].
Qed.
Lemma m_gsend x y a f g : makes (t_send_gas x y a) f g f (if (a <=? g x) && (g y + a <? 2 ^ 256) then upd (upd g x (g x - a)) y (g y + a) else g).
Proof.
  apply makes_gas; [intros s; apply led_send_ok|]. intros t H1 H2. pose proof (send_gas_eff x y a t g H1 H2) as E. unfold t_send_gas in E. destruct (t_on_gas _ t) as [t' r]. destruct E as [_ E]. destruct (_ && _); destruct E as [-> E]; [left; exact E|right; split; [exact E|discriminate]].
Qed.
Definition lok (h : host) : Prop := led_ok (t_summary (h_tree h)) /\ led_ok (t_gas (h_tree h)).
(** What a call leaves. *)
Definition after (o : op) (f g : bytes -> N) (r : out result) (h : host) : Prop := lok h /\ funds_after o (exists x, r = Ok x) f g (h_tree h).
Lemma fund_lok f g h : fund f g h -> lok h /\ funds (h_tree h) f g. Proof. unfold fund, lok. tauto. Qed.
Lemma h_unit (P : host -> Prop) (x : io host unit) Q : hoare P x (fun r h => Q (bind r (fun _ => Ok RUnit)) h) -> hoare P (io_unit x) Q.
Proof. intros H fs s A. specialize (H fs s A). unfold io_unit, io_bind. destruct (x fs s) as [[f' s'] [a|e| |]]; exact H. Qed.
Lemma no_ok (e : error) : ~ (exists x : result, Err e = Ok x). Proof. intros [x E]. discriminate E. Qed.
Lemma no_panic : ~ (exists x : result, Panic = Ok x). Proof. intros [x E]. discriminate E. Qed.
Lemma no_ub : ~ (exists x : result, UB = Ok x). Proof. intros [x E]. discriminate E. Qed.
#[local] Hint Resolve no_ok no_panic no_ub : core.
Lemma h_ledger_after o F f g : funds_after o = (fun done f g t' => funds t' (amount_after f o) (gas_after g o) \/ (funds t' f g /\ ~ done)) ->
  makes F f g (amount_after f o) (gas_after g o) -> hoare (fund f g) (io_unit (ledger_io F)) (after o f g).
Proof.
  intros E M. apply h_unit. eapply h_weaken; [apply (h_ledger _ _ _ _ _ M)|auto|]. intros r s H. unfold after. rewrite E. destruct r as [u|e| |]; cbn [bind].
  - apply fund_lok in H. tauto.
  - destruct H as [H|H]; apply fund_lok in H; (split; [apply H|]); [right; split; [apply H|auto]|left; apply H].
  - destruct H as [H|H]; apply fund_lok in H; (split; [apply H|]); [right; split; [apply H|auto]|left; apply H].
  - destruct H as [H|H]; apply fund_lok in H; (split; [apply H|]); [right; split; [apply H|auto]|left; apply H].
Qed.
Lemma h_stays_after o (x : io host result) f g : funds_after o = (fun done f g t' => funds t' f g \/ (funds t' f g /\ ~ done)) -> stays (fund f g) x -> hoare (fund f g) x (after o f g).
Proof. intros E S. eapply h_weaken; [exact S|auto|]. intros r s H. unfold after. rewrite E. apply fund_lok in H. tauto. Qed.
Lemma gas_mul n x : u256_mul BYTE_GAS_PRICE n = Ok x -> x = gas_for n.
Proof. unfold u256_mul, gas_for. assert (E : BYTE_GAS_PRICE = 625000000000) by reflexivity. rewrite E. clear E. generalize (625000000000 * n). intros m. destruct (m <? 2 ^ 256); [|discriminate]. intros H. apply ok_inv in H. congruence. Qed.
Lemma add_le a b x : u256_add a b = Ok x -> b <= x.
Proof. unfold u256_add. destruct (_ <? _); [|discriminate]. intros H. apply ok_inv in H. lia. Qed.
Lemma f_sendtx tx f g : hoare (fund f g) (send_tx_io tx) (fun r h => after (OSendTx tx) f g (bind r (fun _ => Ok RUnit)) h).
Proof.
  assert (Un : forall q : out result, ~ (exists x, q = Ok x) -> forall h, fund f g h -> after (OSendTx tx) f g q h).
  { intros q Hq h A. apply fund_lok in A. split; [tauto|]. left. tauto. }
  unfold send_tx_io.
  eapply h_bind with (R := fun r h => fund f g h /\ match r with Ok x => x = g (tx_sender tx) | _ => True end).
  { intros fs s A. unfold get_gas_io, tree_op, io_op, lift_tree. destruct (next_fault fs) as [|[|k]]; cbn [fst snd]; rewrite ?with_host_id; (split; [exact A|]); auto. destruct A as (A & B & C & D). rewrite (D (tx_sender tx)). reflexivity. }
  { intros s. split; [|split]; [intros e|..]; intros [H _]; cbn [bind]; apply Un; auto. }
  intros gas. apply h_pure. intros ->.
  eapply h_bind with (R := fun r h => fund f g h /\ match r with Ok x => x = f (tx_sender tx) | _ => True end).
  { intros fs s A. unfold get_amount_io, tree_op, io_op, lift_tree. destruct (next_fault fs) as [|[|k]]; cbn [fst snd]; rewrite ?with_host_id; (split; [exact A|]); auto. destruct A as (A & B & C & D). rewrite (C (tx_sender tx)). reflexivity. }
  { intros s. split; [|split]; [intros e|..]; intros [H _]; cbn [bind]; apply Un; auto. }
  intros amount. apply h_pure. intros ->.
  eapply h_bind with (R := fun r h => fund f g h /\ r = u256_mul BYTE_GAS_PRICE (N.of_nat (tx_get_dump_size tx))); [apply h_out; auto|intros s; split; [|split]; [intros e|..]; intros [H _]; cbn [bind]; apply Un; auto|].
  intros gq. apply h_pure. intros X. symmetry in X. apply gas_mul in X. subst gq. destruct (N.ltb_spec (g (tx_sender tx)) (gas_for (N.of_nat (tx_get_dump_size tx)))) as [X|Hg]; [apply h_out; intros; cbn [bind]; apply Un; auto|].
  eapply h_bind; [apply fd_last|intros s; split; [|split]; [intros e|..]; intros; cbn [bind]; apply Un; auto|]. intros last.
  eapply h_bind; [apply (s_out (fund f g))|intros s; split; [|split]; [intros e|..]; intros; cbn [bind]; apply Un; auto|]. intros b.
  eapply h_bind; [apply (s_out (fund f g))|intros s; split; [|split]; [intros e|..]; intros; cbn [bind]; apply Un; auto|]. intros fee.
  eapply h_bind with (R := fun r h => fund f g h /\ r = u256_add fee (tx_amount tx)); [apply h_out; auto|intros s; split; [|split]; [intros e|..]; intros [H _]; cbn [bind]; apply Un; auto|]. intros need. apply h_pure. intros En.
  symmetry in En. apply add_le in En. destruct (N.ltb_spec (f (tx_sender tx)) need) as [X|Ha]; [apply h_out; intros; cbn [bind]; apply Un; auto|].
  assert (Ha' : tx_amount tx <= f (tx_sender tx)) by lia. clear En Ha.
  eapply h_bind; [unfold add_tx_io; apply fd_mop|intros s; split; [|split]; [intros e|..]; intros; cbn [bind]; apply Un; auto|]. intros u1.
  set (paid := moved f (tx_sender tx) (tx_receiver tx) (tx_amount tx)).
  assert (Pd : forall q : out result, ~ (exists x, q = Ok x) -> forall h, fund paid g h -> after (OSendTx tx) f g q h).
  { intros q Hq h A. apply fund_lok in A. split; [tauto|]. right. split; [exact Ha'|]. split; [exact Hg|]. left. tauto. }
  eapply h_bind with (R := fun r h => match r with Ok _ => fund paid g h | _ => fund f g h \/ fund paid g h end).
  { unfold send_amount_io. destruct (bytes_eqb (tx_sender tx) (tx_receiver tx)) eqn:Exy.
    - apply h_out. intros s A. unfold paid, moved. rewrite Exy. exact A.
    - intros fs s A. assert (Q : hoare (fund f g) (ledger_io (t_on_summary (led_send (tx_sender tx) (tx_receiver tx) (tx_amount tx)))) (fun r h => match r with Ok _ => fund paid g h | _ => fund f g h \/ fund paid g h end)); [|exact (Q fs s A)].
      apply h_ledger. intros h0 B. destruct (m_send (tx_sender tx) (tx_receiver tx) (tx_amount tx) f g Exy h0 B) as [C|C]; [|right; exact C].
      pose proof (send_amount_eff (tx_sender tx) (tx_receiver tx) (tx_amount tx) (h_tree h0) f (proj1 B) (proj1 (proj2 (proj2 B)))) as S. unfold t_send_amount in S. rewrite Exy in S.
      destruct (t_on_summary _ (h_tree h0)) as [t' r]. destruct S as [_ S]. destruct (_ && _); [left; exact C|right; destruct S as [-> S]; split; [exact S|discriminate]]. }
  { intros s. split; [|split]; [intros e|..]; (intros [H|H]; cbn [bind]; [apply Un|apply Pd]; auto). }
  intros u2. eapply h_weaken; [apply (h_ledger _ _ _ _ _ (m_gsub (tx_sender tx) (gas_for (N.of_nat (tx_get_dump_size tx))) paid g))|auto|].
  intros r s H. destruct (N.leb_spec (gas_for (N.of_nat (tx_get_dump_size tx))) (g (tx_sender tx))) as [X|X]; [|lia].
  assert (Dn : forall q, fund paid (upd g (tx_sender tx) (g (tx_sender tx) - gas_for (N.of_nat (tx_get_dump_size tx)))) s -> after (OSendTx tx) f g q s).
  { intros q A. apply fund_lok in A. split; [tauto|]. right. split; [exact Ha'|]. split; [exact Hg|]. right. tauto. }
  destruct r; cbn [bind]; [apply Dn, H|destruct H as [H|H]; [apply Pd|apply Dn]; auto..].
Qed.
Lemma f_memit p pow w txs ts f g : hoare (fund f g) (emit_main_io p pow w txs ts) (fun r h => fund f g h \/ (txs = [] /\ fund (upd f ROOT_PUBLIC_ADDRESS COINS_PER_CYCLE) g h)).
Proof.
  unfold emit_main_io. eapply h_bind; [apply (s_mget (fund f g))|auto|]. intros m. eapply h_bind; [apply (s_out (fund f g))|auto|]. intros i. eapply h_bind; [apply fd_find|auto|]. intros d. eapply h_bind; [apply (s_get (fund f g))|auto|]. intros n.
  eapply h_bind with (R := fun r h => fund f g h /\ r = emit_block p pow w txs ts d (h_tree n)); [apply h_out; auto|intros s; repeat split; intros; tauto|]. intros b. apply h_pure. intros Eb.
  eapply h_bind with (R := fun r h => fund f g h \/ (txs = [] /\ fund (upd f ROOT_PUBLIC_ADDRESS COINS_PER_CYCLE) g h)).
  { destruct b as [fee rt i0 l|i0|i0 rt]; [apply h_out; auto|apply h_out; auto|].
    assert (Ht : txs = []).
    { symmetry in Eb. unfold emit_block in Eb. destruct (mc_decode _) as [l|e| |]; try discriminate Eb. cbn [bind] in Eb. destruct (unwrap_opt l) as [lb|e| |]; try discriminate Eb. cbn [bind] in Eb.
      destruct (check_pow _ _ _ _) as [[|]|e| |]; try discriminate Eb. cbn [bind negb] in Eb. destruct (recalculate_difficulty _ _ _ _); try discriminate Eb. cbn [bind] in Eb. destruct (recalculate_fee _); try discriminate Eb. cbn [bind] in Eb.
      destruct (u256_add _ _); try discriminate Eb. cbn [bind] in Eb. destruct (_ =? 0); (destruct txs; [reflexivity|]); [discriminate Eb|]. destruct (build_tree _); try discriminate Eb. cbn [bind] in Eb. destruct (get_root _); discriminate Eb. }
    eapply h_bind; [apply (s_read (fund f g))|auto|]. intros u0. eapply h_bind; [apply fd_rotate|auto|]. intros u1.
    assert (Hc : u256_ok COINS_PER_CYCLE) by reflexivity. eapply h_weaken; [apply (h_ledger _ _ _ _ _ (m_set ROOT_PUBLIC_ADDRESS COINS_PER_CYCLE f g Hc))|auto|]. intros r s H. destruct r; [auto|tauto..]. }
  { auto. }
  intros u. intros fs s [H|[Ht H]].
  - pose proof (h_bind (fund f g) (add_block_io b) (fun _ => io_out (Ok b)) (fun _ => fund f g) (fun _ => fund f g)) as Q. left. apply Q; [apply fd_add|auto|intros; apply (s_out (fund f g))|exact H].
  - set (f' := upd f ROOT_PUBLIC_ADDRESS COINS_PER_CYCLE) in *. pose proof (h_bind (fund f' g) (add_block_io b) (fun _ => io_out (Ok b)) (fun _ => fund f' g) (fun _ => fund f' g)) as Q. right. split; [exact Ht|]. apply Q; [apply fd_add|auto|intros; apply (s_out (fund f' g))|exact H].
Qed.
Lemma f_step p o f g : op_wf o -> hoare (fund f g) (io_step p o) (after o f g).
Proof.
  intros Hw. destruct o; cbn [io_step].
  - apply h_ledger_after; [reflexivity|apply m_add].
  - apply h_ledger_after; [reflexivity|apply m_set, Hw].
  - apply h_ledger_after; [reflexivity|apply m_sub].
  - unfold send_amount_io. destruct (bytes_eqb from to) eqn:E.
    + apply h_unit, h_out. intros s A. apply fund_lok in A. split; [tauto|]. left. cbn [amount_after gas_after]. unfold moved. rewrite E. destruct (_ && _); tauto.
    + apply h_ledger_after; [reflexivity|apply m_send, E].
  - apply h_ledger_after; [reflexivity|apply m_gadd].
  - apply h_ledger_after; [reflexivity|apply m_gsub].
  - apply h_ledger_after; [reflexivity|apply m_gsend].
  - apply h_unit, f_sendtx.
  - intros fs s A. pose proof (f_memit p pow founder txs ts f g fs s A) as F. unfold io_block, io_bind. destruct (emit_main_io p pow founder txs ts fs s) as [[f' s'] [b|e| |]]; cbn [fst snd io_out] in *;
      (destruct F as [F|[Ht F]]; apply fund_lok in F; (split; [tauto|]); [left|right]; tauto).
  - apply h_stays_after; [reflexivity|]. unfold io_block. stay.
  - apply h_stays_after; [reflexivity|]. stay.
  - apply h_stays_after; [reflexivity|]. unfold io_unit. stay.
  - apply h_stays_after; [reflexivity|]. unfold io_unit. stay.
  - apply h_stays_after; [reflexivity|]. intros fs s A. destruct (assoc_get _ _); [|exact A]. assert (S : stays (fund f g) (io_unit (deriv_add_io owner i))) by (unfold io_unit; stay). exact (S fs s A).
  - apply h_stays_after; [reflexivity|]. unfold io_unit. stay.
  - apply h_stays_after; [reflexivity|]. unfold io_unit. stay.
  - apply h_stays_after; [reflexivity|]. intros fs s A. destruct (assoc_get _ _); [|exact A]. assert (S : stays (fund f g) (io_unit (deriv_flush_io owner))) by (unfold io_unit; stay). exact (S fs s A).
Qed.
Lemma lok_fund h : lok h -> fund (bal (t_summary (h_tree h))) (bal (t_gas (h_tree h))) h.
Proof. intros [A B]. split; [exact A|]. split; [exact B|]. split; [apply amounts_bal, A|apply gases_bal, B]. Qed.
Lemma lok_new d t : led_ok (k_summary d) -> led_ok (k_gas d) -> t_new d = Ok t -> lok (opened t).
Proof.
  intros A B E. unfold t_new in E. destruct (mc_new (k_main d)) as [m|e| |]; try discriminate E. cbn [bind] in E. apply ok_inv in E. subst t. split; cbn [opened h_tree t_summary t_gas]; [|exact B]. destruct (_ =? 1); [|exact A]. apply led_ok_commit1; [exact A|reflexivity].
Qed.
Lemma lok_history p n h : io_history p n h -> lok h.
Proof.
  induction 1 as [t E|n h o fs H IH Hw|n h fs t H IH Hc E].
  - destruct (open_ledgers t E). split; assumption.
  - apply (f_step p o _ _ Hw fs h (lok_fund h IH)).
  - apply (new_ok _ _ _ Hc) in E. destruct IH as [A B]. eapply lok_new; [| |exact E]; apply led_ok_flush; assumption.
Qed.
(*@T C100: in every history of calls during which I/O operations fail, with restarts, every account has an amount and gas,
   and every call makes each of its changes of a balance as a whole or not at all: it has made all of them when it
   returns success, and those of a transaction are made in order. *)
Lemma p_C100_balances : forall p n h, io_history p n h -> exists f g, funds (h_tree h) f g /\
  forall o fs, op_wf o -> funds_after o (exists r, io_result (io_step p o) fs h = Ok r) f g (h_tree (io_after (io_step p o) fs h)).
Proof.
  intros p n h H. pose proof (lok_fund h (lok_history p n h H)) as A. do 2 eexists. split; [apply A|]. intros o fs Hw. apply (f_step p o _ _ Hw fs h A).
Qed.
(*@T C100: the amounts and gas of all accounts are determined by the answers. *)
Lemma p_C100_unique : forall t f g f' g', funds t f g -> funds t f' g' -> forall w, f w = f' w /\ g w = g' w.
Proof. intros t f g f' g' [A B] [C D] w. specialize (A w). specialize (B w). specialize (C w). specialize (D w). split; congruence. Qed.
Lemma supply_eq t t' f a : amounts t f -> amounts t' f -> supply t a -> supply t' a.
Proof. intros A B. apply supply_same. intros f0 C w. specialize (A w). specialize (B w). specialize (C w). congruence. Qed.
Lemma supply_lok : forall p h o fs a, lok h -> op_wf o -> moves_only o -> match o with OEmitMain _ _ txs _ => txs <> [] | _ => True end ->
  supply (h_tree h) a -> supply (h_tree (io_after (io_step p o) fs h)) a.
Proof.
  intros p h o fs a H Hw Hm Ht Ha. pose proof (lok_fund h H) as A. set (f := bal (t_summary (h_tree h))) in *. set (g := bal (t_gas (h_tree h))) in *. destruct (f_step p o f g Hw fs h A) as [_ F]. fold (io_after (io_step p o) fs h) in F.
  destruct A as (_ & _ & A & _). assert (K : forall g', funds (h_tree (io_after (io_step p o) fs h)) f g' -> supply (h_tree (io_after (io_step p o) fs h)) a) by (intros g' [B _]; exact (supply_eq _ _ _ _ A B Ha)).
  destruct o; cbn [moves_only funds_after amount_after] in *; try contradiction; try (destruct F as [F|[F _]]; eapply K, F).
  - destruct F as [F|[F _]]; [|eapply K, F]. destruct (N.leb_spec a0 (f from)) as [X|X]; cbn [andb] in F; [|eapply K, F]. destruct (_ <? _); [|eapply K, F]. eapply supply_moved; [exact A|apply F|exact X|exact Ha].
  - destruct F as [[F _]|(X & _ & [[F _]|F])]; [eapply K, F|eapply supply_moved; [exact A|apply F|exact X|exact Ha]..].
  - destruct F as [F|[F _]]; [eapply K, F|contradiction].
Qed.
(*@T C100: no coins are created or destroyed by failures: a call that is not meant to change the supply and closes no epoch leaves
   it as it is, whatever fails. *)
Lemma p_C100_supply : forall p n h o fs a, io_history p n h -> op_wf o -> moves_only o -> match o with OEmitMain _ _ txs _ => txs <> [] | _ => True end ->
  supply (h_tree h) a -> supply (h_tree (io_after (io_step p o) fs h)) a.
Proof. intros p n h o fs a H. exact (supply_lok p h o fs a (lok_history p n h H)). Qed.
(*@E
Example C100_ex : let h := opened funded in let tx := demo_tx 1000 (repeat 7 64) in let fs := [Fine; Fine; Fine; Fine; Fine; Fails 0] in
  let t := h_tree (io_after (io_step Debug (OSendTx tx)) fs h) in
  t_get_amount addrA funded = Ok 1000000000 /\ t_get_amount addrA t = Ok 999999000 /\ t_get_amount addrB t = Ok 1000 /\ t_get_gas addrA t = t_get_gas addrA funded /\
  io_result (io_step Debug (OSendTx tx)) fs h = Panic.
Proof. cbv zeta. repeat split; vm_compute; reflexivity. Qed.
@*)
(*@T C100 for a call as a whole fails: a transaction that failed may have moved the amount without charging the gas. *)
Lemma p_C100_whole_refuted : exists tx fs, tx_wf tx /\ let t := h_tree (io_after (io_step Debug (OSendTx tx)) fs (opened funded)) in
  (forall r, io_result (io_step Debug (OSendTx tx)) fs (opened funded) <> Ok r) /\
  t_get_amount (tx_receiver tx) funded = Ok 0 /\ t_get_amount (tx_receiver tx) t = Ok (tx_amount tx) /\ 0 < tx_amount tx /\ t_get_gas (tx_sender tx) t = t_get_gas (tx_sender tx) funded.
Proof.
  exists (demo_tx 1000 (repeat 7 64)), [Fine; Fine; Fine; Fine; Fine; Fails 0]. split; [repeat split; try (vm_compute; reflexivity); repeat constructor; vm_compute; reflexivity|]. cbv zeta. split; [intros r; vm_compute; discriminate|]. repeat split; vm_compute; reflexivity.
Qed.
