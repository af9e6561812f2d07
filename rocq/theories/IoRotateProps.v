(** Emissions that close an epoch during which I/O operations fail. *)
From Coq Require Import Lia ZifyBool ZifyNat ZifyN.
From Verif Require Import Base Sha256 Merkle Tools Transaction Block Sled Chain Tree Spec Reach LedgerSpec CrashSpec QuietSpec Conc ConcTree ConcFlush ConcEmit Cancel ConcDeriv Io IoSpec Demo.
From Verif Require Import BaseFacts ToolsFacts MerkleFacts DiffFacts CodecFacts SledFacts ChainFacts TreeFacts LedgerFacts CrashFacts CrashProps ConcFacts EmitFacts LedgerProps QuietProps MainProps EpochDemo IoFacts IoSure IoProps IoRetryProps IoMoneyProps IoFlushProps.

Local Strategy 1000 [u256_mul u256_add u256_sub BYTE_GAS_PRICE t_get_amount t_get_gas mc_decode dc_decode recalculate_fee recalculate_difficulty t_send_amount t_sub_gas sled_get check_pow emit_block next_info dc_new mc_read_config genesis_block].

Lemma missing_set (F : host -> bct) h : missing h -> missing (with_host h (F h)). Proof. intros H. exact H. Qed.
Lemma ms_tree {A} (e : out A) F : stays missing (tree_op e F). Proof. apply s_op. intros s H. exact H. Qed.
Lemma ms_mop e F : stays missing (main_op e F). Proof. apply ms_tree. Qed.
Lemma ms_dop e w F : stays missing (deriv_op e w F). Proof. apply ms_tree. Qed.
Lemma ms_mput F : stays missing (main_put F). Proof. apply s_put. intros s H. exact H. Qed.
Lemma ms_dput w F : stays missing (deriv_put w F). Proof. apply s_put. intros s H. exact H. Qed.
Lemma ms_write b d : stays missing (write_cfg_io b d). Proof. intros fs s A. unfold write_cfg_io. destruct (next_fault fs); exact A. Qed.
Lemma ms_dwrite b w d : stays missing (write_dcfg_io b w d). Proof. intros fs s A. unfold write_dcfg_io. destruct (next_fault fs); exact A. Qed.
Lemma ms_put F : stays missing (io_put (fun n => with_host n (F n))). Proof. apply s_put. intros s H. exact H. Qed.
#[export] Hint Resolve ms_tree ms_mop ms_dop ms_mput ms_dput ms_write ms_dwrite ms_put : stays.
Lemma ms_mflush : stays missing main_flush_io. Proof. unfold main_flush_io. stay. Qed.
#[export] Hint Resolve ms_mflush : stays.
Lemma ms_flush : stays missing flush_io. Proof. unfold flush_io, flush_op. stay. Qed.
#[export] Hint Resolve ms_flush : stays.
Lemma ms_find e i : stays missing (find_raw_io e i). Proof. unfold find_raw_io. stay. Qed.
#[export] Hint Resolve ms_find : stays.
Lemma ms_last : stays missing last_block_io. Proof. unfold last_block_io. stay. Qed.
Lemma ms_hash x : stays missing (find_by_hash_io x). Proof. unfold find_by_hash_io. stay. Qed.
Lemma ms_dlast w : stays missing (deriv_last_io w). Proof. unfold deriv_last_io. stay. Qed.
Lemma ms_dnew d x : stays missing (deriv_new_io d x). Proof. unfold deriv_new_io. stay. Qed.
Lemma ms_add b : stays missing (add_block_io b). Proof. unfold add_block_io. stay. Qed.
Lemma ms_dadd w i : stays missing (deriv_add_io w i). Proof. unfold deriv_add_io. stay. Qed.
Lemma ms_dflush w : stays missing (deriv_flush_io w). Proof. unfold deriv_flush_io. stay. Qed.
Lemma ms_txs l : stays missing (add_txs_io l). Proof. induction l; cbn [add_txs_io]; unfold add_tx_io; stay. Qed.
#[export] Hint Resolve ms_last ms_hash ms_dlast ms_dnew ms_add ms_dadd ms_dflush ms_txs : stays.
Lemma ms_gderiv w : stays missing (get_deriv_io w). Proof. unfold get_deriv_io. stay. Qed.
#[export] Hint Resolve ms_gderiv : stays.
Lemma ms_demit p pow w ts : stays missing (emit_deriv_io p pow w ts). Proof. unfold emit_deriv_io. stay. Qed.
(** Rotation. *)
Lemma ms_rotate : hoare missing rotate_io (fun r h => missing h /\ forall u, r <> Ok u).
Proof.
  unfold rotate_io. eapply h_bind; [apply ms_flush|intros s; repeat split; intros; try assumption; discriminate|]. intros u.
  eapply h_bind with (R := fun r h => missing h /\ match r with Ok _ => h_old_gas h = false | _ => True end).
  { intros fs s A. unfold remove_dir_io, io_op. destruct (h_old s) eqn:E.
    - destruct A as [A|A]; [congruence|]. destruct (next_fault fs) as [|[|k]]; cbn [fst snd]; (split; [right; exact A|]); auto.
    - destruct (next_fault fs) as [|[|k]]; cbn [fst snd]; (split; [left; exact E|]); auto. }
  { intros s; repeat split; intros; try discriminate; tauto. }
  intros u1. eapply h_bind with (R := fun r h => missing h /\ match r with Ok _ => h_old_gas h = false | _ => True end).
  { intros fs s [A B]. unfold create_dir_io, io_op. destruct (h_old s) eqn:E; destruct (next_fault fs) as [|[|k]]; cbn [fst snd]; (split; [right; exact B|]); auto. }
  { intros s; repeat split; intros; try discriminate; tauto. }
  intros u2. eapply h_bind with (R := fun r h => missing h /\ match r with Ok _ => False | _ => True end).
  { intros fs s [A B]. unfold remove_dir_io, io_op. rewrite B. destruct (next_fault fs) as [|[|k]]; cbn [fst snd]; (split; [right; exact B|]); exact I. }
  { intros s; repeat split; intros; try discriminate; tauto. }
  intros u3. intros fs s [_ []].
Qed.
Lemma ms_emit p pow w txs ts : hoare missing (emit_main_io p pow w txs ts) (fun r h => missing h /\ forall i root, r <> Ok (SummBlock i root)).
Proof.
  unfold emit_main_io. eapply h_bind; [apply (s_mget missing)|intros s; repeat split; intros; try assumption; discriminate|]. intros m. eapply h_bind; [apply (s_out missing)|intros s; repeat split; intros; try assumption; discriminate|]. intros i.
  eapply h_bind; [apply ms_find|intros s; repeat split; intros; try assumption; discriminate|]. intros d. eapply h_bind; [apply (s_get missing)|intros s; repeat split; intros; try assumption; discriminate|]. intros n.
  eapply h_bind; [apply (s_out missing)|intros s; repeat split; intros; try assumption; discriminate|]. intros b.
  eapply h_bind with (R := fun r h => missing h /\ match r with Ok _ => forall i root, b <> SummBlock i root | _ => True end).
  { destruct b as [fee rt i0 l|i0|i0 rt]; [apply h_out; intros s A; split; [exact A|discriminate]..|].
    eapply h_bind; [apply (s_read missing)|intros s; repeat split; intros; try assumption; exact I|]. intros u. eapply h_bind; [apply ms_rotate|intros s; repeat split; intros; tauto|].
    intros u0 fs s [_ X]. destruct (X u0 eq_refl). }
  { intros s; repeat split; intros; try discriminate; tauto. }
  intros u. apply h_pure. intros Hb. eapply h_bind; [apply ms_add|intros s; repeat split; intros; try assumption; discriminate|]. intros u0. apply h_out. intros s A. split; [exact A|]. intros i0 root X. apply ok_inv in X. exact (Hb _ _ X).
Qed.
Lemma ms_step p o : hoare missing (io_step p o) (fun r h => missing h /\ forall i root, r <> Ok (RBlock (SummBlock i root))).
Proof.
  assert (K : forall x : io host result, stays missing x -> (forall fs s b, snd (x fs s) <> Ok (RBlock b)) -> hoare missing x (fun r h => missing h /\ forall i root, r <> Ok (RBlock (SummBlock i root)))).
  { intros x S N fs s A. split; [apply S, A|]. intros i root. apply N. }
  assert (U : forall x : io host unit, stays missing x -> hoare missing (io_unit x) (fun r h => missing h /\ forall i root, r <> Ok (RBlock (SummBlock i root)))).
  { intros x S. apply K; [unfold io_unit; stay|]. intros fs s b. unfold io_unit, io_bind. destruct (x fs s) as [[f s'] []]; discriminate. }
  destruct o; cbn [io_step]; try (apply U; unfold ledger_io; solve [stay]).
  - apply U. unfold send_amount_io, ledger_io. stay.
  - apply U. unfold send_tx_io, get_gas_io, get_amount_io, add_tx_io, send_amount_io, ledger_io. stay.
  - intros fs s A. pose proof (ms_emit p pow founder txs ts fs s A) as [H1 H2]. unfold io_block, io_bind. destruct (emit_main_io p pow founder txs ts fs s) as [[f s'] [b|e| |]]; cbn [fst snd io_out] in *; (split; [exact H1|]); try discriminate. intros i root X. apply ok_inv in X. injection X as ->. exact (H2 i root eq_refl).
  - intros fs s A. unfold io_block, io_bind. pose proof (ms_demit p pow founder ts fs s A) as H1. destruct (emit_deriv_io p pow founder ts fs s) as [[f s'] [b|e| |]] eqn:E; cbn [fst snd io_out] in *; (split; [exact H1|]); try discriminate.
    intros i root X. apply ok_inv in X. injection X as ->. apply (f_equal snd) in E. cbn [snd] in E. unfold emit_deriv_io in E. destruct (bind_ok _ _ _ _ _ E) as (f1 & s1 & c & _ & E2). rewrite E2 in E. clear E2.
    destruct (bind_ok _ _ _ _ _ E) as (f2 & s2 & l & _ & E2). rewrite E2 in E. clear E2. destruct (bind_ok _ _ _ _ _ E) as (f3 & s3 & inf & _ & E2). rewrite E2 in E. clear E2. destruct (bind_ok _ _ _ _ _ E) as (f4 & s4 & u & _ & E2). rewrite E2 in E. discriminate E.
  - apply K; [stay|]. intros fs s b. unfold io_bind. destruct (get_deriv_io owner fs s) as [[f s'] []]; discriminate.
  - apply U. unfold add_new_block_io. stay.
  - intros fs s A. destruct (assoc_get _ _); [|split; [exact A|discriminate]]. exact (U _ (ms_dadd owner i) fs s A).
  - intros fs s A. destruct (assoc_get _ _); [|split; [exact A|discriminate]]. exact (U _ (ms_dflush owner) fs s A).
Qed.

(** ** Which directory is missing *)
Definition flags (o g : bool) (h : host) : Prop := h_old h = o /\ h_old_gas h = g.
Lemma fg_tree o g A (e : out A) F : stays (flags o g) (tree_op e F). Proof. apply s_op. intros s H. exact H. Qed.
Lemma fg_mop o g e F : stays (flags o g) (main_op e F). Proof. apply fg_tree. Qed.
Lemma fg_dop o g e w F : stays (flags o g) (deriv_op e w F). Proof. apply fg_tree. Qed.
Lemma fg_mput o g F : stays (flags o g) (main_put F). Proof. apply s_put. intros s H. exact H. Qed.
Lemma fg_dput o g w F : stays (flags o g) (deriv_put w F). Proof. apply s_put. intros s H. exact H. Qed.
Lemma fg_write o g b d : stays (flags o g) (write_cfg_io b d). Proof. intros fs s A. unfold write_cfg_io. destruct (next_fault fs); exact A. Qed.
Lemma fg_dwrite o g b w d : stays (flags o g) (write_dcfg_io b w d). Proof. intros fs s A. unfold write_dcfg_io. destruct (next_fault fs); exact A. Qed.
Lemma fg_put o g F : stays (flags o g) (io_put (fun n => with_host n (F n))). Proof. apply s_put. intros s H. exact H. Qed.
#[local] Hint Resolve fg_tree fg_mop fg_dop fg_mput fg_dput fg_write fg_dwrite fg_put : stays.
Lemma fg_mflush o g : stays (flags o g) main_flush_io. Proof. unfold main_flush_io. stay. Qed.
#[local] Hint Resolve fg_mflush : stays.
Lemma fg_flush o g : stays (flags o g) flush_io. Proof. unfold flush_io, flush_op. stay. Qed.
#[local] Hint Resolve fg_flush : stays.
Lemma fg_find o g e i : stays (flags o g) (find_raw_io e i). Proof. unfold find_raw_io. stay. Qed.
#[local] Hint Resolve fg_find : stays.
Lemma fg_last o g : stays (flags o g) last_block_io. Proof. unfold last_block_io. stay. Qed.
Lemma fg_hash o g x : stays (flags o g) (find_by_hash_io x). Proof. unfold find_by_hash_io. stay. Qed.
Lemma fg_dlast o g w : stays (flags o g) (deriv_last_io w). Proof. unfold deriv_last_io. stay. Qed.
Lemma fg_dnew o g d x : stays (flags o g) (deriv_new_io d x). Proof. unfold deriv_new_io. stay. Qed.
Lemma fg_add o g b : stays (flags o g) (add_block_io b). Proof. unfold add_block_io. stay. Qed.
Lemma fg_dadd o g w i : stays (flags o g) (deriv_add_io w i). Proof. unfold deriv_add_io. stay. Qed.
Lemma fg_dflush o g w : stays (flags o g) (deriv_flush_io w). Proof. unfold deriv_flush_io. stay. Qed.
Lemma fg_txs o g l : stays (flags o g) (add_txs_io l). Proof. induction l; cbn [add_txs_io]; unfold add_tx_io; stay. Qed.
#[local] Hint Resolve fg_last fg_hash fg_dlast fg_dnew fg_add fg_dadd fg_dflush fg_txs : stays.
Lemma fg_gderiv o g w : stays (flags o g) (get_deriv_io w). Proof. unfold get_deriv_io. stay. Qed.
#[local] Hint Resolve fg_gderiv : stays.
Lemma fg_demit o g p pow w ts : stays (flags o g) (emit_deriv_io p pow w ts). Proof. unfold emit_deriv_io. stay. Qed.

Definition dirs_after (o g : bool) (h : host) : Prop :=
  (o = false -> flags o g h) /\ (g = false -> h_old_gas h = false) /\ (o = true -> g = true -> h_old h = true \/ h_old_gas h = true).
Lemma da_same o g h : flags o g h -> dirs_after o g h.
Proof. intros [H1 H2]. unfold dirs_after, flags. destruct o, g; repeat split; auto; discriminate. Qed.
Lemma fg_rotate o g : hoare (flags o g) rotate_io (fun _ h => dirs_after o g h).
Proof.
  unfold rotate_io. eapply h_bind; [apply (fg_flush o g)|intros s; split; [|split]; intros; apply da_same; assumption|]. intros u.
  eapply h_bind with (R := fun r h => match r with Ok _ => o = true /\ flags false g h | _ => dirs_after o g h end).
  { apply h_op. intros s F. pose proof (da_same _ _ _ F) as D. destruct F as [F1 F2]. rewrite F1. destruct o; cbn [fst snd].
    - split; [exact D|]. split; [|split; [reflexivity|split; [reflexivity|exact F2]]]. unfold dirs_after, flags. cbn [set_old h_old h_old_gas]. rewrite F2. repeat split; auto; discriminate.
    - auto. }
  { intros s. auto. }
  intros u1. eapply h_bind with (R := fun r h => match r with Ok _ => o = true /\ flags true g h | _ => dirs_after o g h end).
  { apply h_op. intros s (-> & F1 & F2). rewrite F1. cbn [fst snd]. unfold dirs_after, flags. cbn [set_old h_old h_old_gas]. rewrite F1, F2. repeat split; auto; discriminate. }
  { intros s. auto. }
  intros u2. eapply h_bind with (R := fun r h => match r with Ok _ => o = true /\ g = true /\ flags true false h | _ => dirs_after o g h end).
  { apply h_op. intros s (-> & F1 & F2). rewrite F2. unfold dirs_after, flags. destruct g; cbn [fst snd set_old_gas h_old h_old_gas]; rewrite F1, ?F2; repeat split; auto; discriminate. }
  { intros s. auto. }
  intros u3. eapply h_bind with (R := fun r h => match r with Ok _ => o = true /\ g = true /\ flags true true h | _ => dirs_after o g h end).
  { apply h_op. intros s (-> & -> & F1 & F2). rewrite F2. unfold dirs_after, flags. cbn [fst snd set_old_gas h_old h_old_gas]. rewrite F1, F2. repeat split; auto; discriminate. }
  { intros s. auto. }
  intros u4 fs s (-> & -> & F). apply da_same. revert fs s F.
  match goal with |- forall fs s, _ -> flags true true (snd (fst (?x fs s))) => change (stays (flags true true) x) end.
  stay.
Qed.
Lemma fg_emit o g p pow w txs ts : hoare (flags o g) (emit_main_io p pow w txs ts) (fun _ h => dirs_after o g h).
Proof.
  assert (S : forall s, flags o g s -> dirs_after o g s) by (intros s; apply da_same).
  assert (K : forall x y b, dirs_after o g (MkHost fresh x y) -> hoare (flags x y) (do! _ := add_block_io b in io_out (Ok b)) (fun _ h => dirs_after o g h)).
  { intros x y b D fs s F. assert (F' : stays (flags x y) (do! _ := add_block_io b in io_out (Ok b))) by (apply s_bind; [apply fg_add|intros; apply s_out]). destruct (F' fs s F) as [<- <-]. exact D. }
  unfold emit_main_io. eapply h_bind; [apply (s_mget (flags o g))|auto|]. intros m. eapply h_bind; [apply (s_out (flags o g))|auto|]. intros i. eapply h_bind; [apply fg_find|auto|]. intros d.
  eapply h_bind; [apply (s_get (flags o g))|auto|]. intros n. eapply h_bind; [apply (s_out (flags o g))|auto|]. intros b.
  eapply h_bind with (R := fun _ h => dirs_after o g h).
  { destruct b as [fee rt i0 l|i0|i0 rt]; [apply h_out; auto..|]. eapply h_bind; [apply (s_read (flags o g))|auto|]. intros u. eapply h_bind; [apply fg_rotate|auto|].
    intros u0 fs s D. assert (F' : stays (flags (h_old s) (h_old_gas s)) (ledger_io (t_set_amount ROOT_PUBLIC_ADDRESS COINS_PER_CYCLE))) by (unfold ledger_io; stay).
    destruct (F' fs s (conj eq_refl eq_refl)) as [E1 E2]. unfold dirs_after, flags in *. rewrite E1, E2. exact D. }
  { auto. }
  intros u fs s D. refine (K (h_old s) (h_old_gas s) b _ fs s (conj eq_refl eq_refl)). exact D.
Qed.
(*@T C102: which directory: while the one of the old amounts is missing neither comes or goes; the one of the old gas does not come back; one call with failures loses at most one of them. *)
Lemma p_C102_directories : forall p h o fs, let h' := io_after (io_step p o) fs h in
  (h_old h = false -> h_old h' = false /\ h_old_gas h' = h_old_gas h) /\
  (h_old_gas h = false -> h_old_gas h' = false) /\
  (h_old h = true -> h_old_gas h = true -> h_old h' = true \/ h_old_gas h' = true).
Proof.
  intros p h o fs. cbv zeta.
  assert (D : dirs_after (h_old h) (h_old_gas h) (io_after (io_step p o) fs h)).
  { assert (U : forall A (x : io host A), stays (flags (h_old h) (h_old_gas h)) x -> dirs_after (h_old h) (h_old_gas h) (snd (fst (x fs h)))) by (intros A x S; apply da_same, S; split; reflexivity).
    unfold io_after. destruct o; cbn [io_step]; try (apply U; unfold io_unit, ledger_io; solve [stay]).
    - apply U. unfold io_unit, send_amount_io, ledger_io. stay.
    - apply U. unfold io_unit, send_tx_io, get_gas_io, get_amount_io, add_tx_io, send_amount_io, ledger_io. stay.
    - pose proof (fg_emit (h_old h) (h_old_gas h) p pow founder txs ts fs h (conj eq_refl eq_refl)) as E. unfold io_block, io_bind. destruct (emit_main_io p pow founder txs ts fs h) as [[f s'] []]; exact E.
    - apply U. unfold io_block. apply s_bind; [apply fg_demit|intros; apply s_out].
    - apply U. unfold io_unit, add_new_block_io. stay.
    - destruct (assoc_get _ _); [|apply da_same; split; reflexivity]. apply U. unfold io_unit. apply s_bind; [apply fg_dadd|intros; apply s_out].
    - destruct (assoc_get _ _); [|apply da_same; split; reflexivity]. apply U. unfold io_unit. apply s_bind; [apply fg_dflush|intros; apply s_out]. }
  destruct D as (D1 & D2 & D3). split; [|split; assumption]. intros E. destruct (D1 E) as [X1 X2]. split; congruence.
Qed.
(*@E
(* the directories after rotations in which one operation fails: the first, the second; and both, after two failures *)
Example C102_ex_directories :
  let dirs h := (h_old h, h_old_gas h) in
  let fails k h := io_after rotate_io (repeat Fine k ++ [Fails 0]) h in
  map (fun k => dirs (fails k (opened fresh))) [10; 11; 12; 13; 14]%nat = [(true, true); (false, true); (true, true); (true, false); (true, true)] /\ dirs (fails 11%nat (fails 13%nat (opened fresh))) = (false, false).
Proof. vm_compute. auto. Qed.
@*)
(** ** The theorems *)
(*@T C102: while a directory of the old databases is missing no call closes an epoch, whatever fails or not, and no call brings the
   directory back. *)
Lemma p_C102_no_epoch : forall p h o fs, missing h -> missing (io_after (io_step p o) fs h) /\ forall i root, io_result (io_step p o) fs h <> Ok (RBlock (SummBlock i root)).
Proof. intros p h o fs H. exact (ms_step p o fs h H). Qed.
(*@T C102: at the end of an epoch, while a directory is missing, no emission succeeds. *)
Lemma p_C102_stuck : forall p n h pow w txs ts fs r, io_history p n h -> few n -> op_wf (OEmitMain pow w txs ts) -> missing h -> mc_get_height (t_main (h_tree h)) mod 1000000 = 0 ->
  io_result (io_step p (OEmitMain pow w txs ts)) fs h <> Ok r.
Proof.
  intros p n h pow w txs ts fs r H Hn Hw Hm Hh E. destruct (p_C98_chain_kept p n h H Hn) as (L & HL & K). destruct (K _ fs Hw) as (L' & C & HL'). clear K. rewrite E in C. cbn [chain_after] in C. destruct r as [|b|c]; try contradiction C. destruct C as (-> & lb & _ & Hlk).
  destruct HL as (E1 & _). destruct HL' as (_ & _ & _ & X). destruct (X (length L) b) as (Hb & _); [rewrite nth_error_app2, Nat.sub_diag by lia; reflexivity|].
  destruct b as [fee rt i l|i|i rt]; cbn [main_link get_info] in *.
  - destruct Hlk as (_ & _ & _ & Hx & _). apply Hx. rewrite Hb, <- E1. exact Hh.
  - contradiction.
  - destruct (p_C102_no_epoch p h (OEmitMain pow w txs ts) fs Hm) as [_ Hx]. exact (Hx _ _ E).
Qed.
(** Emission up to the reset of the root account. *)
Definition same3 (t : bct) (h : host) : Prop := mnorm (t_main (h_tree h)) = mnorm (t_main t) /\ sled_flush (t_summary (h_tree h)) = sled_flush (t_summary t) /\ sled_flush (t_gas (h_tree h)) = sled_flush (t_gas t).
Definition reset (h : host) : Prop := t_get_amount ROOT_PUBLIC_ADDRESS (h_tree h) = Ok COINS_PER_CYCLE.
Lemma s3_same t h h' : norm (h_tree h') = norm (h_tree h) -> same3 t h -> same3 t h'.
Proof. unfold same3. intros E. apply norm_fields in E. destruct E as (E1 & _ & E2 & _ & E3 & _). rewrite E1, E2, E3. auto. Qed.
Lemma s3_fields t h h' : t_main (h_tree h') = t_main (h_tree h) -> t_summary (h_tree h') = t_summary (h_tree h) -> t_gas (h_tree h') = t_gas (h_tree h) -> same3 t h -> same3 t h'.
Proof. unfold same3. intros -> -> ->. auto. Qed.
Lemma s3_write t b d : stays (same3 t) (write_cfg_io b d).
Proof. intros fs s A. unfold write_cfg_io. destruct (next_fault fs); exact A. Qed.
Lemma s3_mflush t : stays (same3 t) main_flush_io.
Proof.
  unfold main_flush_io, main_put. apply s_bind; [apply s_mget|intros m]. repeat (apply s_bind; [first [apply s_try|apply s_read|apply s3_write|apply s_put; intros s A; exact A|apply s_op; intros s A; exact A]|intros _]).
  apply s_op; intros s A; exact A.
Qed.
Lemma s3_flush t : stays (same3 t) flush_io.
Proof. unfold flush_io, flush_op. apply s_bind; [apply s3_mflush|intros _]. repeat (apply s_bind; [apply s_op; intros s A; exact A|intros _]). apply s_op; intros s A; exact A. Qed.
#[local] Hint Resolve s3_flush : stays.
Lemma s3_rotate t : stays (same3 t) rotate_io.
Proof.
  unfold rotate_io, remove_dir_io, create_dir_io. stay; try (match goal with A : same3 t ?s |- context [if ?c then _ else _] => destruct c; exact A end).
Qed.
Lemma s3_find t e i : stays (same3 t) (find_raw_io e i). Proof. unfold find_raw_io. stay. Qed.
Lemma rs_ledger t : hoare (same3 t) (ledger_io (t_set_amount ROOT_PUBLIC_ADDRESS COINS_PER_CYCLE)) (fun r h => match r with Ok _ => reset h | _ => same3 t h \/ reset h end).
Proof.
  assert (R : forall h, reset (fst (lift_tree (t_set_amount ROOT_PUBLIC_ADDRESS COINS_PER_CYCLE) h))).
  { intros h. unfold reset. change (led_get ROOT_PUBLIC_ADDRESS (sled_commit [(ROOT_PUBLIC_ADDRESS, led_encode COINS_PER_CYCLE)] (t_summary (h_tree h))) = Ok COINS_PER_CYCLE). unfold led_get. rewrite sled_get_commit1, bytes_eqb_refl. vm_compute. reflexivity. }
  unfold ledger_io, tree_op. apply h_op. intros h H. split; [left; exact H|]. split; [right; apply R|apply R].
Qed.
Lemma rs_add b : stays reset (add_block_io b).
Proof. unfold add_block_io, main_op, main_put, tree_op. stay; match goal with A : reset ?s |- _ => exact A end. Qed.
Lemma emit_shape p pow w txs ts d t b : emit_block p pow w txs ts d t = Ok b -> match b with SummBlock i _ => txs = [] /\ bi_height i mod BLOCKS_PER_EPOCH = 0 | TxBlock _ _ _ _ => txs <> [] | DerivBlock _ => False end.
Proof.
  intros Eb. unfold emit_block in Eb. destruct (mc_decode _) as [l|e| |]; try discriminate Eb. cbn [bind] in Eb. destruct (unwrap_opt l) as [lb|e| |]; try discriminate Eb. cbn [bind] in Eb.
  destruct (check_pow _ _ _ _) as [[|]|e| |]; try discriminate Eb. cbn [bind negb] in Eb. destruct (recalculate_difficulty _ _ _ _); try discriminate Eb. cbn [bind] in Eb. destruct (recalculate_fee _); try discriminate Eb. cbn [bind] in Eb.
  destruct (u256_add _ _) as [hh|e| |]; try discriminate Eb. cbn [bind] in Eb. destruct (N.eqb_spec (hh mod BLOCKS_PER_EPOCH) 0) as [Hm|Hm].
  - destruct txs; [|discriminate Eb]. destruct (t_summarize t); try discriminate Eb. cbn [bind] in Eb. apply ok_inv in Eb. subst b. cbn [bi_height]. auto.
  - destruct txs; [discriminate Eb|]. destruct (build_tree _); try discriminate Eb. cbn [bind] in Eb. destruct (get_root _); try discriminate Eb. cbn [bind] in Eb. apply ok_inv in Eb. subst b. discriminate.
Qed.
Lemma rs_emit t p pow w ts : hoare (same3 t) (emit_main_io p pow w [] ts) (fun _ h => same3 t h \/ reset h).
Proof.
  unfold emit_main_io. eapply h_bind; [apply (s_mget (same3 t))|auto|]. intros m. eapply h_bind; [apply (s_out (same3 t))|auto|]. intros i. eapply h_bind; [apply s3_find|auto|]. intros d. eapply h_bind; [apply (s_get (same3 t))|auto|]. intros n.
  eapply h_bind with (R := fun r h => same3 t h /\ r = emit_block p pow w [] ts d (h_tree n)); [apply h_out; auto|intros s; repeat split; intros; tauto|]. intros b. apply h_pure. intros Eb. symmetry in Eb. apply emit_shape in Eb.
  destruct b as [fee rt i0 l|i0|i0 rt]; [destruct (Eb eq_refl)|destruct Eb|]. clear Eb.
  eapply h_bind with (R := fun r h => match r with Ok _ => reset h | _ => same3 t h \/ reset h end).
  { eapply h_bind; [apply (s_read (same3 t))|auto|]. intros u0. eapply h_bind; [apply s3_rotate|auto|]. intros u1. apply rs_ledger. }
  { auto. }
  intros u. eapply h_weaken with (Q' := fun _ => reset); [apply s_bind; [apply rs_add|intros; apply s_out]|intros s0 A0; exact A0|auto].
Qed.
Lemma emit_again p pow w txs ts t t' i root : mc_height (t_main t') = mc_height (t_main t) -> cur (mc_blocks (t_main t')) = cur (mc_blocks (t_main t)) -> cur (t_summary t') = cur (t_summary t) -> cur (t_gas t') = cur (t_gas t) ->
  snd (t_emmit_new_main_block p pow w txs ts t) = Ok (SummBlock i root) -> snd (t_emmit_new_main_block p pow w txs ts t') = Ok (SummBlock i root) /\ txs = [] /\ mc_height (t_main t) mod BLOCKS_PER_EPOCH = 0.
Proof.
  intros E1 E2 E3 E4. rewrite !emit_block_seq, E1. destruct (u256_sub (mc_height (t_main t)) 1) as [j|e| |]; cbn [bind]; try discriminate.
  assert (Es : t_summarize t' = t_summarize t) by (rewrite !summarize_ok; unfold sled_iter, summary_entry, sled_get; rewrite E3, E4; reflexivity).
  replace (mc_find_raw_by_height j (t_main t')) with (mc_find_raw_by_height j (t_main t)) by (unfold mc_find_raw_by_height, sled_get; rewrite E1, E2; reflexivity).
  replace (emit_block p pow w txs ts (mc_find_raw_by_height j (t_main t)) t') with (emit_block p pow w txs ts (mc_find_raw_by_height j (t_main t)) t) by (unfold emit_block; rewrite Es; reflexivity).
  destruct (emit_block p pow w txs ts (mc_find_raw_by_height j (t_main t)) t) as [b|e| |] eqn:Eb; try discriminate. apply emit_shape in Eb.
  assert (X : forall x, mc_height (t_main (emit_base b x)) = mc_height (t_main x)) by (intros x; destruct b; reflexivity).
  pose proof (X t) as X1. pose proof (X t') as X2. clear X. generalize dependent (emit_base b t). generalize dependent (emit_base b t'). intros u' Eu' u Eu. unfold mc_add_block. rewrite Eu', Eu, E1.
  destruct (N.eqb_spec (bi_height (get_info b)) (mc_height (t_main t))) as [Hb|Hb]; cbn [negb]; [|discriminate]. destruct (u256_add (mc_height (t_main t)) 1); cbn [snd bind]; try discriminate. intros R. apply ok_inv in R. subst b. cbn [get_info] in Hb. rewrite Hb in Eb. auto.
Qed.
Lemma step_emit_ok p pow w txs ts t b : snd (t_emmit_new_main_block p pow w txs ts t) = Ok b -> snd (step p t (OEmitMain pow w txs ts)) = Ok (RBlock b).
Proof. intros H. cbn [step]. destruct (t_emmit_new_main_block p pow w txs ts t) as [t1 r]. cbn [snd] in H. subst r. reflexivity. Qed.
(*@T C102: restarting repairs it.  When an emission that would have closed the epoch fails before the root account is
   reset, then the tree is flushed, closed and opened again, the same emission gives the block it would have given. *)
Lemma p_C102_restart : forall p n h pow w txs ts fs i root d, let o := OEmitMain pow w txs ts in
  io_history p n h -> few (S n) -> op_wf o -> snd (step p (h_tree h) o) = Ok (RBlock (SummBlock i root)) ->
  let h' := io_after (io_step p o) fs h in left_by (t_flush (h_tree h')) d ->
  t_get_amount ROOT_PUBLIC_ADDRESS (h_tree h') = Ok COINS_PER_CYCLE \/
  exists t, t_new d = Ok t /\ snd (step p t o) = Ok (RBlock (SummBlock i root)).
Proof.
  intros p n h pow w txs ts fs i root d o H Hn Hw Hs h' Hd. cbn [step o] in Hs.
  assert (Hs' : snd (t_emmit_new_main_block p pow w txs ts (h_tree h)) = Ok (SummBlock i root)).
  { destruct (t_emmit_new_main_block p pow w txs ts (h_tree h)) as [t1 [b|e| |]]; cbn [snd bind] in *; try discriminate Hs. apply ok_inv in Hs. injection Hs as ->. reflexivity. }
  destruct (emit_again p pow w txs ts (h_tree h) (h_tree h) i root) as (_ & Ht & Hm); try reflexivity; [exact Hs'|]. subst txs.
  pose proof (rs_emit (h_tree h) p pow w ts fs h) as S. specialize (S (conj eq_refl (conj eq_refl eq_refl))).
  assert (Eh : h' = snd (fst (emit_main_io p pow w [] ts fs h))). { unfold h', io_after, o. cbn [io_step]. unfold io_block, io_bind. destruct (emit_main_io p pow w [] ts fs h) as [[f s'] [b|e| |]]; reflexivity. }
  rewrite <- Eh in S. destruct S as [S|S]; [right|left; exact S]. destruct S as (S1 & S2 & S3).
  destruct (w_history p (S n) h') as (L & A & _); [econstructor; eassumption|exact Hn|]. destruct (reopen_eq h' L d A Hd) as [_ E]. eexists. split; [exact E|]. unfold mnorm in S1.
  assert (Q : mc_height (t_main (h_tree h')) = mc_height (t_main (h_tree h))) by exact (f_equal mc_height S1).
  destruct (emit_again p pow w [] ts (h_tree h) (MkTree0 (MkMain (sled_flush (mc_blocks (t_main (h_tree h')))) (sled_flush (mc_refs (t_main (h_tree h')))) (sled_flush (mc_txs (t_main (h_tree h')))) (mc_height (t_main (h_tree h'))) BEGINNING_DIFFICULTY (md_cfg (k_main d))) []
     (if mc_height (t_main (h_tree h')) =? 1 then sled_commit [(ROOT_PUBLIC_ADDRESS, led_encode COINS_PER_CYCLE)] (sled_flush (t_summary (h_tree h'))) else sled_flush (t_summary (h_tree h'))) (k_old_summary d) (sled_flush (t_gas (h_tree h'))) (k_old_gas d) (k_derivs d)) i root) as (R & _); cbn [t_main mc_height mc_blocks t_summary t_gas]; [exact Q|exact (f_equal (fun m => cur (mc_blocks m)) S1)| |exact (f_equal cur S3)|exact Hs'|].
  - destruct (N.eqb_spec (mc_height (t_main (h_tree h'))) 1) as [X|X]; [|exact (f_equal cur S2)]. rewrite <- Q, X in Hm. discriminate Hm.
  - apply step_emit_ok, R.
Qed.
(** ** Witnesses *)
Lemma hist_step p n t o : io_history p n (opened t) -> op_wf o -> io_history p (S n) (opened (fst (step p t o))).
Proof.
  intros H Hw. destruct (p_C97_no_faults p o [] t disk_empty) as [[E _] _]; [constructor|]. rewrite <- E. constructor; assumption.
Qed.
Lemma filled_io p (k : N) : k < 2 ^ 256 - 2 -> exists t L,
  io_history p (N.to_nat k) (opened t) /\ tree_inv t L /\ N.of_nat (length L) = k + 1 /\
  (0 < k -> last L genesis = filler k) /\ t_summary t = t_summary fresh /\ t_gas t = t_gas fresh.
Proof.
  induction k as [|k IH] using N.peano_ind; intros Hk.
  - exists fresh, [genesis]. split; [apply hist_new; vm_compute; reflexivity|]. split; [apply fresh_inv|].
    split; [reflexivity|]. split; [lia|]. vm_compute. auto.
  - destruct IH as (t & L & Hr & HL & Hlen & _ & Hs & Hg); [lia|].
    pose proof (mi_height _ _ (ti_main _ _ HL)) as Hh.
    assert (Hwf : block_wf (filler (N.succ k))) by (apply filler_wf; lia).
    pose proof (mc_add_block_right (filler (N.succ k)) (t_main t)) as Ea.
    cbn [filler get_info bi_height] in Ea. specialize (Ea ltac:(lia) ltac:(lia)).
    exists (fst (step p t (OAddNewBlock (filler (N.succ k)) []))), (L ++ [filler (N.succ k)]).
    split; [rewrite Nnat.N2Nat.inj_succ; apply hist_step; [exact Hr|split; [exact Hwf|constructor]]|].
    cbn [step ret_unit fst]. unfold t_add_new_block. rewrite Ea.
    pose proof (tree_inv_append t L (filler (N.succ k)) HL Hwf) as Hap.
    split; [apply Hap; cbn [filler get_info bi_height]; lia|]. split; [rewrite app_length; cbn [length]; lia|].
    split; [intros _; apply last_last|]. auto.
Qed.
Lemma rotate_dir t fs : rotate_io (repeat Fine 11 ++ Fails 0 :: fs) (opened t) = (fs, MkHost (t_flush t) false true, Err ETreeMoveSummary).
Proof. reflexivity. Qed.
Lemma rotate_set t fs : (do! _ := rotate_io in ledger_io (t_set_amount ROOT_PUBLIC_ADDRESS COINS_PER_CYCLE)) (repeat Fine 19 ++ fs) (opened t) = (fs, opened (rotated t), Ok tt).
Proof. reflexivity. Qed.
Lemma emit_faults p pow w t j b fs : u256_sub (mc_height (t_main t)) 1 = Ok j -> mc_height (t_main t) <? j = false -> forall ts, emit_block p pow w [] ts (mc_find_raw_by_height j (t_main t)) t = Ok b ->
  emit_main_io p pow w [] ts (Fine :: Fine :: fs) (opened t) =
  (do! _ := (do! _ := rotate_io in ledger_io (t_set_amount ROOT_PUBLIC_ADDRESS COINS_PER_CYCLE)) in do! _ := add_block_io b in io_out (Ok b)) fs (opened t).
Proof.
  intros Ej Hj ts Eb. pose proof (emit_shape _ _ _ _ _ _ _ _ Eb) as S. destruct b as [fee rt i0 l|i0|i0 rt]; [destruct (S eq_refl)|destruct S|].
  unfold emit_main_io. bo. cbn [opened h_tree]. rewrite Ej. bo.
  assert (Ef : find_raw_io EChainFindByHeight j (Fine :: Fine :: fs) (opened t) = (Fine :: fs, opened t, Ok (mc_find_raw_by_height j (t_main t)))).
  { unfold find_raw_io, mc_find_raw_by_height. bo. cbn [opened h_tree]. rewrite Hj. reflexivity. }
  rewrite (bind_out _ _ _ _ _ _ _ Ef). cbv beta iota. bo. cbn [opened h_tree]. rewrite Eb. bo. rewrite bind_assoc. reflexivity.
Qed.
Lemma emit_inv p pow w txs ts t b : snd (t_emmit_new_main_block p pow w txs ts t) = Ok b -> exists j, u256_sub (mc_height (t_main t)) 1 = Ok j /\ (mc_height (t_main t) <? j) = false /\ emit_block p pow w txs ts (mc_find_raw_by_height j (t_main t)) t = Ok b /\ bi_height (get_info b) = mc_height (t_main t).
Proof.
  rewrite emit_block_seq. unfold u256_sub. destruct (N.leb_spec 1 (mc_height (t_main t))) as [Hl|Hl]; cbn [bind]; [|discriminate]. destruct (emit_block _ _ _ _ _ _ _) as [b'|e| |] eqn:Eb; try discriminate.
  assert (X : mc_height (t_main (emit_base b' t)) = mc_height (t_main t)) by (destruct b'; reflexivity).
  unfold mc_add_block. rewrite X. destruct (N.eqb_spec (bi_height (get_info b')) (mc_height (t_main t))) as [Hb|Hb]; cbn [negb]; [|discriminate]. destruct (u256_add _ _); try discriminate. cbn [snd bind]. intros R. apply ok_inv in R. subst b'.
  eexists. split; [reflexivity|]. split; [apply N.ltb_ge; lia|]. split; [exact Eb|exact Hb].
Qed.
Lemma io_block_out {A} (x : io host A) k fs h f s r : x fs h = (f, s, r) -> io_bind x (fun a => io_out (Ok (k a))) fs h = (f, s, bind r (fun a => @Ok result (k a))).
Proof. intros E. unfold io_bind. rewrite E. destruct r; reflexivity. Qed.
Lemma ms_run p calls : forall h, missing h -> missing (io_run p h calls).
Proof. induction calls as [|[o fs] calls IH]; intros h H; [exact H|]. apply IH. exact (proj1 (p_C102_no_epoch p h o fs H)). Qed.
Definition close_op : op := OEmitMain (repeat 3 32) addrA [] 1597924900.
Lemma close_wf : op_wf close_op.
Proof. split; [split; [reflexivity|repeat constructor; reflexivity]|]. split; [split; [reflexivity|repeat constructor; reflexivity]|]. split; [constructor|reflexivity]. Qed.
(*@T C102 fails for repeating the call without a restart: one failed operation (the creation of a directory) during an
   emission that would have closed the epoch, and no call after it closes an epoch, though no balance has changed. *)
Lemma p_C102_again_refuted : forall p, exists n h o fs i root, io_history p n h /\ few n /\ op_wf o /\
  snd (step p (h_tree h) o) = Ok (RBlock (SummBlock i root)) /\ io_result (io_step p o) fs h = Err ETreeMoveSummary /\
  let h' := io_after (io_step p o) fs h in
  (forall w, t_get_amount w (h_tree h') = t_get_amount w (h_tree h) /\ t_get_gas w (h_tree h') = t_get_gas w (h_tree h)) /\
  forall calls o' gs j root', io_result (io_step p o') gs (io_run p h' calls) <> Ok (RBlock (SummBlock j root')).
Proof.
  intros p. destruct (filled_io p 999999) as (t & L & Hr & HL & Hlen & Hl & _ & _); [reflexivity|].
  pose proof (epoch_emits p t L HL Hlen (Hl eq_refl)) as E. match type of E with _ = Ok (SummBlock ?x ?r) => set (i := x) in *; set (root := r) in * end. clearbody i root.
  destruct (emit_inv _ _ _ _ _ _ _ E) as (j & Ej & Hj & Eb & _).
  pose proof (emit_faults p _ _ t j _ (repeat Fine 11 ++ [Fails 0]) Ej Hj _ Eb) as F.
  assert (F' : emit_main_io p (repeat 3 32) addrA [] 1597924900 (repeat Fine 13 ++ [Fails 0]) (opened t) = ([], MkHost (t_flush t) false true, Err ETreeMoveSummary)).
  { refine (eq_trans F _). unfold io_bind. rewrite rotate_dir. reflexivity. }
  pose proof (io_block_out _ RBlock _ _ _ _ _ F') as G.
  exists (N.to_nat 999999), (opened t), close_op, (repeat Fine 13 ++ [Fails 0]), i, root. split; [exact Hr|]. split; [unfold few; rewrite Nnat.N2Nat.id; reflexivity|]. split; [apply close_wf|]. split; [apply step_emit_ok, E|].
  assert (Ea : io_after (io_step p close_op) (repeat Fine 13 ++ [Fails 0]) (opened t) = MkHost (t_flush t) false true) by exact (f_equal (fun x => snd (fst x)) G).
  split; [exact (f_equal snd G)|]. cbv zeta. rewrite Ea. split; [intros w; split; reflexivity|]. intros calls o' gs k root'. apply p_C102_no_epoch. apply ms_run. left. reflexivity.
Qed.
Lemma close_old p pow w txs ts t i root : snd (t_emmit_new_main_block p pow w txs ts t) = Ok (SummBlock i root) -> t_old_summary (fst (step p t (OEmitMain pow w txs ts))) = sled_flush (t_summary t).
Proof.
  intros E. assert (X : t_old_summary (fst (t_emmit_new_main_block p pow w txs ts t)) = sled_flush (t_summary t)).
  { destruct (emit_inv _ _ _ _ _ _ _ E) as (j & Ej & _ & Eb & _). rewrite emit_block_seq, Ej. cbn [bind]. rewrite Eb. destruct (mc_add_block _ _). reflexivity. }
  cbn [step]. destruct (t_emmit_new_main_block p pow w txs ts t) as [t1 [b|e| |]]; exact X.
Qed.
(*@T C102 fails also where repeating the call succeeds, because the root account is reset before the block is added: an emission fails while
   adding its block, is made again and succeeds, and both the root it stores and the old balances are those after the reset;
   the closing balance of the root account, here 5, is nowhere to be found. *)
Lemma p_C102_closing_refuted : forall p, exists n h o fs i root i' root', io_history p n h /\ few n /\ op_wf o /\
  snd (step p (h_tree h) o) = Ok (RBlock (SummBlock i root)) /\ t_get_amount ROOT_PUBLIC_ADDRESS (h_tree h) = Ok 5 /\
  led_get ROOT_PUBLIC_ADDRESS (t_old_summary (fst (step p (h_tree h) o))) = Ok 5 /\
  io_result (io_step p o) fs h = Err EChainAddingBlock /\ let h' := io_after (io_step p o) fs h in
  io_result (io_step p o) [] h' = Ok (RBlock (SummBlock i' root')) /\ i' = i /\ root' <> root /\
  led_get ROOT_PUBLIC_ADDRESS (t_old_summary (h_tree (io_after (io_step p o) [] h'))) = Ok COINS_PER_CYCLE.
Proof.
  intros p. destruct (filled_io p 999999) as (t0 & L & Hr & HL & Hlen & Hl & Hs & Hg); [reflexivity|].
  assert (Wf : op_wf (OSetAmount ROOT_PUBLIC_ADDRESS 5)) by (split; [repeat constructor; reflexivity|reflexivity]).
  pose proof (hist_step p _ _ _ Hr Wf) as Hr'. set (t := fst (step p t0 (OSetAmount ROOT_PUBLIC_ADDRESS 5))) in *.
  assert (HL1 : tree_inv t L) by (eapply tree_inv_main; [exact HL|reflexivity]). pose proof (tree_inv_rotated t L HL1) as HL2.
  pose proof (epoch_emits p t L HL1 Hlen (Hl eq_refl)) as E. pose proof (epoch_emits p (rotated t) L HL2 Hlen (Hl eq_refl)) as E2.
  set (sum5 := sled_commit [(ROOT_PUBLIC_ADDRESS, led_encode 5)] (t_summary fresh)).
  assert (Es : t_summary t = sum5) by (unfold sum5; rewrite <- Hs; reflexivity).
  assert (E1r : t_summarize t = t_summarize (MkTree0 (t_main fresh) [] sum5 (t_summary fresh) (t_gas fresh) (t_gas fresh) [])) by (rewrite !summarize_ok; cbn [t_summary t_gas]; rewrite Es; change (t_gas t) with (t_gas t0); rewrite Hg; reflexivity).
  assert (E2r : t_summarize (rotated t) = t_summarize (MkTree0 (t_main fresh) [] (sled_commit [(ROOT_PUBLIC_ADDRESS, led_encode COINS_PER_CYCLE)] (sled_flush sum5)) (t_summary fresh) (sled_flush (t_gas fresh)) (t_gas fresh) [])).
  { rewrite !summarize_ok. cbn [t_summary t_gas]. rewrite <- Es, <- Hg. reflexivity. }
  rewrite E1r in E. rewrite E2r in E2. clear E1r E2r.
  match type of E with _ = Ok (SummBlock ?x ?r) => set (i := x) in *; set (root := r) in * end. match type of E2 with _ = Ok (SummBlock ?x ?r) => set (root' := r) in * end.
  assert (Hne : root' <> root) by (vm_compute; discriminate). clearbody i root root'.
  destruct (emit_inv _ _ _ _ _ _ _ E) as (j & Ej & Hj & Eb & Hb). pose proof (emit_faults p _ _ t j _ (repeat Fine 19 ++ [Fails 0]) Ej Hj _ Eb) as F.
  assert (F' : emit_main_io p (repeat 3 32) addrA [] 1597924900 (repeat Fine 21 ++ [Fails 0]) (opened t) = ([], opened (rotated t), Err EChainAddingBlock)).
  { refine (eq_trans F _). rewrite (bind_out _ _ _ _ _ _ _ (rotate_set t [Fails 0])). cbv iota beta. unfold add_block_io. rewrite bind_assoc. bo. change (mc_height (t_main (h_tree (opened (rotated t))))) with (mc_height (t_main t)). rewrite Hb, N.eqb_refl. reflexivity. }
  pose proof (io_block_out _ RBlock _ _ _ _ _ F') as G.
  exists (S (N.to_nat 999999)), (opened t), close_op, (repeat Fine 21 ++ [Fails 0]), i, root, i, root'. split; [exact Hr'|]. split; [unfold few; lia|]. split; [apply close_wf|]. split; [apply step_emit_ok, E|].
  assert (Ea : io_after (io_step p close_op) (repeat Fine 21 ++ [Fails 0]) (opened t) = opened (rotated t)) by exact (f_equal (fun x => snd (fst x)) G).
  split; [change (led_get ROOT_PUBLIC_ADDRESS (t_summary t) = Ok 5); rewrite Es; vm_compute; reflexivity|]. split; [cbn [opened h_tree]; unfold close_op; rewrite (close_old _ _ _ _ _ _ _ _ E), Es; vm_compute; reflexivity|]. split; [exact (f_equal snd G)|]. cbv zeta. rewrite Ea.
  destruct (p_C97_no_faults p close_op [] (rotated t) disk_empty) as [[Q1 Q2] _]; [constructor|]. rewrite Q1, Q2. split; [apply step_emit_ok, E2|]. split; [reflexivity|]. split; [exact Hne|].
  cbn [opened h_tree]. unfold close_op. rewrite (close_old _ _ _ _ _ _ _ _ E2). change (led_get ROOT_PUBLIC_ADDRESS (sled_commit [(ROOT_PUBLIC_ADDRESS, led_encode COINS_PER_CYCLE)] (sled_flush (t_summary t))) = Ok COINS_PER_CYCLE). unfold led_get. rewrite sled_get_commit1, bytes_eqb_refl. vm_compute. reflexivity.
Qed.
(*@E
Example C102_ex : let h := MkHost fresh false true in missing h /\ io_result (io_step Release (OEmitMain (repeat 3 32) addrA [] 1597924900)) [] h = Err ETreeCreateMainChainBlock /\
  io_result rotate_io [] h = Err ETreeMoveSummary /\ io_result rotate_io [] (opened fresh) = Ok tt.
Proof. split; [left; reflexivity|]. vm_compute. auto. Qed.
@*)

