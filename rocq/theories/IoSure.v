(** Calls that succeed although I/O operations failed. *)
From Coq Require Import Lia ZifyBool ZifyNat ZifyN.
From Verif Require Import Base Sha256 Merkle Tools Transaction Block Sled Chain Tree Spec Reach QuietSpec Conc ConcTree ConcFlush ConcEmit Cancel ConcDeriv Io IoSpec.
From Verif Require Import BaseFacts ToolsFacts MerkleFacts DiffFacts CodecFacts SledFacts ChainFacts TreeFacts LedgerFacts CrashFacts ConcFacts EmitFacts QuietProps IoFacts.

Local Strategy 1000 [u256_mul u256_add u256_sub BYTE_GAS_PRICE t_get_amount t_get_gas mc_decode dc_decode recalculate_fee recalculate_difficulty t_send_amount t_sub_gas sled_get check_pow emit_block next_info dc_new mc_read_config genesis_block].

(** ** Same tree, directories in place *)
Definition rel2 (s s' : host) : Prop := s' = opened (h_tree s).
Definition relN (s s' : host) : Prop := norm (h_tree s) = norm (h_tree s') /\ h_old s' = true /\ h_old_gas s' = true.
Definition simu {A} (R R' : host -> host -> Prop) (x : io host A) : Prop := forall fs s s' a, R s s' -> snd (x fs s) = Ok a ->
  exists s1, x [] s' = ([], s1, Ok a) /\ R' (snd (fst (x fs s))) s1.
Notation sure2 := (simu rel2 rel2).
Notation sureN := (simu relN relN).
Notation sure2N := (simu rel2 relN).
Lemma rel2N s s' : rel2 s s' -> relN s s'. Proof. intros ->. repeat split. Qed.
Lemma simu_bind {A B} R1 R2 R3 (x : io host A) (k : A -> io host B) : simu R1 R2 x -> (forall a, simu R2 R3 (k a)) -> simu R1 R3 (io_bind x k).
Proof.
  intros Hx Hk fs s s' b Hr H. destruct (bind_ok _ _ _ _ _ H) as (fs' & t & a & Ex & E). rewrite E in *. specialize (Hx fs s s' a Hr). rewrite Ex in Hx. destruct (Hx eq_refl) as (t' & Ex' & Hr'). cbn [fst snd] in Hr'.
  destruct (Hk a fs' t t' b Hr' H) as (s1 & E1 & Hr1). exists s1. split; [|exact Hr1]. unfold io_bind. rewrite Ex'. exact E1.
Qed.
Lemma simu_out {A} R (r : out A) : simu R R (io_out r).
Proof. intros fs s s' a Hr H. cbn [io_out snd] in H. subst r. exists s'. split; [reflexivity|exact Hr]. Qed.
Lemma simu_2N {A} (x : io host A) : sureN x -> sure2N x. Proof. intros H fs s s' a Hr. apply H, rel2N, Hr. Qed.
Lemma simu_22N {A} (x : io host A) : sure2 x -> sure2N x.
Proof. intros H fs s s' a Hr E. destruct (H fs s s' a Hr E) as (s1 & E1 & R1). exists s1. split; [exact E1|apply rel2N, R1]. Qed.
Lemma sure2_mget : sure2 main_get.
Proof. intros fs s s' a -> H. apply ok_inv in H. subst a. exists (opened (h_tree s)). split; reflexivity. Qed.
Lemma sure2_get {B} (k : host -> io host B) : (forall t, sure2 (k (opened t))) -> (forall n, k n = k (opened (h_tree n))) -> sure2 (do! n := io_get in k n).
Proof. intros Hk He fs s s' b -> H. change (snd (k s fs s) = Ok b) in H. change ((do! n := io_get in k n) fs s) with (k s fs s). rewrite He in *. destruct (Hk (h_tree s) fs s _ b eq_refl H) as (s1 & E1 & R1). exists s1. split; [exact E1|exact R1]. Qed.
Lemma sure2_tree {A} (e : out A) f : (forall x, e <> Ok x) -> sure2 (tree_op e f).
Proof.
  unfold tree_op. intros He fs s s' a -> H. pose proof (op_ok _ _ _ _ _ He H) as E. rewrite E in *. cbn [fst snd] in *. exists (opened (fst (f (h_tree s)))). split; [|reflexivity].
  unfold io_op. cbn [next_fault tl lift_tree fst snd h_tree opened] in *. rewrite H. reflexivity.
Qed.
Lemma sure2_read {A} (e : out A) (g : bct -> A) : (forall x, e <> Ok x) -> sure2 (io_read e (fun n => g (h_tree n))).
Proof.
  unfold io_read. intros He fs s s' a -> H. pose proof (op_ok _ _ _ _ _ He H) as E. rewrite E in *. cbn [fst snd] in *. exists (opened (h_tree s)). split; [|reflexivity].
  unfold io_op. cbn [next_fault tl fst snd h_tree opened]. rewrite H. reflexivity.
Qed.
Lemma sure2_put (f : bct -> bct) : sure2 (io_put (fun n => with_host n (f (h_tree n)))).
Proof. intros fs s s' [] -> _. exists (opened (f (h_tree s))). split; reflexivity. Qed.
Create HintDb sure2 discriminated.
#[export] Hint Resolve simu_out sure2_mget : sure2.
Ltac surely2 := repeat (cbv zeta; match goal with
  | |- simu _ _ (io_bind io_get _) => apply sure2_get; [intros|intros; reflexivity]
  | |- simu _ _ (io_bind _ _) => apply simu_bind with (R2 := rel2); [|intros]
  | |- simu _ _ (if ?c then _ else _) => destruct c
  | |- simu _ _ (match ?c with _ => _ end) => destruct c
  | |- simu _ _ (io_read _ (fun n => sled_get ?k (mc_blocks (t_main (h_tree n))))) => apply (sure2_read _ (fun t => sled_get k (mc_blocks (t_main t)))); discriminate
  | |- simu _ _ (io_read _ (fun n => sled_get ?k (mc_refs (t_main (h_tree n))))) => apply (sure2_read _ (fun t => sled_get k (mc_refs (t_main t)))); discriminate
  | |- simu _ _ (io_read _ (fun _ => ?c)) => apply (sure2_read _ (fun _ => c)); discriminate
  | |- simu _ _ (tree_op _ _) => apply sure2_tree; discriminate
  | |- simu _ _ (main_op _ _) => apply sure2_tree; discriminate
  | |- simu _ _ (deriv_op _ _ _) => apply sure2_tree; discriminate
  | |- simu _ _ (ledger_io _) => apply sure2_tree; discriminate
  | |- simu _ _ (main_put ?f) => apply (sure2_put (fun t => with_main t (f (t_main t))))
  | |- simu _ _ (deriv_put ?w ?f) => apply (sure2_put (set_deriv w f))
  | _ => solve [auto with sure2]
  end).
Lemma u_find e i : sure2 (find_raw_io e i). Proof. unfold find_raw_io. surely2. Qed.
#[export] Hint Resolve u_find : sure2.
Lemma u_last : sure2 last_block_io. Proof. unfold last_block_io. surely2. Qed.
Lemma u_hash x : sure2 (find_by_hash_io x). Proof. unfold find_by_hash_io. surely2. Qed.
Lemma u_add b : sure2 (add_block_io b). Proof. unfold add_block_io. surely2. Qed.
Lemma u_tx x : sure2 (add_tx_io x). Proof. unfold add_tx_io. surely2. Qed.
#[export] Hint Resolve u_last u_hash u_add u_tx : sure2.
Lemma u_txs l : sure2 (add_txs_io l). Proof. induction l; cbn [add_txs_io]; surely2. Qed.
Lemma u_dlast w : sure2 (deriv_last_io w). Proof. unfold deriv_last_io. surely2. Qed.
Lemma u_dadd w i : sure2 (deriv_add_io w i). Proof. unfold deriv_add_io. surely2. Qed.
Lemma u_send a b x : sure2 (send_amount_io a b x). Proof. unfold send_amount_io. surely2. Qed.
#[export] Hint Resolve u_txs u_dlast u_dadd u_send : sure2.
Lemma u_new b l : sure2 (add_new_block_io b l). Proof. unfold add_new_block_io. surely2. Qed.
Lemma u_sendtx x : sure2 (send_tx_io x). Proof. unfold send_tx_io, get_gas_io, get_amount_io. surely2. Qed.
#[export] Hint Resolve u_new u_sendtx : sure2.
Lemma u_dnew d g : file_cur (dd_cfg d) = None -> sure2 (deriv_new_io d g).
Proof.
  intros E. unfold deriv_new_io. rewrite E. do 2 (apply simu_bind with (R2 := rel2); [apply (sure2_read _ (fun _ => tt)); discriminate|intros _]). intros fs s s' a -> H. unfold io_bind, io_try in *. cbn [fst snd io_out] in *. apply ok_inv in H. subst a.
  exists (opened (h_tree s)). split; reflexivity.
Qed.
Definition open_it (w : bytes) (l : list (bytes * deriv_disk)) : io host deriv_chain :=
  do! last := last_block_io in do! b := io_out (unwrap_opt last) in
  do! c := deriv_new_io (match assoc_get (hex_encode w) l with Some d => d | None => deriv_disk_empty end) (block_hash b) in
  do! _ := io_put (fun n => with_host n (with_derivs (h_tree n) (assoc_set w c (t_derivs (h_tree n))))) in io_out (Ok c).
Lemma gderiv_eq w fs s : get_deriv_io w fs s = match assoc_get w (t_derivs (h_tree s)) with Some c => (fs, s, Ok c) | None => open_it w (t_closed (h_tree s)) fs s end.
Proof. unfold get_deriv_io, open_it. erewrite bind_out by reflexivity. cbv iota beta. destruct (assoc_get w (t_derivs (h_tree s))); reflexivity. Qed.
Lemma u_gderiv w fs s a : no_config w (h_tree s) -> snd (get_deriv_io w fs s) = Ok a ->
  exists s1, get_deriv_io w [] (opened (h_tree s)) = ([], s1, Ok a) /\ rel2 (snd (fst (get_deriv_io w fs s))) s1.
Proof.
  intros N. rewrite !gderiv_eq. cbn [opened h_tree]. destruct (assoc_get w (t_derivs (h_tree s))) as [c|] eqn:G; intros H.
  - apply ok_inv in H. subst a. exists (opened (h_tree s)). split; reflexivity.
  - destruct N as [N|N]; [congruence|]. assert (S : sure2 (open_it w (t_closed (h_tree s)))); [|exact (S fs s _ a eq_refl H)].
    unfold open_it. apply simu_bind with (R2 := rel2); [apply u_last|intros]. apply simu_bind with (R2 := rel2); [apply simu_out|intros]. apply simu_bind with (R2 := rel2).
    + apply u_dnew. destruct (assoc_get (hex_encode w) (t_closed (h_tree s))) as [d|] eqn:D; [apply N; reflexivity|reflexivity].
    + intros c. apply simu_bind with (R2 := rel2); [apply (sure2_put (fun t => with_derivs t (assoc_set w c (t_derivs t))))|intros; apply simu_out].
Qed.

(** The same when the config file can be opened. *)
Lemma read_nil {A} e (f : host -> A) s : io_read e f [] s = ([], s, Ok (f s)). Proof. reflexivity. Qed.
Lemma read_one {A} (e : out A) (f : host -> A) fs s a : (forall x, e <> Ok x) -> snd (io_read e f fs s) = Ok a -> io_read e f fs s = (tl fs, s, Ok (f s)).
Proof. unfold io_read. intros He H. rewrite (op_ok _ _ _ _ _ He H). reflexivity. Qed.
Lemma last_one fs s a : snd (last_block_io fs s) = Ok a -> fst (last_block_io fs s) = (tl fs, s).
Proof.
  unfold last_block_io, main_get. intros H. bo. erewrite bind_out in H by reflexivity. cbv beta iota in H.
  unfold u256_sub in *. destruct (1 <=? mc_height (t_main (h_tree s))) eqn:E; cbn [io_out] in *; [|cbn in H; discriminate H].
  erewrite bind_out in H by reflexivity. erewrite bind_out by reflexivity. cbv beta iota in *.
  unfold find_raw_io, main_get in *. destruct (bind_ok _ _ _ _ _ H) as (f1 & s1 & d & E1 & E2). rewrite E2 in *. cbn [io_out fst].
  erewrite bind_out in E1 by reflexivity. cbv beta iota in E1. destruct (N.ltb_spec (mc_height (t_main (h_tree s))) (mc_height (t_main (h_tree s)) - 1)); [lia|].
  pose proof E1 as E3. apply (f_equal snd) in E3. cbn [snd] in E3. rewrite (read_one (Err EChainFindByHeight) _ fs s d ltac:(discriminate) E3) in E1. injection E1 as <- <- _. reflexivity.
Qed.
Lemma nth_tl {A} n (l : list A) d : nth n (tl l) d = nth (S n) l d. Proof. destruct l; [destruct n; reflexivity|reflexivity]. Qed.
Lemma dnew_opens d g fs s a : nth 2 fs Fine = Fine -> snd (deriv_new_io d g fs s) = Ok a -> exists fs', deriv_new_io d g fs s = (fs', s, Ok a) /\ dc_new d g = Ok a.
Proof.
  unfold deriv_new_io. intros F H. destruct (bind_ok _ _ _ _ _ H) as (f1 & s1 & u1 & E1 & E2). rewrite E2 in *. clear E2.
  pose proof E1 as X. apply (f_equal snd) in X. cbn [snd] in X. rewrite (read_one (Err EChainInit) _ fs s _ ltac:(discriminate) X) in E1. injection E1 as <- <- _. clear X.
  destruct (bind_ok _ _ _ _ _ H) as (f2 & s2 & u2 & E1 & E2). rewrite E2 in *. clear E2.
  pose proof E1 as X. apply (f_equal snd) in X. cbn [snd] in X. rewrite (read_one (Err EChainInit) _ (tl fs) s _ ltac:(discriminate) X) in E1. injection E1 as <- <- _. clear X.
  unfold io_bind at 1 in H. unfold io_bind at 1. unfold io_try in *. assert (N : next_fault (tl (tl fs)) = Fine). { rewrite <- !nth_tl in F. destruct (tl (tl fs)) as [|x l]; [reflexivity|exact F]. }
  rewrite N in *. cbv beta iota in *. unfold dc_new in *. destruct (file_cur (dd_cfg d)) as [x|].
  - destruct (bind_ok _ _ _ _ _ H) as (f3 & s3 & u3 & E1 & E2). rewrite E2 in *. clear E2.
    pose proof E1 as X. apply (f_equal snd) in X. cbn [snd] in X. rewrite (read_one (Err EChainInit) _ _ s _ ltac:(discriminate) X) in E1. injection E1 as <- <- _. cbn [io_out snd] in *. eexists. split; [rewrite <- H; reflexivity|exact H].
  - cbn [io_out snd] in *. eexists. split; [rewrite <- H; reflexivity|exact H].
Qed.
Lemma u_gderiv_opens w fs s a : no_config w (h_tree s) \/ deriv_config_opens fs -> snd (get_deriv_io w fs s) = Ok a ->
  exists s1, get_deriv_io w [] (opened (h_tree s)) = ([], s1, Ok a) /\ rel2 (snd (fst (get_deriv_io w fs s))) s1.
Proof.
  intros [N|F] H; [apply u_gderiv; assumption|]. rewrite !gderiv_eq in *. cbn [opened h_tree] in *. destruct (assoc_get w (t_derivs (h_tree s))) as [c|] eqn:G.
  - apply ok_inv in H. subst a. exists (opened (h_tree s)). split; reflexivity.
  - unfold open_it in *. destruct (bind_ok _ _ _ _ _ H) as (f1 & s1 & lb & E1 & E2). rewrite E2 in *. clear E2.
    pose proof (f_equal snd E1) as X. cbn [snd] in X. pose proof (last_one _ _ _ X) as Y. rewrite E1 in Y. cbn [fst] in Y. apply pair_inv in Y as [-> ->].
    destruct (u_last fs s _ lb eq_refl X) as (s2 & E2 & _). pose proof (last_one [] (opened (h_tree s)) lb) as Y. rewrite E2 in Y. cbn [fst snd] in Y. specialize (Y eq_refl). apply pair_inv in Y as [_ ->].
    rewrite (bind_out _ _ _ _ _ _ _ E2). clear E1 E2 X.
    destruct (bind_ok _ _ _ _ _ H) as (f1 & s1 & b & E1 & E2). rewrite E2 in *. clear E2. unfold io_out in E1. injection E1 as <- <- Eb.
    erewrite (bind_out (io_out (unwrap_opt lb))) by reflexivity. rewrite Eb.
    destruct (bind_ok _ _ _ _ _ H) as (f1 & s1 & c & E1 & E2). rewrite E2 in *. clear E2. pose proof (f_equal snd E1) as X. cbn [snd] in X.
    unfold deriv_config_opens in F. rewrite <- nth_tl in F. destruct (dnew_opens _ _ _ _ _ F X) as (f3 & E3 & E4). rewrite E1 in E3. injection E3 as -> ->.
    rewrite (bind_out _ _ _ _ _ _ _ (dnew_nil _ _ _)), E4. cbn [io_bind io_put io_out fst snd] in *. apply ok_inv in H. subst a. eexists. split; reflexivity.
Qed.

(** ** Up to what is on disk *)
Lemma sureN_op {A} (e : out A) (f : bct -> bct * out A) : (forall x, e <> Ok x) ->
  (forall t t', norm t = norm t' -> norm (fst (f t)) = norm (fst (f t')) /\ snd (f t) = snd (f t')) -> sureN (tree_op e f).
Proof.
  unfold tree_op. intros He Hf fs s s' a (R1 & R2 & R3) H. pose proof (op_ok _ _ _ _ _ He H) as E. rewrite E in *. cbn [fst snd lift_tree] in *. destruct (Hf _ _ R1) as [F1 F2]. rewrite F2 in H.
  exists (with_host s' (fst (f (h_tree s')))). split; [unfold io_op; cbn [next_fault tl lift_tree fst snd]; rewrite H; reflexivity|]. repeat split; [exact F1|exact R2|exact R3].
Qed.
Lemma sureN_unit e : (forall x : unit, e <> Ok x) -> sureN (io_read e (fun _ => tt)).
Proof.
  unfold io_read. intros He fs s s' a R H. pose proof (op_ok _ _ _ _ _ He H) as E. rewrite E in *. cbn [fst snd] in *. exists s'. split; [|exact R]. unfold io_op. cbn [next_fault tl fst snd]. rewrite H. reflexivity.
Qed.
(** A flush changes nothing that can be asked, failing or not. *)
Definition same_as (t0 : bct) (o g : bool) (h : host) : Prop := norm (h_tree h) = norm t0 /\ h_old h = o /\ h_old_gas h = g.
Lemma sa_tree t0 o g {A} (e : out A) f : (forall t, norm (fst (f t)) = norm t) -> stays (same_as t0 o g) (tree_op e f).
Proof. intros Hf. apply s_op. intros s (A1 & A2 & A3). cbn [lift_tree fst]. split; [cbn [with_host h_tree]; rewrite Hf; exact A1|split; assumption]. Qed.
Lemma sa_write t0 o g b d : stays (same_as t0 o g) (write_cfg_io b d).
Proof. intros fs s (A1 & A2 & A3). unfold write_cfg_io. destruct (next_fault fs); cbn [fst snd]; (split; [exact A1|split; assumption]). Qed.
Lemma set_deriv_norm w f t : assoc_get w (t_derivs t) <> None -> (forall c, dnorm (f c) = dnorm c) -> norm (set_deriv w f t) = norm t.
Proof.
  intros G Hf. transitivity (norm (with_derivs t (t_derivs t))); [|destruct t; reflexivity]. apply norm_with_derivs; [reflexivity|]. rewrite ndnorm_set, Hf. unfold deriv_of.
  destruct (assoc_get w (t_derivs t)) as [c|] eqn:E; [|congruence]. rewrite <- ndnorm_set. clear Hf f G. revert E. generalize (t_derivs t) as l. induction l as [|[k d] l IH]; cbn [assoc_get assoc_set]; [discriminate|].
  destruct (bytes_eqb w k) eqn:B; [|intros E; cbn [ndnorm map fst snd]; f_equal; exact (IH E)]. intros [= <-]. apply bytes_eqb_eq in B. subst k. reflexivity.
Qed.
Lemma sa_mflush t0 o g : stays (same_as t0 o g) main_flush_io.
Proof. unfold main_flush_io, main_op. stay; try (apply sa_tree; reflexivity); try apply sa_write. Qed.
#[export] Hint Resolve sa_mflush : stays.
Lemma sa_flush t0 o g : stays (same_as t0 o g) flush_io.
Proof. unfold flush_io, flush_op. stay; apply sa_tree; reflexivity. Qed.
Definition same_with (w : bytes) (t0 : bct) (o g : bool) (h : host) : Prop := same_as t0 o g h /\ assoc_get w (t_derivs (h_tree h)) <> None.
Lemma sw_set w t0 o g f h : same_with w t0 o g h -> (forall c, dnorm (f c) = dnorm c) -> same_with w t0 o g (with_host h (set_deriv w f (h_tree h))).
Proof.
  intros [(A1 & A2 & A3) A4] Hf. split; [split; [cbn [with_host h_tree]; rewrite set_deriv_norm by assumption; exact A1|split; assumption]|].
  cbn [with_host h_tree set_deriv with_derivs t_derivs]. rewrite assoc_get_set. discriminate.
Qed.
Lemma sw_op w t0 o g e f : (forall c, dnorm (f c) = dnorm c) -> stays (same_with w t0 o g) (deriv_op e w f).
Proof. intros Hf. apply s_op. intros s A. cbn [lift_tree fst]. apply sw_set; assumption. Qed.
Lemma sw_write w t0 o g b d : stays (same_with w t0 o g) (write_dcfg_io b w d).
Proof. intros fs s A. unfold write_dcfg_io. destruct (next_fault fs); cbn [fst snd]; (apply sw_set; [exact A|reflexivity]). Qed.
Lemma sa_dflush w t0 o g : stays (same_with w t0 o g) (deriv_flush_io w).
Proof. unfold deriv_flush_io. stay; try (apply sw_op; reflexivity); try apply sw_write. Qed.

Lemma sureN_flush : sureN flush_io.
Proof.
  intros fs s s' [] (R1 & R2 & R3) H. pose proof (sa_flush (h_tree s) (h_old s) (h_old_gas s) fs s (conj eq_refl (conj eq_refl eq_refl))) as (A1 & A2 & A3).
  pose proof (sa_flush (h_tree s') (h_old s') (h_old_gas s') [] s' (conj eq_refl (conj eq_refl eq_refl))) as (B1 & B2 & B3). exists (snd (fst (flush_io [] s'))). split.
  - reflexivity.
  - repeat split; congruence.
Qed.
Lemma remove_ok fs s a th se : snd (remove_dir_io th se fs s) = Ok a -> th s = true /\ snd (fst (remove_dir_io th se fs s)) = se false s.
Proof.
  unfold remove_dir_io. intros H. assert (He : forall x : unit, Err ETreeMoveSummary <> Ok x) by discriminate. pose proof (op_ok _ _ _ _ _ He H) as E. rewrite E in *. cbn [fst snd] in *. destruct (th s); [auto|discriminate H].
Qed.
Lemma create_ok fs s a th se : snd (create_dir_io th se fs s) = Ok a -> th s = false /\ snd (fst (create_dir_io th se fs s)) = se true s.
Proof.
  unfold create_dir_io. intros H. assert (He : forall x : unit, Err ETreeMoveSummary <> Ok x) by discriminate. pose proof (op_ok _ _ _ _ _ He H) as E. rewrite E in *. cbn [fst snd] in *. destruct (th s); [discriminate H|auto].
Qed.
Lemma bind_assoc {A B C} (x : io host A) (k : A -> io host B) (l : B -> io host C) fs s : io_bind (io_bind x k) l fs s = io_bind x (fun a => io_bind (k a) l) fs s.
Proof. unfold io_bind. destruct (x fs s) as [[fs' s'] [a|e| |]]; reflexivity. Qed.
Lemma sureN_old : sureN (do! _ := remove_dir_io h_old set_old in create_dir_io h_old set_old).
Proof.
  intros fs s s' [] (R1 & R2 & R3) H. destruct (bind_ok _ _ _ _ _ H) as (fs' & t & a & Ex & E). rewrite E in *. pose proof (remove_ok fs s a h_old set_old) as X. rewrite Ex in X. destruct (X eq_refl) as [X1 X2]. cbn [fst snd] in X2. subst t.
  destruct (create_ok _ _ _ _ _ H) as [X3 X4]. rewrite X4. exists s'. split; [destruct s' as [t o g]; cbn in R2, R3; subst o g; reflexivity|]. repeat split; assumption.
Qed.
Lemma sureN_old_gas : sureN (do! _ := remove_dir_io h_old_gas set_old_gas in create_dir_io h_old_gas set_old_gas).
Proof.
  intros fs s s' [] (R1 & R2 & R3) H. destruct (bind_ok _ _ _ _ _ H) as (fs' & t & a & Ex & E). rewrite E in *. pose proof (remove_ok fs s a h_old_gas set_old_gas) as X. rewrite Ex in X. destruct (X eq_refl) as [X1 X2]. cbn [fst snd] in X2. subst t.
  destruct (create_ok _ _ _ _ _ H) as [X3 X4]. rewrite X4. exists s'. split; [destruct s' as [t o g]; cbn in R2, R3; subst o g; reflexivity|]. repeat split; assumption.
Qed.
Lemma simu_ext {A} R R' (x y : io host A) : (forall fs s, x fs s = y fs s) -> simu R R' y -> simu R R' x.
Proof. intros E H fs s s' a Hr Hs. rewrite !E in *. apply (H fs s s' a Hr Hs). Qed.
Lemma sureN_put (f : bct -> bct) : (forall t t', norm t = norm t' -> norm (f t) = norm (f t')) -> sureN (io_put (fun n => with_host n (f (h_tree n)))).
Proof. intros Hf fs s s' [] (R1 & R2 & R3) _. exists (with_host s' (f (h_tree s'))). split; [reflexivity|]. repeat split; [apply Hf, R1|exact R2|exact R3]. Qed.
Lemma norm_fields t t' : norm t = norm t' -> mnorm (t_main t) = mnorm (t_main t') /\ ndnorm (t_derivs t) = ndnorm (t_derivs t') /\ sled_flush (t_summary t) = sled_flush (t_summary t') /\
  sled_flush (t_old_summary t) = sled_flush (t_old_summary t') /\ sled_flush (t_gas t) = sled_flush (t_gas t') /\ sled_flush (t_old_gas t) = sled_flush (t_old_gas t') /\ t_closed t = t_closed t'.
Proof.
  intros E. exact (conj (f_equal t_main E) (conj (f_equal t_derivs E) (conj (f_equal t_summary E) (conj (f_equal t_old_summary E) (conj (f_equal t_gas E) (conj (f_equal t_old_gas E) (f_equal t_closed E))))))).
Qed.
Lemma fields_norm t t' : mnorm (t_main t) = mnorm (t_main t') -> ndnorm (t_derivs t) = ndnorm (t_derivs t') -> sled_flush (t_summary t) = sled_flush (t_summary t') ->
  sled_flush (t_old_summary t) = sled_flush (t_old_summary t') -> sled_flush (t_gas t) = sled_flush (t_gas t') -> sled_flush (t_old_gas t) = sled_flush (t_old_gas t') -> t_closed t = t_closed t' -> norm t = norm t'.
Proof. intros. unfold norm. congruence. Qed.
Lemma sureN_rotate : sureN rotate_io.
Proof.
  eapply simu_ext with (y := do! _ := flush_io in do! _ := (do! _ := remove_dir_io h_old set_old in create_dir_io h_old set_old) in
    do! _ := (do! _ := remove_dir_io h_old_gas set_old_gas in create_dir_io h_old_gas set_old_gas) in
    do! _ := io_read (Err ETreeMoveSummary) (fun _ => tt) in do! _ := io_read (Err ETreeMoveSummary) (fun _ => tt) in do! _ := io_read (Err ETreeInit) (fun _ => tt) in
    do! _ := io_put (fun n => with_host n (oh_old (fun _ => sled_flush (t_summary (h_tree n))) (h_tree n))) in
    do! _ := io_read (Err ETreeInit) (fun _ => tt) in
    io_put (fun n => with_host n (oh_old_gas (fun _ => sled_flush (t_gas (h_tree n))) (h_tree n)))).
  { intros fs s. unfold rotate_io. unfold io_bind at 1. unfold io_bind at 10. destruct (flush_io fs s) as [[f1 s1] [a|e| |]]; try reflexivity. rewrite bind_assoc. unfold io_bind at 1. unfold io_bind at 9. destruct (remove_dir_io h_old set_old f1 s1) as [[f2 s2] [b|e| |]]; try reflexivity.
    unfold io_bind at 1. unfold io_bind at 8. destruct (create_dir_io h_old set_old f2 s2) as [[f3 s3] [c|e| |]]; try reflexivity. rewrite bind_assoc. reflexivity. }
  apply simu_bind with (R2 := relN); [apply sureN_flush|intros _]. apply simu_bind with (R2 := relN); [apply sureN_old|intros _]. apply simu_bind with (R2 := relN); [apply sureN_old_gas|intros _].
  do 3 (apply simu_bind with (R2 := relN); [apply sureN_unit; discriminate|intros _]).
  apply simu_bind with (R2 := relN); [apply (sureN_put (fun t => oh_old (fun _ => sled_flush (t_summary t)) t))|intros _]; [intros t t' E; apply norm_fields in E; destruct E as (E1 & E2 & E3 & E4 & E5 & E6 & E7); apply fields_norm; cbn [oh_old t_main t_derivs t_summary t_old_summary t_gas t_old_gas t_closed]; congruence|].
  apply simu_bind with (R2 := relN); [apply sureN_unit; discriminate|intros _].
  apply (sureN_put (fun t => oh_old_gas (fun _ => sled_flush (t_gas t)) t)). intros t t' E; apply norm_fields in E; destruct E as (E1 & E2 & E3 & E4 & E5 & E6 & E7); apply fields_norm; cbn [oh_old_gas t_main t_derivs t_summary t_old_summary t_gas t_old_gas t_closed]; congruence.
Qed.
Lemma sureN_set w a : sureN (ledger_io (t_set_amount w a)).
Proof. apply sureN_op; [discriminate|]. intros t t' E. apply (quiet_alike (t_set_amount w a) t t'); [|exact E]. intros t0. apply on_summary_norm, led_set_keeps. Qed.
Lemma mnorm_fields m m' : mnorm m = mnorm m' -> sled_flush (mc_blocks m) = sled_flush (mc_blocks m') /\ sled_flush (mc_refs m) = sled_flush (mc_refs m') /\ sled_flush (mc_txs m) = sled_flush (mc_txs m') /\ mc_height m = mc_height m'.
Proof. intros E. exact (conj (f_equal mc_blocks E) (conj (f_equal mc_refs E) (conj (f_equal mc_txs E) (f_equal mc_height E)))). Qed.
Lemma flush_insert k v s s' : sled_flush s = sled_flush s' -> sled_flush (sled_insert k v s) = sled_flush (sled_insert k v s').
Proof. intros E. unfold sled_insert. rewrite <- (flush_commit _ s), <- (flush_commit _ s'), E. reflexivity. Qed.
Lemma norm_main t t' f f' : norm t = norm t' -> (mnorm (t_main t) = mnorm (t_main t') -> mnorm f = mnorm f') -> norm (with_main t f) = norm (with_main t' f').
Proof. intros E H. apply norm_with_main; [exact E|apply H]. exact (f_equal t_main E). Qed.
Lemma sureN_add b : sureN (add_block_io b).
Proof.
  unfold add_block_io. intros fs s s' u R. pose proof R as (R1 & R2 & R3). erewrite bind_out by reflexivity. erewrite bind_out by reflexivity. cbv iota beta.
  pose proof (mnorm_fields _ _ (f_equal t_main R1)) as (_ & _ & _ & Eh). rewrite <- Eh. revert u.
  match goal with |- forall u, snd (?x _ _) = _ -> _ => assert (S : sureN x); [|exact (fun u => S fs s s' u R)] end.
  destruct (negb _); [apply simu_out|]. apply simu_bind with (R2 := relN); [apply sureN_op; [discriminate|]|intros _].
  { intros t t' E. split; [|reflexivity]. apply norm_main; [exact E|]. intros Em. apply mnorm_fields in Em. destruct Em as (F1 & F2 & F3 & F4). unfold mnorm, put_block. cbn [mc_blocks mc_refs mc_txs mc_height]. rewrite F4 in *. erewrite (flush_insert _ _ (mc_blocks (t_main t))) by exact F1. congruence. }
  apply simu_bind with (R2 := relN); [apply sureN_op; [discriminate|]|intros _].
  { intros t t' E. split; [|reflexivity]. apply norm_main; [exact E|]. intros Em. apply mnorm_fields in Em. destruct Em as (F1 & F2 & F3 & F4). unfold mnorm, put_ref. cbn [mc_blocks mc_refs mc_txs mc_height]. rewrite F4 in *. erewrite (flush_insert _ _ (mc_refs (t_main t))) by exact F2. congruence. }
  apply simu_bind with (R2 := relN); [apply simu_out|intros h]. apply (sureN_put (fun t => with_main t (put_height h (t_main t)))).
  intros t t' E. apply norm_main; [exact E|]. intros Em. apply mnorm_fields in Em. destruct Em as (F1 & F2 & F3 & F4). unfold mnorm, put_height. cbn [mc_blocks mc_refs mc_txs mc_height]. congruence.
Qed.
Lemma sure2N_emit p w f txs ts : sure2N (emit_main_io p w f txs ts).
Proof.
  unfold emit_main_io. apply simu_bind with (R2 := rel2); [apply sure2_mget|intros m]. apply simu_bind with (R2 := rel2); [apply simu_out|intros i]. apply simu_bind with (R2 := rel2); [apply u_find|intros d].
  intros fs s s' a -> H. unfold io_bind at 1 in H. cbn [io_get] in H. cbv iota beta in H. erewrite bind_out by reflexivity. erewrite bind_out by reflexivity. cbv iota beta. cbn [h_tree opened]. revert a H.
  match goal with |- forall u, snd (?x _ _) = _ -> _ => assert (S : sure2N x); [|exact (fun u => S fs s (opened (h_tree s)) u eq_refl)] end.
  apply simu_bind with (R2 := rel2); [apply simu_out|intros b]. apply simu_2N. apply simu_bind with (R2 := relN).
  - destruct b; [apply simu_out..|]. apply simu_bind with (R2 := relN); [apply sureN_unit; discriminate|intros _]. apply simu_bind with (R2 := relN); [apply sureN_rotate|intros _]. apply sureN_set.
  - intros _. apply simu_bind with (R2 := relN); [apply sureN_add|intros _]. apply simu_out.
Qed.
Lemma flushes_nil {A} (x : io host A) fs s a t0 : (forall o g, stays (same_as t0 o g) x) -> t0 = h_tree s -> snd (x fs s) = Ok a -> norm (h_tree (snd (fst (x fs s)))) = norm t0.
Proof. intros H -> _. apply (H (h_old s) (h_old_gas s) fs s). repeat split. Qed.
Lemma s2_unit (x : io host unit) : sure2 x -> sure2 (io_unit x). Proof. intros H. apply simu_bind with (R2 := rel2); [exact H|intros; apply simu_out]. Qed.
Lemma s2_block (x : io host block) : sure2N x -> sure2N (io_block x). Proof. intros H. apply simu_bind with (R2 := relN); [exact H|intros; apply simu_out]. Qed.
Lemma unit_ok {St} (x : io St unit) fs s r : snd (io_unit x fs s) = Ok r -> r = RUnit /\ snd (x fs s) = Ok tt /\ snd (fst (io_unit x fs s)) = snd (fst (x fs s)).
Proof. unfold io_unit. intros H. destruct (bind_ok _ _ _ _ _ H) as (fs' & t & [] & Ex & E). rewrite E in *. rewrite Ex. cbn in *. injection H as <-. auto. Qed.
Lemma ok_step p o fs h r : opens_nothing o (h_tree h) \/ deriv_config_opens fs -> snd (io_step p o fs h) = Ok r ->
  snd (step p (h_tree h) o) = Ok r /\ norm (h_tree (snd (fst (io_step p o fs h)))) = norm (fst (step p (h_tree h) o)).
Proof.
  intros Ho H.
  assert (K : (exists s1, io_step p o [] (opened (h_tree h)) = ([], s1, Ok r) /\ relN (snd (fst (io_step p o fs h))) s1) -> snd (step p (h_tree h) o) = Ok r /\ norm (h_tree (snd (fst (io_step p o fs h)))) = norm (fst (step p (h_tree h) o))).
  { intros (s1 & E & R & _). rewrite step_nil in E. injection E as E1 E2. rewrite E2, R, <- E1. auto. }
  assert (K2 : sure2N (io_step p o) -> exists s1, io_step p o [] (opened (h_tree h)) = ([], s1, Ok r) /\ relN (snd (fst (io_step p o fs h))) s1).
  { intros S. exact (S fs h _ r eq_refl H). }
  destruct o; try (apply K, K2; cbn [io_step]; apply simu_22N, s2_unit; surely2; fail); cbn [io_step] in H; cbn [io_step].
  - apply K, K2. apply s2_block, sure2N_emit.
  - apply K. clear K K2. cbn [io_step opens_nothing] in *. unfold io_block in *. destruct (bind_ok _ _ _ _ _ H) as (f1 & s1 & b & E1 & E2). rewrite E2 in *.
    assert (S : exists s2, emit_deriv_io p pow founder ts [] (opened (h_tree h)) = ([], s2, Ok b) /\ rel2 s1 s2).
    { unfold emit_deriv_io in *. pose proof (f_equal snd E1) as E3. cbn [snd] in E3. destruct (bind_ok _ _ _ _ _ E3) as (f3 & s3 & c & E4 & E5). pose proof (u_gderiv_opens founder fs h c Ho) as G. rewrite E4 in G. destruct (G eq_refl) as (s4 & G1 & G2). cbn [fst snd] in G2.
      rewrite E5 in E1. rewrite (bind_out _ _ _ _ _ _ _ G1). revert E1.
      match goal with |- ?x _ _ = _ -> _ => assert (S : sure2 x) end; [surely2|]. intros E1. destruct (S f3 s3 s4 b G2 (f_equal snd E1)) as (s5 & S1 & S2). rewrite E1 in S2. exists s5. split; [exact S1|exact S2]. }
    destruct S as (s2 & S1 & S2). exists s2. rewrite (bind_out _ _ _ _ _ _ _ S1). cbn [io_out fst snd] in *. rewrite H. split; [reflexivity|apply rel2N, S2].
  - apply K. clear K K2. cbn [io_step opens_nothing] in *. destruct (bind_ok _ _ _ _ _ H) as (f1 & s1 & c & E1 & E2). rewrite E2 in *. pose proof (u_gderiv_opens owner fs h c Ho) as G. rewrite E1 in G. destruct (G eq_refl) as (s4 & G1 & G2).
    exists s4. rewrite (bind_out _ _ _ _ _ _ _ G1). cbn [io_out fst snd] in *. rewrite H. split; [reflexivity|apply rel2N, G2].
  - cbn [step]. destruct (assoc_get owner (t_derivs (h_tree h))) as [c|] eqn:G.
    + cbn [io_step step] in K. cbn [opened h_tree] in K. rewrite G in K. apply K. destruct (s2_unit _ (u_dadd owner i) fs h _ r eq_refl H) as (s1 & S1 & S2). exists s1. split; [exact S1|apply rel2N, S2].
    + split; [exact H|reflexivity].
  - destruct (unit_ok _ _ _ _ H) as (-> & H2 & ->). split; [reflexivity|]. cbn [step fst]. erewrite flushes_nil; [|intros; apply sa_flush|reflexivity|exact H2]. symmetry. apply (flushing_norm p (h_tree h) OFlush). reflexivity.
  - destruct (unit_ok _ _ _ _ H) as (-> & H2 & ->). split; [reflexivity|]. cbn [step fst]. erewrite flushes_nil; [|intros; apply sa_mflush|reflexivity|exact H2]. symmetry. apply (flushing_norm p (h_tree h) OMainFlush). reflexivity.
  - cbn [step]. destruct (assoc_get owner (t_derivs (h_tree h))) as [c|] eqn:G; [|split; [exact H|reflexivity]].
    destruct (unit_ok _ _ _ _ H) as (-> & H2 & ->). split; [reflexivity|].
    destruct (sa_dflush owner (h_tree h) (h_old h) (h_old_gas h) fs h) as [(A1 & _) _]; [split; [repeat split|congruence]|]. rewrite A1. symmetry.
    pose proof (flushing_norm p (h_tree h) (ODerivFlush owner) eq_refl) as F. cbn [step] in F. rewrite G in F. exact F.
Qed.

Lemma norm_results p ops : forall t t', norm t = norm t' -> Forall2 same_result (results p t ops) (results p t' ops).
Proof.
  induction ops as [|o ops IH]; intros t t' E; cbn [results]; [constructor|]. destruct (step_alike p t t' o E) as [E1 E2]. destruct (QuietSpec.flushing o); [apply IH, E1|].
  constructor; [apply rnorm_same, E2|apply IH, E1].
Qed.
Lemma norm_alike t t' : norm t = norm t' -> alike t t'.
Proof. intros E. split; [apply norm_answers, E|]. intros p ops. apply norm_results, E. Qed.
