(** Opening a directory again after openings that failed. *)
From Coq Require Import Lia ZifyBool ZifyNat ZifyN.
From Verif Require Import Base Sha256 Merkle Tools Transaction Block Sled Chain Tree Spec Reach QuietSpec Conc ConcTree ConcFlush ConcEmit Cancel ConcDeriv Io IoSpec Demo.
From Verif Require Import BaseFacts ToolsFacts MerkleFacts DiffFacts CodecFacts SledFacts ChainFacts TreeFacts LedgerFacts CrashFacts ConcFacts EmitFacts QuietProps IoFacts IoSure IoProps IoRetryProps.

Local Strategy 1000 [mc_read_config genesis_block].

(** The disk [d] with some of the writes of an opening made. *)
Definition written (b1 b2 b3 : bool) (d : disk) : disk :=
  let m := k_main d in
  MkDisk (MkMainDisk (if b1 then sled_insert (height_key 0) (block_dump genesis) (md_blocks m) else md_blocks m)
                     (if b2 then sled_insert (sha256 (block_dump genesis)) (height_key 0) (md_refs m) else md_refs m) (md_txs m) (md_cfg m))
    (if b3 then sled_commit [(ROOT_PUBLIC_ADDRESS, led_encode COINS_PER_CYCLE)] (k_summary d) else k_summary d) (k_old_summary d) (k_gas d) (k_old_gas d) (k_derivs d).
Definition again (d s : disk) : Prop := exists b1 b2 b3, disk_settle s = disk_settle (written b1 b2 b3 d) /\
  (b1 = true \/ b2 = true -> exists df, mc_read_config (md_cfg (k_main d)) = Ok (0, df)) /\
  (b3 = true -> exists h df, mc_read_config (md_cfg (k_main d)) = Ok (h, df) /\ (h = 0 \/ h = 1)).
Lemma written_id d : written false false false d = d. Proof. destruct d as [[]]. reflexivity. Qed.
Lemma again_id d : again d d.
Proof. exists false, false, false. split; [rewrite written_id; reflexivity|]. split; [intros [X|X]|intros X]; discriminate X. Qed.
Lemma flush_insert k v s s' : sled_flush s = sled_flush s' -> sled_flush (sled_insert k v s) = sled_flush (sled_insert k v s').
Proof. unfold sled_flush, sled_insert, sled_commit. cbn [cur]. intros E. injection E as ->. reflexivity. Qed.
Lemma commit_twice b s : (exists k v, b = [(k, v)]) -> sled_flush (sled_commit b (sled_commit b s)) = sled_flush (sled_commit b s).
Proof. intros (k & v & ->). exact (insert_twice k v s). Qed.
Lemma settle_fields s s' : disk_settle s = disk_settle s' -> sled_flush (md_blocks (k_main s)) = sled_flush (md_blocks (k_main s')) /\ sled_flush (md_refs (k_main s)) = sled_flush (md_refs (k_main s')) /\ sled_flush (md_txs (k_main s)) = sled_flush (md_txs (k_main s')) /\
  md_cfg (k_main s) = md_cfg (k_main s') /\ sled_flush (k_summary s) = sled_flush (k_summary s') /\ sled_flush (k_old_summary s) = sled_flush (k_old_summary s') /\ sled_flush (k_gas s) = sled_flush (k_gas s') /\ sled_flush (k_old_gas s) = sled_flush (k_old_gas s') /\ k_derivs s = k_derivs s'.
Proof.
  intros E. exact (conj (f_equal (fun d => md_blocks (k_main d)) E) (conj (f_equal (fun d => md_refs (k_main d)) E) (conj (f_equal (fun d => md_txs (k_main d)) E) (conj (f_equal (fun d => md_cfg (k_main d)) E)
    (conj (f_equal k_summary E) (conj (f_equal k_old_summary E) (conj (f_equal k_gas E) (conj (f_equal k_old_gas E) (f_equal k_derivs E))))))))).
Qed.
Lemma fields_settle s s' : sled_flush (md_blocks (k_main s)) = sled_flush (md_blocks (k_main s')) -> sled_flush (md_refs (k_main s)) = sled_flush (md_refs (k_main s')) -> sled_flush (md_txs (k_main s)) = sled_flush (md_txs (k_main s')) ->
  md_cfg (k_main s) = md_cfg (k_main s') -> sled_flush (k_summary s) = sled_flush (k_summary s') -> sled_flush (k_old_summary s) = sled_flush (k_old_summary s') -> sled_flush (k_gas s) = sled_flush (k_gas s') -> sled_flush (k_old_gas s) = sled_flush (k_old_gas s') -> k_derivs s = k_derivs s' -> disk_settle s = disk_settle s'.
Proof. intros. unfold disk_settle. congruence. Qed.
Ltac settled E := apply settle_fields in E; destruct E as (E1 & E2 & E3 & E4 & E5 & E6 & E7 & E8 & E9); apply fields_settle; cbn [written disk_main disk_blocks disk_refs disk_summary k_main md_blocks md_refs md_txs md_cfg k_summary k_old_summary k_gas k_old_gas k_derivs] in *; try assumption.
Lemma ag_blocks d df e : mc_read_config (md_cfg (k_main d)) = Ok (0, df) -> stays (again d) (disk_op e (disk_main (disk_blocks (sled_insert (height_key 0) (block_dump genesis))))).
Proof.
  intros H. apply s_op. intros s (b1 & b2 & b3 & E & B1 & B2). exists true, b2, b3. split; [|split; [eauto|exact B2]]. cbn [fst]. settled E.
  rewrite (flush_insert _ _ _ _ E1). destruct b1; [apply insert_twice|reflexivity].
Qed.
Lemma ag_refs d df e : mc_read_config (md_cfg (k_main d)) = Ok (0, df) -> stays (again d) (disk_op e (disk_main (disk_refs (sled_insert (sha256 (block_dump genesis)) (height_key 0))))).
Proof.
  intros H. apply s_op. intros s (b1 & b2 & b3 & E & B1 & B2). exists b1, true, b3. split; [|split; [eauto|exact B2]]. cbn [fst]. settled E.
  rewrite (flush_insert _ _ _ _ E2). destruct b2; [apply insert_twice|reflexivity].
Qed.
Lemma ag_summary d h df e : mc_read_config (md_cfg (k_main d)) = Ok (h, df) -> h = 0 \/ h = 1 -> stays (again d) (disk_op e (disk_summary (sled_commit [(ROOT_PUBLIC_ADDRESS, led_encode COINS_PER_CYCLE)]))).
Proof.
  intros H Hh. apply s_op. intros s (b1 & b2 & b3 & E & B1 & B2). exists b1, b2, true. split; [|split; [exact B1|eauto]]. cbn [fst]. settled E.
  change (sled_flush (sled_insert ROOT_PUBLIC_ADDRESS (led_encode COINS_PER_CYCLE) (k_summary s)) = sled_flush (sled_insert ROOT_PUBLIC_ADDRESS (led_encode COINS_PER_CYCLE) (k_summary d))). rewrite (flush_insert _ _ _ _ E5). destruct b3; [apply insert_twice|reflexivity].
Qed.
Lemma opens_case n e : forall fs (d : disk), opens n e fs d = (skipn n fs, d, Ok tt) \/ exists f, opens n e fs d = (f, d, Err e).
Proof.
  induction n as [|n IH]; intros fs d; cbn [opens]; [left; reflexivity|]. unfold io_bind, io_read, io_op. destruct fs as [|[|[|k]] fs]; cbn [next_fault tl fst snd skipn].
  - destruct (IH [] d) as [E|[f E]]; rewrite E; [left; destruct n; reflexivity|right; eauto].
  - destruct (IH fs d) as [E|[f E]]; rewrite E; [left; reflexivity|right; eauto].
  - right. eauto.
  - right. eauto.
Qed.
Lemma again_after fs d : config_opens fs -> again d (snd (fst (t_new_io fs d))).
Proof.
  unfold config_opens, t_new_io. intros Hc. unfold io_bind at 1. destruct (opens_case 4 ETreeInit fs d) as [E|[f E]]; rewrite E; [|apply again_id]. cbv iota.
  unfold io_bind at 1. destruct (opens_case 3 EChainInit (skipn 4 fs) d) as [E'|[f E']]; rewrite E'; [|apply again_id]. cbv iota.
  assert (Et : io_try (skipn 3 (skipn 4 fs)) d = (tl (skipn 3 (skipn 4 fs)), d, Ok true)).
  { unfold io_try. replace (next_fault (skipn 3 (skipn 4 fs))) with Fine; [reflexivity|]. rewrite <- Hc. clear. do 8 (destruct fs as [|? fs]; [reflexivity|]). reflexivity. }
  unfold io_bind at 1. rewrite Et. cbv iota. generalize (tl (skipn 3 (skipn 4 fs))). clear fs Hc E E' Et. intros fs. unfold io_bind at 1, io_get at 1. cbv iota.
  match goal with |- again d (snd (fst (?x fs d))) => assert (S : stays (again d) x) end; [|apply S, again_id].
  eapply h_bind with (R := fun r s => again d s /\ match r with Ok (h, df) => mc_read_config (md_cfg (k_main d)) = Ok (h, df) | _ => True end).
  - destruct (file_cur (md_cfg (k_main d))) as [c|] eqn:Ec.
    + eapply h_bind; [apply (s_read (again d))|auto|]. intros u. apply h_out. intros s A. split; [exact A|]. destruct (mc_read_config _) as [[]| | |]; auto.
    + apply h_out. intros s A. split; [exact A|]. unfold mc_read_config. rewrite Ec. reflexivity.
  - intros s. repeat split; intros; tauto.
  - intros [h df]. apply h_pure. intros Hr. eapply h_bind with (R := fun r s => again d s /\ match r with Ok h' => h' = 1 -> h = 0 \/ h = 1 | _ => True end).
    + destruct (N.eqb_spec h 0) as [->|Hh]; [|apply h_out; auto]. rewrite genesis_eq. eapply h_bind; [apply (h_out (again d) _ (fun r s => again d s /\ r = Ok genesis)); auto|intros s; repeat split; intros; try tauto|]. intros g. apply h_pure. intros E. apply ok_inv in E. subst g.
      eapply h_bind; [eapply ag_blocks, Hr|auto|]. intros u. eapply h_bind; [eapply ag_refs, Hr|auto|]. intros u0. apply h_out. auto.
    + intros s. repeat split; intros; tauto.
    + intros h'. apply h_pure. intros Hh'. apply s_bind; [|intros; stay]. destruct (N.eqb_spec h' 1) as [->|]; [eapply ag_summary; [exact Hr|auto]|apply s_out].
Qed.
Lemma written_written c1 c2 c3 b1 b2 b3 d s : disk_settle s = disk_settle (written b1 b2 b3 d) -> disk_settle (written c1 c2 c3 s) = disk_settle (written (b1 || c1) (b2 || c2) (b3 || c3) d).
Proof.
  intros E. settled E.
  - destruct c1; [rewrite (flush_insert _ _ _ _ E1)|rewrite E1]; destruct b1; cbn [orb]; try reflexivity. apply insert_twice.
  - destruct c2; [rewrite (flush_insert _ _ _ _ E2)|rewrite E2]; destruct b2; cbn [orb]; try reflexivity. apply insert_twice.
  - destruct c3; [|rewrite E5; destruct b3; reflexivity]. change (sled_commit [(ROOT_PUBLIC_ADDRESS, led_encode COINS_PER_CYCLE)]) with (sled_insert ROOT_PUBLIC_ADDRESS (led_encode COINS_PER_CYCLE)) in *. rewrite (flush_insert _ _ _ _ E5); destruct b3; cbn [orb]; try reflexivity. apply insert_twice.
Qed.
Lemma again_cfg d s : again d s -> md_cfg (k_main s) = md_cfg (k_main d).
Proof. intros (b1 & b2 & b3 & E & _). apply settle_fields in E. apply E. Qed.
Lemma again_settle d s : again d s -> again d (disk_settle s).
Proof. intros (b1 & b2 & b3 & E & H). exists b1, b2, b3. split; [|exact H]. rewrite <- E. destruct s as [[]]. reflexivity. Qed.
Lemma again_trans d s s' : again d s -> again s s' -> again d s'.
Proof.
  intros A (c1 & c2 & c3 & E' & B1' & B2'). rewrite (again_cfg _ _ A) in B1', B2'. destruct A as (b1 & b2 & b3 & E & B1 & B2). exists (b1 || c1)%bool, (b2 || c2)%bool, (b3 || c3)%bool.
  split; [rewrite E'; apply written_written, E|]. split.
  - intros [H|H]; apply orb_prop in H; tauto.
  - intros H; apply orb_prop in H; tauto.
Qed.
Lemma tree_eq m m' s1 s1' s2 s2' s3 s3' s4 s4' c : sled_flush (mc_blocks m') = sled_flush (mc_blocks m) -> sled_flush (mc_refs m') = sled_flush (mc_refs m) -> sled_flush (mc_txs m') = sled_flush (mc_txs m) -> mc_height m' = mc_height m -> mc_cfg m' = mc_cfg m ->
  sled_flush s1' = sled_flush s1 -> sled_flush s2' = sled_flush s2 -> sled_flush s3' = sled_flush s3 -> sled_flush s4' = sled_flush s4 ->
  alike (MkTree0 m' [] s1' s2' s3' s4' c) (MkTree0 m [] s1 s2 s3 s4 c) /\ t_close (MkTree0 m' [] s1' s2' s3' s4' c) = t_close (MkTree0 m [] s1 s2 s3 s4 c).
Proof.
  intros. split; [apply norm_alike; unfold norm, mnorm; cbn [t_main t_derivs t_summary t_old_summary t_gas t_old_gas t_closed]; congruence|].
  unfold t_close, mc_close, close_derivs. cbn [t_main t_derivs t_summary t_old_summary t_gas t_old_gas t_closed]. congruence.
Qed.
Lemma again_new d s : again d s -> match t_new s, t_new d with Ok t', Ok t => alike t' t /\ t_close t' = t_close t | r', r => r' = r end.
Proof.
  intros A. pose proof (again_cfg _ _ A) as Ec. destruct A as (b1 & b2 & b3 & E & B1 & B2). apply settle_fields in E. destruct E as (E1 & E2 & E3 & E4 & E5 & E6 & E7 & E8 & E9). cbn [written k_main md_blocks md_refs md_txs md_cfg k_summary k_old_summary k_gas k_old_gas k_derivs] in *.
  unfold t_new, mc_new. rewrite Ec, E9. clear Ec. destruct (mc_read_config (md_cfg (k_main d))) as [[h df]|e| |]; cbn [bind]; try reflexivity.
  change (sled_commit [(ROOT_PUBLIC_ADDRESS, led_encode COINS_PER_CYCLE)]) with (sled_insert ROOT_PUBLIC_ADDRESS (led_encode COINS_PER_CYCLE)) in *.
  assert (Es : sled_flush (sled_insert ROOT_PUBLIC_ADDRESS (led_encode COINS_PER_CYCLE) (k_summary s)) = sled_flush (sled_insert ROOT_PUBLIC_ADDRESS (led_encode COINS_PER_CYCLE) (k_summary d))) by (rewrite (flush_insert _ _ _ _ E5); destruct b3; [apply insert_twice|reflexivity]).
  destruct (N.eqb_spec h 0) as [->|Hh].
  - rewrite genesis_eq. cbn [bind]. rewrite !mc_add_block_right by (try reflexivity; cbn [mc_height]; lia). cbn [bind change_context]. unfold mc_get_height. cbn [mc_appended mc_height]. change (0 + 1 =? 1) with true. cbv iota.
    apply tree_eq; cbn [mc_appended mc_blocks mc_refs mc_txs mc_height mc_cfg]; try assumption; try reflexivity.
    + rewrite (flush_insert _ _ _ _ E1). destruct b1; [apply insert_twice|reflexivity].
    + rewrite (flush_insert _ _ _ _ E2). destruct b2; [apply insert_twice|reflexivity].
  - destruct b1; [destruct (B1 (or_introl eq_refl)) as [x X]; apply ok_inv in X; injection X as X _; destruct (Hh X)|]. destruct b2; [destruct (B1 (or_intror eq_refl)) as [x X]; apply ok_inv in X; injection X as X _; destruct (Hh X)|].
    unfold mc_get_height. cbn [mc_height]. apply tree_eq; cbn [mc_blocks mc_refs mc_txs mc_height mc_cfg]; try assumption; try reflexivity.
    destruct (N.eqb_spec h 1) as [->|H1]; [exact Es|]. destruct b3; [|exact E5]. destruct (B2 eq_refl) as (x & y & X & Hx). apply ok_inv in X. injection X as X _. lia.
Qed.
(*@T C103: a directory whose opening failed, any number of times, can still be opened, and what is opened cannot be told
   from what would have been opened at first, neither by calls nor by what it leaves on disk when closed; if it could not be opened at first
   the same error is reported.  Opening the config file is assumed not to fail (see C97). *)
Lemma p_C103_open_again : forall fss d, Forall config_opens fss ->
  let d' := fold_left (fun d fs => disk_settle (io_after t_new_io fs d)) fss d in
  match t_new d', t_new d with Ok t', Ok t => alike t' t /\ t_close t' = t_close t | r', r => r' = r end.
Proof.
  intros fss d H. cbv zeta. apply again_new. assert (A : again d d) by apply again_id. revert A. generalize d at 2 4. induction H as [|fs fss Hf H IH]; intros s A; cbn [fold_left]; [exact A|].
  apply IH. eapply again_trans; [exact A|]. apply again_settle, again_after, Hf.
Qed.
(*@E
Example C103_ex : let d := disk_empty in let fs := repeat Fine 10 ++ [Fails 1] in config_opens fs /\ io_result t_new_io fs d = Panic /\
  let d' := disk_settle (io_after t_new_io fs d) in d' <> d /\ exists t, t_new d' = Ok t /\ mc_get_height (t_main t) = 1.
Proof. cbv zeta. split; [reflexivity|]. split; [vm_compute; reflexivity|]. split; [vm_compute; discriminate|]. eexists. split; vm_compute; reflexivity. Qed.
@*)
(*@T C103 without the assumption fails: an opening that could not open the config file and failed has reset the root
   account; opened again, the chain is as it was but the root account has the initial amount. *)
Lemma p_C103_config_refuted : exists d fs t t', (forall x, io_result t_new_io fs d <> Ok x) /\ t_new d = Ok t /\ mc_get_height (t_main t) = 2 /\
  t_get_amount ROOT_PUBLIC_ADDRESS t = Ok 5 /\ t_new (disk_settle (io_after t_new_io fs d)) = Ok t' /\ mc_get_height (t_main t') = 2 /\
  t_get_amount ROOT_PUBLIC_ADDRESS t' = Ok COINS_PER_CYCLE.
Proof.
  exists (t_close (t_flush (fst (step Debug (fst (step Debug fresh emit_good)) (OSetAmount ROOT_PUBLIC_ADDRESS 5))))), (repeat Fine 7 ++ [Fails 0; Fine; Fine; Fails 1]).
  eexists. eexists. split; [intros x; vm_compute; discriminate|]. split; [vm_compute; reflexivity|]. split; [vm_compute; reflexivity|]. split; [vm_compute; reflexivity|]. split; [vm_compute; reflexivity|]. split; vm_compute; reflexivity.
Qed.
