(** Proofs of the statements in P_Quiet.v. *)
From Coq Require Import Lia ZifyBool ZifyNat ZifyN.
From Verif Require Import Base Sha256 Merkle Tools Transaction Block Sled Chain Tree Spec Reach QuietSpec Demo.
From Verif Require Import BaseFacts ToolsFacts MerkleFacts DiffFacts CodecFacts SledFacts ChainFacts TreeFacts LedgerFacts DerivFacts.

(** ** Trees up to what is on disk *)
Definition mnorm (m : main_chain) : main_chain :=
  MkMain (sled_flush (mc_blocks m)) (sled_flush (mc_refs m)) (sled_flush (mc_txs m)) (mc_height m) [] file_absent.
Definition dnorm (c : deriv_chain) : deriv_chain :=
  MkDeriv (sled_flush (dc_blocks c)) (sled_flush (dc_refs c)) (dc_height c) (dc_genesis c) (dc_difficulty c) file_absent.
Definition ndnorm (l : list (bytes * deriv_chain)) := map (fun wc => (fst wc, dnorm (snd wc))) l.
Definition norm (t : bct) : bct :=
  MkTree0 (mnorm (t_main t)) (ndnorm (t_derivs t)) (sled_flush (t_summary t)) (sled_flush (t_old_summary t))
    (sled_flush (t_gas t)) (sled_flush (t_old_gas t)) (t_closed t).
(** Main chain and balances only. *)
Definition core (t : bct) : bct :=
  MkTree0 (mnorm (t_main t)) [] (sled_flush (t_summary t)) (sled_flush (t_old_summary t))
    (sled_flush (t_gas t)) (sled_flush (t_old_gas t)) [].

Definition rnorm (r : out result) : out result := match r with Ok (RChain c) => Ok (RChain (dnorm c)) | r => r end.

Lemma flush2 s : sled_flush (sled_flush s) = sled_flush s. Proof. reflexivity. Qed.
Lemma flush_commit b s : sled_flush (sled_commit b (sled_flush s)) = sled_flush (sled_commit b s). Proof. reflexivity. Qed.

Lemma led_tx_norm s r : sled_flush (fst (led_tx (sled_flush s) r)) = sled_flush (fst (led_tx s r)) /\ snd (led_tx (sled_flush s) r) = snd (led_tx s r).
Proof. destruct r; cbn; auto. Qed.

Lemma ndnorm_get w l : assoc_get w (ndnorm l) = option_map dnorm (assoc_get w l).
Proof. induction l as [|[k c] l IH]; cbn [ndnorm map assoc_get fst snd]; [reflexivity|]. destruct (bytes_eqb w k); [reflexivity|exact IH]. Qed.
Lemma ndnorm_set w c l : ndnorm (assoc_set w c l) = assoc_set w (dnorm c) (ndnorm l).
Proof.
  induction l as [|[k d] l IH]; cbn [ndnorm assoc_set map fst snd]; [reflexivity|].
  destruct (bytes_eqb w k); cbn [map fst snd]; [reflexivity|]. f_equal. exact IH.
Qed.
Lemma dnorm2 c : dnorm (dnorm c) = dnorm c. Proof. reflexivity. Qed.
Lemma ndnorm2 l : ndnorm (ndnorm l) = ndnorm l.
Proof. unfold ndnorm. rewrite map_map. reflexivity. Qed.
Lemma norm2 t : norm (norm t) = norm t.
Proof. unfold norm. cbn. rewrite ndnorm2. reflexivity. Qed.

Lemma norm_with_main t1 t2 m1 m2 : norm t1 = norm t2 -> mnorm m1 = mnorm m2 -> norm (with_main t1 m1) = norm (with_main t2 m2).
Proof.
  intros E Em. pose proof (f_equal t_derivs E) as E2. pose proof (f_equal t_summary E) as E3. pose proof (f_equal t_old_summary E) as E4.
  pose proof (f_equal t_gas E) as E5. pose proof (f_equal t_old_gas E) as E6. pose proof (f_equal t_closed E) as E7.
  unfold norm. cbn [with_main norm t_main t_derivs t_summary t_old_summary t_gas t_old_gas t_closed] in *. congruence.
Qed.
Lemma norm_with_derivs t1 t2 d1 d2 : norm t1 = norm t2 -> ndnorm d1 = ndnorm d2 -> norm (with_derivs t1 d1) = norm (with_derivs t2 d2).
Proof.
  intros E Em. pose proof (f_equal t_main E) as E2. pose proof (f_equal t_summary E) as E3. pose proof (f_equal t_old_summary E) as E4.
  pose proof (f_equal t_gas E) as E5. pose proof (f_equal t_old_gas E) as E6. pose proof (f_equal t_closed E) as E7.
  unfold norm. cbn [with_derivs norm t_main t_derivs t_summary t_old_summary t_gas t_old_gas t_closed] in *. congruence.
Qed.
Lemma mc_add_block_norm b m : mnorm (fst (mc_add_block b (mnorm m))) = mnorm (fst (mc_add_block b m)) /\ snd (mc_add_block b (mnorm m)) = snd (mc_add_block b m).
Proof.
  unfold mc_add_block. cbn [mnorm mc_height mc_blocks mc_refs mc_txs mc_difficulty mc_cfg].
  destruct (negb _); [split; reflexivity|]. destruct (u256_add (mc_height m) 1); split; reflexivity.
Qed.
Lemma mc_add_transactions_norm ts : forall m m', mnorm m = mnorm m' -> mnorm (mc_add_transactions ts m) = mnorm (mc_add_transactions ts m').
Proof.
  induction ts as [|x ts IH]; intros m m' E; [exact E|]. apply IH. destruct m, m'. cbn in *. unfold mnorm in *. cbn in *.
  injection E as E1 E2 E3 E4. unfold sled_insert, sled_commit, sled_flush in *. cbn in *. congruence.
Qed.
Lemma dc_add_block_norm i c : dnorm (fst (dc_add_block i (dnorm c))) = dnorm (fst (dc_add_block i c)) /\ snd (dc_add_block i (dnorm c)) = snd (dc_add_block i c).
Proof.
  unfold dc_add_block. cbn [dnorm dc_height dc_blocks dc_refs dc_genesis dc_difficulty dc_cfg].
  destruct (negb _); [split; reflexivity|]. destruct (u256_add (dc_height c) 1); split; reflexivity.
Qed.

Lemma get_deriv_norm w t : norm (fst (t_get_derivative_chain w (norm t))) = norm (fst (t_get_derivative_chain w t)) /\
  match snd (t_get_derivative_chain w (norm t)), snd (t_get_derivative_chain w t) with
  | Ok c, Ok c' => dnorm c = dnorm c'
  | r, r' => r = r'
  end.
Proof.
  unfold t_get_derivative_chain. cbn [norm t_derivs t_main t_closed]. rewrite ndnorm_get.
  destruct (assoc_get w (t_derivs t)) as [c|]; cbn [option_map fst snd]; [split; [apply norm2|reflexivity]|].
  change (mc_get_last_block (mnorm (t_main t))) with (mc_get_last_block (t_main t)).
  destruct (let! last := mc_get_last_block (t_main t) in _) as [c|e| |]; cbn [fst snd]; (split; [|reflexivity]); try apply norm2.
  unfold norm. cbn [with_derivs t_main t_derivs t_summary t_old_summary t_gas t_old_gas t_closed]. rewrite !ndnorm_set, ndnorm2. reflexivity.
Qed.

Definition keeps (f : sled -> sled * out unit) : Prop :=
  forall s, sled_flush (fst (f (sled_flush s))) = sled_flush (fst (f s)) /\ snd (f (sled_flush s)) = snd (f s).
Lemma led_add_keeps w a : keeps (led_add w a).
Proof. intros s. apply (led_tx_norm s). Qed.
Lemma led_set_keeps w a : keeps (led_set w a).
Proof. intros s. apply (led_tx_norm s). Qed.
Lemma led_sub_keeps w a : keeps (led_sub w a).
Proof. intros s. apply (led_tx_norm s). Qed.
Lemma led_send_keeps x y a : keeps (led_send x y a).
Proof. intros s. apply (led_tx_norm s). Qed.
Lemma on_summary_norm f t : keeps f -> norm (fst (t_on_summary f (norm t))) = norm (fst (t_on_summary f t)) /\ snd (t_on_summary f (norm t)) = snd (t_on_summary f t).
Proof.
  intros H. unfold t_on_summary. cbn [norm t_summary]. destruct (H (t_summary t)) as [H1 H2].
  destruct (f (sled_flush (t_summary t))) as [s r], (f (t_summary t)) as [s' r']. cbn [fst snd] in *. split; [|exact H2].
  unfold norm. cbn. rewrite H1, ndnorm2. reflexivity.
Qed.
Lemma on_gas_norm f t : keeps f -> norm (fst (t_on_gas f (norm t))) = norm (fst (t_on_gas f t)) /\ snd (t_on_gas f (norm t)) = snd (t_on_gas f t).
Proof.
  intros H. unfold t_on_gas. cbn [norm t_gas]. destruct (H (t_gas t)) as [H1 H2].
  destruct (f (sled_flush (t_gas t))) as [s r], (f (t_gas t)) as [s' r']. cbn [fst snd] in *. split; [|exact H2].
  unfold norm. cbn. rewrite H1, ndnorm2. reflexivity.
Qed.
(** A call that maps trees with the same normal form to such trees, with the same outcome. *)
Definition quiet {A} (f : bct -> bct * out A) : Prop :=
  forall t, norm (fst (f (norm t))) = norm (fst (f t)) /\ snd (f (norm t)) = snd (f t).
Lemma quiet_alike {A} (f : bct -> bct * out A) t t' : quiet f -> norm t = norm t' -> norm (fst (f t)) = norm (fst (f t')) /\ snd (f t) = snd (f t').
Proof. intros H E. destruct (H t) as [<- <-], (H t') as [<- <-]. rewrite E. auto. Qed.
Lemma send_amount_quiet x y a : quiet (t_send_amount x y a).
Proof. intros t. unfold t_send_amount. destruct (bytes_eqb x y); [split; [apply norm2|reflexivity]|]. apply on_summary_norm, led_send_keeps. Qed.
Lemma send_tx_quiet tx : quiet (t_send_transaction tx).
Proof.
  intros t. unfold t_send_transaction.
  match goal with |- context [match ?c with Ok gas_required => _ | Err e => (norm t, _) | _ => _ end] =>
    match goal with |- context [match ?c' with Ok gas_required => _ | Err e => (t, _) | _ => _ end] => change c with c'; destruct c' as [gas|e| |] end end;
    try (split; [apply norm2|reflexivity]).
  assert (E1 : norm (with_main (norm t) (mc_add_transaction tx (t_main (norm t)))) = norm (with_main t (mc_add_transaction tx (t_main t)))).
  { unfold norm. cbn. rewrite ndnorm2. reflexivity. }
  destruct (quiet_alike _ _ _ (send_amount_quiet (tx_sender tx) (tx_receiver tx) (tx_amount tx)) E1) as [E2 E3].
  destruct (t_send_amount _ _ _ (with_main (norm t) _)) as [t2 r], (t_send_amount _ _ _ (with_main t _)) as [t2' r'].
  cbn [fst snd] in *. subst r'. destruct r; [|split; [exact E2|reflexivity]..].
  apply (quiet_alike (t_sub_gas (tx_sender tx) gas)); [intros u; apply on_gas_norm, led_sub_keeps|exact E2].
Qed.
Lemma emit_main_quiet p pow founder txs ts : quiet (t_emmit_new_main_block p pow founder txs ts).
Proof.
  intros t. unfold t_emmit_new_main_block.
  match goal with |- context [match ?c with Ok _ => _ | Err e => (norm t, _) | _ => _ end] =>
    match goal with |- context [match ?c' with Ok _ => _ | Err e => (t, _) | _ => _ end] => change c with c'; destruct c' as [[fee info]|e| |] end end;
    try (split; [apply norm2|reflexivity]).
  assert (Hadd : forall t1 t2 (rb : out block), norm t1 = norm t2 ->
    norm (fst match rb with Ok b => let '(m, ra) := mc_add_block b (t_main t1) in (with_main t1 m, match ra with Ok _ => Ok b | Err e => Err e | Panic => Panic | UB => UB end) | e => (t1, e) end) =
    norm (fst match rb with Ok b => let '(m, ra) := mc_add_block b (t_main t2) in (with_main t2 m, match ra with Ok _ => Ok b | Err e => Err e | Panic => Panic | UB => UB end) | e => (t2, e) end) /\
    snd match rb with Ok b => let '(m, ra) := mc_add_block b (t_main t1) in (with_main t1 m, match ra with Ok _ => Ok b | Err e => Err e | Panic => Panic | UB => UB end) | e => (t1, e) end =
    snd match rb with Ok b => let '(m, ra) := mc_add_block b (t_main t2) in (with_main t2 m, match ra with Ok _ => Ok b | Err e => Err e | Panic => Panic | UB => UB end) | e => (t2, e) end).
  { intros t1 t2 rb E. destruct rb as [b|e| |]; try (split; [exact E|reflexivity]).
    destruct (mc_add_block_norm b (t_main t1)) as [A1 A2], (mc_add_block_norm b (t_main t2)) as [B1 B2].
    assert (Em : mnorm (t_main t1) = mnorm (t_main t2)) by (apply (f_equal t_main) in E; exact E). rewrite Em in A1, A2. rewrite A1 in B1. rewrite A2 in B2.
    destruct (mc_add_block b (t_main t1)) as [m1 r1], (mc_add_block b (t_main t2)) as [m2 r2]. cbn [fst snd] in *. subst r2. split; [|reflexivity].
    apply norm_with_main; assumption. }
  destruct (_ =? 0).
  - destruct txs as [|x txs]; [|apply (Hadd (norm t) t (Err ETreeSummarizeWrongTxAmount)), norm2].
    change (t_summarize (norm t)) with (t_summarize t). destruct (t_summarize t) as [root|e| |].
    + assert (E1 : norm (t_rotate_dbs (norm t)) = norm (t_rotate_dbs t)) by (unfold norm; cbn; rewrite ndnorm2; reflexivity).
      destruct (quiet_alike (t_set_amount ROOT_PUBLIC_ADDRESS COINS_PER_CYCLE) _ _ ltac:(intros u; apply on_summary_norm, led_set_keeps) E1) as [E2 E3].
      destruct (t_set_amount _ _ (t_rotate_dbs (norm t))) as [t2 r], (t_set_amount _ _ (t_rotate_dbs t)) as [t2' r']. cbn [fst snd] in *. subst r'.
      destruct r as [u|e| |]; [apply (Hadd _ _ (Ok (SummBlock info root))), E2|apply (Hadd _ _ (Err e)), E2|apply (Hadd _ _ Panic), E2|apply (Hadd _ _ UB), E2].
    + apply (Hadd _ _ (Err e)), norm2.
    + apply (Hadd _ _ Panic), norm2.
    + apply (Hadd _ _ UB), norm2.
  - destruct txs as [|x txs]; [apply (Hadd _ _ (Err ETreeCreateMainChainBlock)), norm2|].
    destruct (let! tree := build_tree (x :: txs) in get_root tree) as [root|e| |];
      [apply (Hadd _ _ (Ok (TxBlock fee root info (x :: txs)))), norm2|apply (Hadd _ _ (Err e)), norm2|apply (Hadd _ _ Panic), norm2|apply (Hadd _ _ UB), norm2].
Qed.
Lemma dc_last_norm c : dc_get_last_block (dnorm c) = dc_get_last_block c. Proof. reflexivity. Qed.
Lemma emit_deriv_quiet p pow founder ts : quiet (t_emmit_new_derivative_block p pow founder ts).
Proof.
  intros t. unfold t_emmit_new_derivative_block. destruct (get_deriv_norm founder t) as [E1 E2].
  destruct (t_get_derivative_chain founder (norm t)) as [t1 rc], (t_get_derivative_chain founder t) as [t1' rc']. cbn [fst snd] in *.
  destruct rc as [c|e| |], rc' as [c'|e'| |]; try discriminate E2; cbn [fst snd]; try (split; [exact E1|congruence]).
  assert (Hm : mnorm (t_main t1) = mnorm (t_main t1')) by exact (f_equal t_main E1).
  assert (Hf : forall h, mc_find_by_hash h (t_main t1) = mc_find_by_hash h (t_main t1')).
  { intros h. change (mc_find_by_hash h (t_main t1)) with (mc_find_by_hash h (mnorm (t_main t1))). rewrite Hm. reflexivity. }
  assert (Hg : dc_genesis c = dc_genesis c') by exact (f_equal dc_genesis E2).
  rewrite <- (dc_last_norm c), E2, (dc_last_norm c'), Hg, Hf.
  destruct (let! last := dc_get_last_block c' in _) as [i|e| |]; try (split; [exact E1|reflexivity]).
  destruct (dc_add_block_norm i c) as [A1 A2], (dc_add_block_norm i c') as [B1 B2]. rewrite E2 in A1, A2. rewrite A1 in B1. rewrite A2 in B2.
  destruct (dc_add_block i c) as [d r], (dc_add_block i c') as [d' r']. cbn [fst snd] in *. subst r'. split; [|reflexivity].
  apply norm_with_derivs; [exact E1|]. rewrite !ndnorm_set, B1. f_equal. exact (f_equal t_derivs E1).
Qed.

Lemma step_norm p t o : norm (fst (step p (norm t) o)) = norm (fst (step p t o)) /\ rnorm (snd (step p (norm t) o)) = rnorm (snd (step p t o)).
Proof.
  assert (U : forall f : bct -> bct * out unit, quiet f -> norm (fst (ret_unit (f (norm t)))) = norm (fst (ret_unit (f t))) /\ rnorm (snd (ret_unit (f (norm t)))) = rnorm (snd (ret_unit (f t)))).
  { intros f H. destruct (H t) as [H1 H2]. unfold ret_unit. cbn [fst snd]. rewrite H1, H2. auto. }
  assert (V : forall f : bct -> bct * out block, quiet f -> norm (fst (ret_block (f (norm t)))) = norm (fst (ret_block (f t))) /\ rnorm (snd (ret_block (f (norm t)))) = rnorm (snd (ret_block (f t)))).
  { intros f H. destruct (H t) as [H1 H2]. unfold ret_block. cbn [fst snd]. rewrite H1, H2. auto. }
  destruct o; cbn [step].
  - apply U. intros u. apply on_summary_norm, led_add_keeps.
  - apply U. intros u. apply on_summary_norm, led_set_keeps.
  - apply U. intros u. apply on_summary_norm, led_sub_keeps.
  - apply U, send_amount_quiet.
  - apply U. intros u. apply on_gas_norm, led_add_keeps.
  - apply U. intros u. apply on_gas_norm, led_sub_keeps.
  - apply U. intros u. apply on_gas_norm, led_send_keeps.
  - apply U, send_tx_quiet.
  - apply V, emit_main_quiet.
  - apply V, emit_deriv_quiet.
  - destruct (get_deriv_norm owner t) as [E1 E2].
    destruct (t_get_derivative_chain owner (norm t)) as [t1 rc], (t_get_derivative_chain owner t) as [t1' rc']. cbn [fst snd] in *. split; [exact E1|].
    destruct rc, rc'; try discriminate E2; cbn [bind rnorm]; congruence.
  - apply U. intros u. unfold t_add_new_block. destruct (mc_add_block_norm b (t_main u)) as [A1 A2]. cbn [norm t_main].
    destruct (mc_add_block b (mnorm (t_main u))) as [m r], (mc_add_block b (t_main u)) as [m' r']. cbn [fst snd] in *. subst r'.
    destruct r; cbn [fst snd]; (split; [|reflexivity]); apply norm_with_main; try apply norm2; try exact A1. apply mc_add_transactions_norm, A1.
  - cbn [fst snd]. split; [|reflexivity]. apply norm_with_main; [apply norm2|]. apply mc_add_transactions_norm. reflexivity.
  - cbn [norm t_derivs]. rewrite ndnorm_get. destruct (assoc_get owner (t_derivs t)) as [c|]; cbn [option_map]; [|split; [apply norm2|reflexivity]].
    destruct (dc_add_block_norm i c) as [A1 A2]. destruct (dc_add_block i (dnorm c)) as [d r], (dc_add_block i c) as [d' r']. cbn [fst snd] in *. subst r'.
    split; [|reflexivity]. apply norm_with_derivs; [apply norm2|]. rewrite !ndnorm_set, ndnorm2, A1. reflexivity.
  - cbn [fst snd]. split; [|reflexivity]. unfold norm. cbn. rewrite ndnorm2. reflexivity.
  - cbn [fst snd]. split; [|reflexivity]. apply norm_with_main; [apply norm2|reflexivity].
  - cbn [norm t_derivs]. rewrite ndnorm_get. destruct (assoc_get owner (t_derivs t)) as [c|]; cbn [option_map fst snd]; [|split; [apply norm2|reflexivity]].
    split; [|reflexivity]. apply norm_with_derivs; [apply norm2|]. rewrite !ndnorm_set, ndnorm2. reflexivity.
Qed.
Lemma step_alike p t t' o : norm t = norm t' -> norm (fst (step p t o)) = norm (fst (step p t' o)) /\ rnorm (snd (step p t o)) = rnorm (snd (step p t' o)).
Proof. intros E. destruct (step_norm p t o) as [<- <-], (step_norm p t' o) as [<- <-]. rewrite E. auto. Qed.
Lemma flushing_norm p t o : flushing o = true -> norm (fst (step p t o)) = norm t.
Proof.
  destruct o; intros E; try discriminate E; cbn [step fst]; try reflexivity.
  destruct (assoc_get owner (t_derivs t)) as [c|] eqn:G; [|reflexivity]. cbn [fst].
  transitivity (norm (with_derivs t (t_derivs t))); [|destruct t; reflexivity]. apply norm_with_derivs; [reflexivity|].
  rewrite ndnorm_set. change (dnorm (dc_flush c)) with (dnorm c).
  revert G. induction (t_derivs t) as [|[k d] l IH]; cbn [assoc_get ndnorm map assoc_set fst snd]; [discriminate|].
  destruct (bytes_eqb owner k) eqn:Ek; intros G; [injection G as ->; apply bytes_eqb_eq in Ek as ->; reflexivity|]. f_equal. apply IH, G.
Qed.

Lemma dnorm_same c c' : dnorm c = dnorm c' -> same_chain c c'.
Proof.
  intros E. assert (K : same_chain (dnorm c) (dnorm c')) by (rewrite E; repeat split).
  exact K.
Qed.
Lemma mnorm_same m m' : mnorm m = mnorm m' -> same_main m m'.
Proof.
  intros E. assert (K : same_main (mnorm m) (mnorm m')) by (rewrite E; repeat split).
  exact K.
Qed.
Lemma norm_balances t t' : sled_flush (t_summary t) = sled_flush (t_summary t') -> sled_flush (t_gas t) = sled_flush (t_gas t') ->
  sled_flush (t_old_summary t) = sled_flush (t_old_summary t') -> sled_flush (t_old_gas t) = sled_flush (t_old_gas t') -> same_balances t t'.
Proof.
  intros E1 E2 E3 E4.
  assert (K : same_balances (core t) (core t')).
  { unfold same_balances, t_get_amount, t_get_gas, t_summarize, core. cbn [t_summary t_gas t_old_summary t_old_gas]. rewrite E1, E2, E3, E4. repeat split. }
  exact K.
Qed.
Lemma norm_answers t t' : norm t = norm t' -> same_answers t t'.
Proof.
  intros E. split; [|split].
  - apply mnorm_same. exact (f_equal t_main E).
  - apply norm_balances; [exact (f_equal t_summary E)|exact (f_equal t_gas E)|exact (f_equal t_old_summary E)|exact (f_equal t_old_gas E)].
  - intros w. destruct (get_deriv_norm w t) as [_ E1], (get_deriv_norm w t') as [_ E2]. rewrite E in E1.
    destruct (snd (t_get_derivative_chain w (norm t'))), (snd (t_get_derivative_chain w t)), (snd (t_get_derivative_chain w t')); try discriminate; try congruence.
    apply dnorm_same. congruence.
Qed.
Lemma rnorm_same r r' : rnorm r = rnorm r' -> same_result r r'.
Proof.
  destruct r as [[|b|c]|e| |], r' as [[|b'|c']|e'| |]; cbn [rnorm same_result]; intros E; try discriminate E; try congruence.
  apply dnorm_same. congruence.
Qed.

(*@T C83: flushes are invisible. From any tree, with flushes of the tree, of the main chain and of derivative
    chains inserted anywhere among the calls, every other call returns the same, and at the end
    every question has the same answer as without them. *)
Lemma p_C83_flush_invisible : forall p t ops,
  let proper := filter (fun o => negb (flushing o)) ops in
  Forall2 same_result (results p t ops) (results p t proper) /\ same_answers (run p t ops) (run p t proper).
Proof.
  intros p t ops. cbv zeta. enough (X : forall ops t t', norm t = norm t' ->
    Forall2 same_result (results p t ops) (results p t' (filter (fun o => negb (flushing o)) ops)) /\
    norm (run p t ops) = norm (run p t' (filter (fun o => negb (flushing o)) ops))).
  { destruct (X ops t t eq_refl) as [X1 X2]. split; [exact X1|apply norm_answers, X2]. }
  clear. induction ops as [|o ops IH]; intros t t' E; cbn [results filter]; [split; [constructor|exact E]|].
  destruct (flushing o) eqn:Ef; cbn [negb].
  - apply IH. rewrite flushing_norm by exact Ef. exact E.
  - cbn [results]. rewrite Ef. destruct (step_alike p t t' o E) as [E1 E2]. destruct (IH _ _ E1) as [I1 I2].
    split; [constructor; [apply rnorm_same, E2|exact I1]|exact I2].
Qed.
(*@E
Example C83_ex : length (results Debug fresh [OAddGas addrA 7; OFlush; emit_good; OMainFlush; OGetDeriv addrA; ODerivFlush addrA]) = 3%nat /\
  mc_get_height (t_main (run Debug fresh [OAddGas addrA 7; OFlush; emit_good; OMainFlush])) = 2.
Proof. vm_compute. auto. Qed.
@*)

(** ** Restarts *)
Lemma core_norm t : core (norm t) = core t. Proof. reflexivity. Qed.
Lemma norm_core t : norm (core t) = core t. Proof. reflexivity. Qed.
Definition strip (t : bct) : bct := MkTree0 (t_main t) [] (t_summary t) (t_old_summary t) (t_gas t) (t_old_gas t) [].
Lemma core_strip t : core t = norm (strip t). Proof. reflexivity. Qed.
Lemma strip_summary f t : t_on_summary f (strip t) = (strip (fst (t_on_summary f t)), snd (t_on_summary f t)).
Proof. unfold t_on_summary. cbn [strip t_summary]. destruct (f (t_summary t)). reflexivity. Qed.
Lemma strip_gas f t : t_on_gas f (strip t) = (strip (fst (t_on_gas f t)), snd (t_on_gas f t)).
Proof. unfold t_on_gas. cbn [strip t_gas]. destruct (f (t_gas t)). reflexivity. Qed.
Lemma strip_send x y a t : t_send_amount x y a (strip t) = (strip (fst (t_send_amount x y a t)), snd (t_send_amount x y a t)).
Proof. unfold t_send_amount. destruct (bytes_eqb x y); [reflexivity|apply strip_summary]. Qed.
(** Main calls do not look at derivative chains. *)
Lemma strip_send_tx tx t : t_send_transaction tx (strip t) = (strip (fst (t_send_transaction tx t)), snd (t_send_transaction tx t)).
Proof.
  unfold t_send_transaction.
  match goal with |- context [match ?c with Ok gas_required => _ | Err e => (strip t, _) | _ => _ end] =>
    match goal with |- context [match ?c' with Ok gas_required => _ | Err e => (t, _) | _ => _ end] => change c with c'; destruct c' as [gas|e| |] end end; try reflexivity.
  change (with_main (strip t) (mc_add_transaction tx (t_main (strip t)))) with (strip (with_main t (mc_add_transaction tx (t_main t)))).
  rewrite strip_send. destruct (t_send_amount _ _ _ _) as [t2 r]. cbn [fst snd]. destruct r; try reflexivity. apply strip_gas.
Qed.
Lemma strip_emit p pow founder txs ts t : t_emmit_new_main_block p pow founder txs ts (strip t) =
  (strip (fst (t_emmit_new_main_block p pow founder txs ts t)), snd (t_emmit_new_main_block p pow founder txs ts t)).
Proof.
  unfold t_emmit_new_main_block.
  match goal with |- context [match ?c with Ok _ => _ | Err e => (strip t, _) | _ => _ end] =>
    match goal with |- context [match ?c' with Ok _ => _ | Err e => (t, _) | _ => _ end] => change c with c'; destruct c' as [[fee info]|e| |] end end; try reflexivity.
  destruct (_ =? 0).
  - destruct txs as [|x txs]; [|reflexivity]. change (t_summarize (strip t)) with (t_summarize t). destruct (t_summarize t) as [root|e| |]; try reflexivity.
    change (t_rotate_dbs (strip t)) with (strip (t_rotate_dbs t)). unfold t_set_amount. rewrite strip_summary. destruct (t_on_summary _ _) as [t2 r]. cbn [fst snd].
    destruct r as [u|e| |]; try reflexivity. cbn [strip t_main]. destruct (mc_add_block _ (t_main t2)). reflexivity.
  - destruct txs as [|x txs]; [reflexivity|]. destruct (let! tree := build_tree (x :: txs) in get_root tree) as [root|e| |]; try reflexivity.
    cbn [strip t_main]. destruct (mc_add_block _ (t_main t)). reflexivity.
Qed.
Lemma main_step_strip p t o : main_call o = true -> step p (strip t) o = (strip (fst (step p t o)), snd (step p t o)).
Proof.
  destruct o; intros H; try discriminate H; cbn [step]; unfold ret_unit, ret_block.
  - unfold t_add_amount. rewrite strip_summary. reflexivity.
  - unfold t_set_amount. rewrite strip_summary. reflexivity.
  - unfold t_sub_amount. rewrite strip_summary. reflexivity.
  - rewrite strip_send. reflexivity.
  - unfold t_add_gas. rewrite strip_gas. reflexivity.
  - unfold t_sub_gas. rewrite strip_gas. reflexivity.
  - unfold t_send_gas. rewrite strip_gas. reflexivity.
  - rewrite strip_send_tx. reflexivity.
  - rewrite strip_emit. reflexivity.
  - unfold t_add_new_block. cbn [strip t_main]. destruct (mc_add_block b (t_main t)) as [m r]. destruct r; reflexivity.
  - reflexivity.
Qed.
Lemma main_step_core p t t' o : main_call o = true -> core t = core t' ->
  core (fst (step p t o)) = core (fst (step p t' o)) /\ snd (step p t o) = snd (step p t' o).
Proof.
  intros H E. rewrite !core_strip in *. destruct (step_alike p _ _ o E) as [E1 E2].
  rewrite !main_step_strip in E1, E2 by exact H. cbn [fst snd] in *. split; [exact E1|].
  assert (R : forall u, rnorm (snd (step p u o)) = snd (step p u o)).
  { intros u. destruct o; try discriminate H; cbn [step]; unfold ret_unit, ret_block; cbn [fst snd];
    match goal with |- rnorm (let! _ := ?r in _) = _ => destruct r; reflexivity | _ => reflexivity end. }
  rewrite !R in E2. exact E2.
Qed.
Lemma other_step_core p t o : main_call o = false -> core (fst (step p t o)) = core t.
Proof.
  destruct o; intros H; try discriminate H; cbn [step].
  - unfold ret_block. cbn [fst]. unfold t_emmit_new_derivative_block, t_get_derivative_chain.
    destruct (assoc_get founder (t_derivs t)) as [c|].
    + destruct (let! last := dc_get_last_block c in _) as [i|e| |]; try reflexivity. destruct (dc_add_block i c). reflexivity.
    + destruct (let! last := mc_get_last_block (t_main t) in _) as [c|e| |]; try reflexivity.
      destruct (let! last := dc_get_last_block c in _) as [i|e| |]; try reflexivity. destruct (dc_add_block i c). reflexivity.
  - unfold t_get_derivative_chain. destruct (assoc_get owner (t_derivs t)) as [c|]; [reflexivity|].
    destruct (let! last := mc_get_last_block (t_main t) in _) as [c|e| |]; reflexivity.
  - destruct (assoc_get owner (t_derivs t)) as [c|]; [|reflexivity]. destruct (dc_add_block i c). reflexivity.
  - reflexivity.
  - reflexivity.
  - destruct (assoc_get owner (t_derivs t)); reflexivity.
Qed.
Lemma session_reachable p n ops rs t : session p n ops rs t -> reachable any_op p n t.
Proof.
  induction 1 as [t E|n ops rs t o H IH W M|n ops rs t o H IH W M|n ops rs t t' H IH Hh E].
  - apply reach_open, E.
  - apply reach_call; [exact IH|exact W|exact I].
  - apply reach_call; [exact IH|exact W|exact I].
  - eapply reach_reopen; eassumption.
Qed.
Lemma reopen_core p n ops rs t t' : session p n ops rs t -> few n -> mc_get_height (t_main t) <> 1 -> t_new (t_close (t_flush t)) = Ok t' -> core t' = core t.
Proof.
  intros H Hn Hh E. destruct (reachable_inv _ _ _ _ (session_reachable _ _ _ _ _ H) Hn) as (L & HL & Hlen). unfold few in Hn.
  destruct (reopen_main t L HL ltac:(lia)) as (t1 & E1 & _ & R1 & R2 & R3 & R4 & R5 & R6 & R7 & R8 & _). rewrite E in E1. injection E1 as <-.
  unfold mc_get_height in Hh. apply N.eqb_neq in Hh. rewrite Hh in R5. unfold core, mnorm. rewrite R1, R2, R3, R4, R5, R6, R7, R8. reflexivity.
Qed.

(** The state of a history without restarts and derivative calls. *)
Lemma session_core p n ops rs t : session p n ops rs t -> few n -> forall t0, t_new disk_empty = Ok t0 ->
  core t = core (run p t0 ops) /\ rs = results p t0 ops.
Proof.
  intros H Hn t0 E0. revert Hn. induction H as [t E|n ops rs t o H IH W M|n ops rs t o H IH W M|n ops rs t t' H IH Hh E]; intros Hn.
  - rewrite E in E0. injection E0 as <-. split; reflexivity.
  - destruct (IH ltac:(unfold few in *; lia)) as [I1 I2]. destruct (main_step_core p _ _ o M I1) as [J1 J2].
    unfold run in *. rewrite fold_left_app. cbn [fold_left]. split; [exact J1|]. subst rs. rewrite J2.
    assert (Hf : flushing o = false) by (destruct o; try discriminate M; reflexivity). clear -Hf.
    revert t0. induction ops as [|x ops IH]; intros t0; cbn [app results fold_left]; [rewrite Hf; reflexivity|].
    destruct (flushing x); cbn [app]; rewrite <- IH; reflexivity.
  - destruct (IH ltac:(unfold few in *; lia)) as [I1 I2]. rewrite (other_step_core p t o M). auto.
  - destruct (IH Hn) as [I1 I2]. rewrite (reopen_core p n ops rs t t' H Hn Hh E). auto.
Qed.

(*@T C84, for restarts at heights above 1: what the main calls return and every answer about the
    main chain and the balances depend on the main calls made, not on flushes, restarts and derivative calls in between. *)
Lemma p_C84_restart_invisible_partial : forall p n n' ops rs rs' t t', few n -> few n' ->
  session p n ops rs t -> session p n' ops rs' t' ->
  rs = rs' /\ same_main (t_main t) (t_main t') /\ same_balances t t'.
Proof.
  intros p n n' ops rs rs' t t' Hn Hn' H H'.
  assert (X : exists t0, t_new disk_empty = Ok t0) by (clear; vm_compute; eauto). destruct X as [t0 E0].
  destruct (session_core _ _ _ _ _ H Hn t0 E0) as [A1 A2]. destruct (session_core _ _ _ _ _ H' Hn' t0 E0) as [B1 B2].
  split; [congruence|]. rewrite <- B1 in A1. split; [apply mnorm_same; exact (f_equal t_main A1)|].
  apply norm_balances; [exact (f_equal t_summary A1)|exact (f_equal t_gas A1)|exact (f_equal t_old_summary A1)|exact (f_equal t_old_gas A1)].
Qed.
(*@T C84 is false of the code for a restart before the first emitted block: a transfer refused in the one
    history is made in the other. *)
Lemma p_C84_early_restart_refuted : forall p, exists t t', t_new disk_empty = Ok t /\
  let spent := run p t [OSendAmount ROOT_PUBLIC_ADDRESS addrA COINS_PER_CYCLE] in
  t_new (t_close (t_flush spent)) = Ok t' /\
  snd (step p spent (OSendAmount ROOT_PUBLIC_ADDRESS addrA 1)) = Panic /\
  snd (step p t' (OSendAmount ROOT_PUBLIC_ADDRESS addrA 1)) = Ok RUnit.
Proof. intros p. destruct p; eexists; eexists; (split; [vm_compute; reflexivity|]); cbv zeta; (split; [vm_compute; reflexivity|]); split; vm_compute; reflexivity. Qed.
(*@T C84 is false of the code for derivative chains: blocks emitted after the chain was opened are
    forgotten by a clean restart, so that the next emission is refused in one history and accepted in the other. *)
Lemma p_C84_derivative_restart_refuted : forall p, exists t', let t := run p fresh [deriv_1; emit_good] in
  reachable any_op p 2 t /\ mc_get_height (t_main t) <> 1 /\ t_new (t_close (t_flush t)) = Ok t' /\
  ~ same_answers t t'.
Proof.
  intros p.
  assert (E : exists t', t_new (t_close (t_flush (run p fresh [deriv_1; emit_good]))) = Ok t' /\
    match snd (t_get_derivative_chain addrA (run p fresh [deriv_1; emit_good])), snd (t_get_derivative_chain addrA t') with
    | Ok c, Ok c' => dc_get_height c = 1 /\ dc_get_height c' = 0 | _, _ => False end).
  { destruct p; eexists; (split; [vm_compute; reflexivity|]); vm_compute; auto. }
  destruct E as (t' & E & F). exists t'. cbv zeta. split; [|split; [destruct p; vm_compute; discriminate|split; [exact E|]]].
  - apply (reach_call any_op p 1 (run p fresh [deriv_1]) emit_good); [apply (reach_call any_op p 0 fresh deriv_1); [apply reach_open; vm_compute; reflexivity| |exact I]| |exact I];
    repeat split; repeat constructor; reflexivity.
  - intros (_ & _ & S). specialize (S addrA).
    destruct (snd (t_get_derivative_chain addrA (run p fresh [deriv_1; emit_good]))) as [c| | |]; try contradiction.
    destruct (snd (t_get_derivative_chain addrA t')) as [c'| | |]; try contradiction. destruct S as (S & _), F as [F1 F2]. congruence.
Qed.
(*@E
(* two sessions with the same main calls *)
Example C84_ex : exists t t', t_new disk_empty = Ok t /\
  session Debug 2 [OAddGas addrA 7; emit_good] [Ok RUnit; snd (step Debug (run Debug t [OAddGas addrA 7]) emit_good)] (run Debug t [OAddGas addrA 7; emit_good]) /\
  session Debug 4 [OAddGas addrA 7; emit_good] [Ok RUnit; snd (step Debug (run Debug t [OFlush; OAddGas addrA 7; deriv_1]) emit_good)] t'.
Proof.
  exists fresh. eexists. split; [vm_compute; reflexivity|].
  assert (W1 : op_wf (OAddGas addrA 7)) by (repeat split; repeat constructor; reflexivity).
  assert (W2 : op_wf emit_good) by (repeat split; repeat constructor; reflexivity).
  assert (W3 : op_wf deriv_1) by (repeat split; repeat constructor; reflexivity).
  assert (S0 : session Debug 0 [] [] fresh) by (apply session_open; vm_compute; reflexivity).
  split.
  - apply (session_call _ _ _ _ _ emit_good (session_call _ _ _ _ _ (OAddGas addrA 7) S0 W1 eq_refl) W2 eq_refl).
  - assert (S1 : session Debug 4 [OAddGas addrA 7; emit_good] [Ok RUnit; snd (step Debug (run Debug fresh [OFlush; OAddGas addrA 7; deriv_1]) emit_good)] (run Debug fresh [OFlush; OAddGas addrA 7; deriv_1; emit_good]))
      by apply (session_call _ _ _ _ _ emit_good (session_other _ _ _ _ _ deriv_1 (session_call _ _ _ _ _ (OAddGas addrA 7) (session_other _ _ _ _ _ OFlush S0 I eq_refl) W1 eq_refl) W3 eq_refl) W2 eq_refl).
    eapply session_reopen; [exact S1|vm_compute; discriminate|vm_compute; reflexivity].
Qed.
@*)
