(** Proofs of the statements in P_Audit.v: what blocks commit to can be proved to others. *)
From Coq Require Import Lia ZifyBool ZifyNat ZifyN.
From Verif Require Import Base Sha256 Merkle Tools Transaction Block Sled Chain Tree Spec Reach LedgerSpec NodeSpec AuditSpec Demo.
From Verif Require Import BaseFacts MerkleFacts ChainFacts TreeFacts LedgerFacts NodeFacts NodeSim NodeProps EpochDemo.

Local Strategy 1000 [sha256 block_dump tx_dump build_tree block_hash to_be root_of].

Lemma provable_in items item : In item items -> provable item items (root_of items).
Proof.
  intros Hin. destruct (build_tree_root items) as (tr & r & Hb & Hr & _).
  destruct (get_proof_complete items tr item Hb Hin) as (proof & root & Hp & Hr' & _ & Hv).
  assert (E : root = root_of items).
  { rewrite root_of_mroot. unfold mroot. rewrite Hb. cbn [bind]. rewrite Hr'. reflexivity. }
  subst root. exists tr, proof. auto.
Qed.

(** The state of the code after a run, not only its answers. *)
Lemma sim_run_state p evs : forall k t n, sim k t n -> Forall (sane p) evs -> N.of_nat (k + length evs) + 2 < 2 ^ 256 ->
  exists t' rs, code_run p t evs = Some (t', rs) /\ sim (k + length evs) t' (fst (n_run p n evs)).
Proof.
  induction evs as [|e evs IH]; intros k t n H Hs Hk.
  - exists t, []. split; [reflexivity|]. cbn [length n_run fst]. rewrite Nat.add_0_r. exact H.
  - inversion Hs as [|? ? He Hes]; subst. destruct e as [o|]; cbn [code_run n_run].
    + pose proof (sim_step p k t n o H ltac:(cbn [length] in Hk; lia) He) as K. destruct (step p t o) as [t1 r], (n_step p n o) as [n1 a].
      destruct K as [K _]. destruct (IH (S k) t1 n1 K Hes ltac:(cbn [length] in Hk; lia)) as (t2 & rs & E & K2).
      destruct (n_run p n1 evs) as [n2 l] eqn:En. rewrite E. exists t2, (r :: rs). split; [reflexivity|].
      cbn [fst] in K2 |- *. replace (k + length (Call o :: evs))%nat with (S k + length evs)%nat by (cbn [length]; lia). exact K2.
    + destruct (sim_restart p k t n H ltac:(cbn [length] in Hk; lia)) as (t1 & E1 & K). rewrite E1.
      destruct (IH k t1 (n_restart n) K Hes ltac:(cbn [length] in Hk; lia)) as (t2 & rs & E & K2). rewrite E. exists t2, rs.
      split; [reflexivity|]. split.
      * eapply msim_same; [apply K2|cbn [length]; lia|reflexivity].
      * apply K2.
      * eapply dsim_same; [apply K2|cbn [length]; lia|reflexivity..].
Qed.

(** ** The invariant on the abstract node *)
Definition kept (n : anode) : list bytes :=
  map (fun e => sha256 (leaf_text (fst e) (snd e) (entry (fst e) (n_old_gas n)))) (n_old_amounts n).
Definition committed (n : anode) : Prop :=
  n_blocks n <> [] /\
  let e := epoch_start (n_height n) in
  if e =? 0 then n_old_amounts n = [] /\ n_old_gas n = []
  else exists i, nth_error (n_blocks n) (N.to_nat e) = Some (SummBlock i (root_of (kept n))).

Lemma committed_same n n' : committed n -> n_blocks n' = n_blocks n -> n_old_amounts n' = n_old_amounts n -> n_old_gas n' = n_old_gas n -> committed n'.
Proof.
  unfold committed, n_height, kept. intros [H0 H] -> -> ->. split; [exact H0|exact H].
Qed.
Lemma epoch_step h : 0 < h -> h mod 1000000 <> 0 -> epoch_start (h + 1) = epoch_start h.
Proof.
  intros H Hm. unfold epoch_start. f_equal. replace (h + 1 - 1) with h by lia.
  pose proof (N.div_mod h 1000000 ltac:(lia)) as E. pose proof (N.mod_lt h 1000000 ltac:(lia)) as L.
  apply (N.div_unique (h - 1) 1000000 (h / 1000000) (h mod 1000000 - 1)); lia.
Qed.
Lemma epoch_at h : 0 < h -> h mod 1000000 = 0 -> epoch_start (h + 1) = h.
Proof.
  intros H Hm. unfold epoch_start. replace (h + 1 - 1) with h by lia.
  pose proof (N.div_mod h 1000000 ltac:(lia)) as E. lia.
Qed.
Lemma epoch_below h : 0 < h -> epoch_start h < h.
Proof.
  intros H. unfold epoch_start. pose proof (N.mul_div_le (h - 1) 1000000 ltac:(lia)). lia.
Qed.
Lemma committed_append n b X : committed n -> n_height n mod 1000000 <> 0 ->
  committed (with_txs (with_blocks n (n_blocks n ++ [b])) X).
Proof.
  intros [H0 H] Hm. assert (Hp : 0 < n_height n) by (unfold n_height; destruct (n_blocks n); [congruence|cbn [length]; lia]).
  split; [cbn; intros E; apply app_eq_nil in E as [_ E]; discriminate|].
  assert (Eh : n_height (with_txs (with_blocks n (n_blocks n ++ [b])) X) = n_height n + 1).
  { unfold n_height. cbn. rewrite app_length. cbn [length]. lia. }
  cbv zeta in H |- *. rewrite Eh, epoch_step by assumption. pose proof (epoch_below _ Hp) as Hb.
  destruct (epoch_start (n_height n) =? 0); [exact H|]. destruct H as (i & Hi). exists i.
  cbn [with_txs with_blocks n_blocks]. rewrite nth_error_app1 by (unfold n_height in *; lia). exact Hi.
Qed.

Lemma do_amounts_committed f n : committed n -> committed (fst (do_amounts f n)).
Proof. intros H. unfold do_amounts. destruct (f _); [eapply committed_same; [exact H|reflexivity..]|exact H]. Qed.
Lemma do_gas_committed f n : committed n -> committed (fst (do_gas f n)).
Proof. intros H. unfold do_gas. destruct (f _); [eapply committed_same; [exact H|reflexivity..]|exact H]. Qed.

Lemma committed_step p n o : committed n -> inside_epochs (Call o) -> committed (fst (n_step p n o)).
Proof.
  intros H Hi. destruct o as [v a|v a|v a|v u a|v a|v a|v u a|tx|pow founder txs ts|pow founder ts|v|b txs|txs|v i| | |v]; cbn [n_step];
    try (apply do_amounts_committed; exact H); try (apply do_gas_committed; exact H); try exact H.
  - destruct (bytes_eqb v u); [exact H|apply do_amounts_committed; exact H].
  - unfold n_send. destruct (_ <? _); [exact H|]. destruct (_ <=? _); [exact H|]. destruct (_ <? _); [exact H|].
    destruct (bytes_eqb _ _); [eapply committed_same; [exact H|reflexivity..]|]. destruct (move _ _ _ _); eapply committed_same; try exact H; reflexivity.
  - unfold n_emit. destruct (n_header _ _ _ _ _ _ _ _ _) as [i| | |]; try exact H.
    destruct (N.eqb_spec (n_height n mod 1000000) 0) as [Em|Em]; destruct txs as [|x l]; cbn [fst]; try exact H.
    + destruct H as [H0 H]. assert (Hp : 0 < n_height n) by (unfold n_height; destruct (n_blocks n); [congruence|cbn [length]; lia]).
      split; [cbn; intros E; apply app_eq_nil in E as [_ E]; discriminate|]. cbv zeta.
      match goal with |- context [n_height ?m] => assert (Eh : n_height m = n_height n + 1) by (unfold n_height; cbn; rewrite app_length; cbn [length]; lia) end.
      rewrite Eh, epoch_at by assumption. destruct (N.eqb_spec (n_height n) 0) as [Ez|Ez]; [lia|]. exists i.
      cbn [n_blocks]. unfold n_height. rewrite Nnat.Nat2N.id, nth_error_app2, Nat.sub_diag by lia. reflexivity.
    + exact (committed_append n _ (n_txs n) H Em).
  - unfold n_emit_side. destruct (match snd _ with [] => _ | _ => _ end); eapply committed_same; try exact H; reflexivity.
  - destruct (N.eqb_spec (bi_height (get_info b)) (n_height n)) as [E|E]; [|exact H]. cbn [inside_epochs] in Hi. rewrite E in Hi.
    exact (committed_append n b _ H Hi).
  - cbn [fst]. destruct (negb _); [exact H|]. destruct (_ =? _); [eapply committed_same; [exact H|reflexivity..]|exact H].
Qed.
Lemma committed_run p evs : forall n, committed n -> Forall inside_epochs evs -> committed (fst (n_run p n evs)).
Proof.
  induction evs as [|[o|] evs IH]; intros n H Hs; cbn [n_run]; [exact H| |]; inversion Hs; subst.
  - pose proof (committed_step p n o H ltac:(assumption)) as K. destruct (n_step p n o) as [n1 a]. cbn [fst] in K.
    pose proof (IH n1 K ltac:(assumption)) as K2. destruct (n_run p n1 evs) as [n2 l]. exact K2.
  - apply IH; [|assumption]. eapply committed_same; [exact H|reflexivity..].
Qed.
Lemma committed_start : committed n_start.
Proof. split; [discriminate|]. split; reflexivity. Qed.

Definition n_kept (n : anode) : anode :=
  MkNode (n_blocks n) (n_txs n) (n_old_amounts n) (n_old_gas n) (n_old_amounts n) (n_old_gas n) (n_chains n) (n_open n).
Lemma sim_kept k t n : sim k t n -> sim k (last_epoch t) (n_kept n).
Proof.
  intros [M L D]. split.
  - eapply msim_same; [exact M|lia|reflexivity].
  - destruct L. split; assumption.
  - eapply dsim_same; [exact D|lia|reflexivity..].
Qed.
Lemma leaves_kept k t n : sim k t n -> account_leaves t = kept n.
Proof.
  intros [_ [_ _ [A1 A2] [G1 G2]] _]. unfold account_leaves, kept, sled_iter. rewrite A1. unfold encl. rewrite map_map. apply map_ext.
  intros [w x]. cbn [fst snd]. unfold account_leaf, leaf_text, sled_get. rewrite G1, encl_get. destruct (entry w (n_old_gas n)); reflexivity.
Qed.

Lemma history p evs t : Forall (sane p) evs -> N.of_nat (length evs) + 2 < 2 ^ 256 -> t_new disk_empty = Ok t ->
  exists t' rs, code_run p t evs = Some (t', rs) /\ sim (length evs) t' (fst (n_run p n_start evs)).
Proof. intros Hs Hl E. exact (sim_run_state p evs 0 t n_start (sim_start t E) Hs Hl). Qed.

(*@T At any moment of any epoch but the first, the block the epoch starts with carries the root computed afresh
    from the balances kept since then: whatever was called in between, restarts included. *)
Lemma p_C120_epoch : forall p evs t t' rs,
  Forall (sane p) evs -> Forall inside_epochs evs -> few (length evs) -> t_new disk_empty = Ok t -> code_run p t evs = Some (t', rs) ->
  let e := epoch_start (mc_get_height (t_main t')) in 0 < e ->
  exists i root, mc_find_by_height e (t_main t') = Ok (Some (SummBlock i root)) /\ t_summarize (last_epoch t') = Ok root.
Proof.
  intros p evs t t' rs Hs Hi Hl E R. unfold few in Hl. destruct (history p evs t Hs ltac:(lia) E) as (t2 & rs2 & R2 & S). rewrite R in R2. injection R2 as <- <-.
  pose proof (committed_run p evs n_start committed_start Hi) as [_ C]. set (n := fst _) in *.
  pose proof (sim_answers _ _ _ S ltac:(lia)) as (Ah & Af & _). cbv zeta in C |- *. rewrite Ah.
  destruct (N.eqb_spec (epoch_start (n_height n)) 0) as [Ez|Ez]; [lia|]. intros _. destruct C as (i & C). exists i, (root_of (kept n)).
  split; [rewrite (proj2 (Af _)), C; reflexivity|]. exact (sim_summarize _ _ _ (sim_kept _ _ _ S)).
Qed.

(*@T Every account kept from the end of the last epoch can be proved to whoever has that block: the proof made by the
    Merkle module for its leaf passes the check of the Merkle module against the root in the block. *)
Lemma p_C120_accounts : forall p evs t t' rs w v,
  Forall (sane p) evs -> Forall inside_epochs evs -> few (length evs) -> t_new disk_empty = Ok t -> code_run p t evs = Some (t', rs) ->
  let e := epoch_start (mc_get_height (t_main t')) in 0 < e ->
  In (w, v) (sled_iter (t_old_summary t')) ->
  exists i root, mc_find_by_height e (t_main t') = Ok (Some (SummBlock i root)) /\
    provable (account_leaf t' w v) (account_leaves t') root.
Proof.
  intros p evs t t' rs w v Hs Hi Hl E R e He Hin. unfold few in Hl. destruct (history p evs t Hs ltac:(lia) E) as (t2 & rs2 & R2 & S).
  rewrite R in R2. injection R2 as <- <-.
  pose proof (committed_run p evs n_start committed_start Hi) as [_ C]. set (n := fst _) in *.
  pose proof (sim_answers _ _ _ S ltac:(lia)) as (Ah & Af & _). subst e. rewrite Ah in *. cbv zeta in C.
  destruct (N.eqb_spec (epoch_start (n_height n)) 0) as [Ez|Ez]; [lia|]. destruct C as (i & C). exists i, (root_of (kept n)).
  split; [rewrite (proj2 (Af _)), C; reflexivity|]. rewrite <- (leaves_kept _ _ _ S). apply provable_in.
  unfold account_leaves. apply in_map_iff. exists (w, v). auto.
Qed.

(*@T During the first epoch there is nothing to prove: the kept databases are empty. *)
Lemma p_C120_first_epoch : forall p evs t t' rs,
  Forall (sane p) evs -> Forall inside_epochs evs -> few (length evs) -> t_new disk_empty = Ok t -> code_run p t evs = Some (t', rs) ->
  mc_get_height (t_main t') <= 1000000 -> sled_iter (t_old_summary t') = [] /\ sled_iter (t_old_gas t') = [].
Proof.
  intros p evs t t' rs Hs Hi Hl E R Hh. unfold few in Hl. destruct (history p evs t Hs ltac:(lia) E) as (t2 & rs2 & R2 & S). rewrite R in R2. injection R2 as <- <-.
  pose proof (committed_run p evs n_start committed_start Hi) as [_ C]. set (n := fst _) in *.
  pose proof (sim_answers _ _ _ S ltac:(lia)) as (Ah & _). rewrite Ah in Hh. cbv zeta in C.
  assert (Ez : epoch_start (n_height n) = 0) by (unfold epoch_start; rewrite N.div_small by lia; reflexivity). rewrite Ez in C. cbn in C.
  destruct C as [C1 C2]. destruct S as [_ [_ _ [A1 _] [G1 _]] _]. unfold sled_iter. rewrite A1, G1, C1, C2. split; reflexivity.
Qed.

(** ** Transactions *)
Definition rooted (b : block) : Prop := match b with TxBlock _ r _ txs => r = root_of txs | _ => True end.
Lemma do_amounts_blocks f n : n_blocks (fst (do_amounts f n)) = n_blocks n.
Proof. unfold do_amounts. destruct (f _); reflexivity. Qed.
Lemma do_gas_blocks f n : n_blocks (fst (do_gas f n)) = n_blocks n.
Proof. unfold do_gas. destruct (f _); reflexivity. Qed.
Lemma rooted_step p n o : Forall rooted (n_blocks n) -> roots_right (Call o) -> Forall rooted (n_blocks (fst (n_step p n o))).
Proof.
  intros H Hr. destruct o as [v a|v a|v a|v u a|v a|v a|v u a|tx|pow founder txs ts|pow founder ts|v|b txs|txs|v i| | |v]; cbn [n_step]; try exact H;
    try (rewrite do_amounts_blocks; exact H); try (rewrite do_gas_blocks; exact H).
  - destruct (bytes_eqb v u); [exact H|]. rewrite do_amounts_blocks. exact H.
  - unfold n_send. destruct (_ <? _); [exact H|]. destruct (_ <=? _); [exact H|]. destruct (_ <? _); [exact H|].
    destruct (bytes_eqb _ _); [exact H|]. destruct (move _ _ _ _); exact H.
  - unfold n_emit. destruct (n_header _ _ _ _ _ _ _ _ _) as [i| | |]; try exact H.
    destruct (_ =? 0); destruct txs as [|x l]; cbn [fst]; try exact H; cbn [n_blocks with_blocks]; apply Forall_app; split; try exact H;
      constructor; try constructor; reflexivity.
  - unfold n_emit_side. destruct (match snd _ with [] => _ | _ => _ end); exact H.
  - destruct (_ =? _); [|exact H]. cbn [fst with_txs with_blocks n_blocks]. apply Forall_app. split; [exact H|]. constructor; [|constructor].
    destruct b as [f r i l| |]; try exact I. cbn [rooted]. cbn [roots_right] in Hr. rewrite root_of_mroot. exact (merkle_root_of_unique _ _ _ Hr (mroot_spec l)).
  - cbn [fst]. destruct (negb _); [exact H|]. destruct (_ =? _); exact H.
Qed.
Lemma rooted_run p evs : forall n, Forall rooted (n_blocks n) -> Forall roots_right evs -> Forall rooted (n_blocks (fst (n_run p n evs))).
Proof.
  induction evs as [|[o|] evs IH]; intros n H Hs; cbn [n_run]; [exact H| |]; inversion Hs; subst.
  - pose proof (rooted_step p n o H ltac:(assumption)) as K. destruct (n_step p n o) as [n1 a]. cbn [fst] in K.
    pose proof (IH n1 K ltac:(assumption)) as K2. destruct (n_run p n1 evs) as [n2 l]. exact K2.
  - apply IH; assumption.
Qed.

(*@T Every hash in every transaction block that can be found can be proved to whoever has the block's root. *)
Lemma p_C120_transactions : forall p evs t t' rs j fee root i txs h,
  Forall (sane p) evs -> Forall roots_right evs -> few (length evs) -> t_new disk_empty = Ok t -> code_run p t evs = Some (t', rs) ->
  mc_find_by_height j (t_main t') = Ok (Some (TxBlock fee root i txs)) -> In h txs -> provable h txs root.
Proof.
  intros p evs t t' rs j fee root i txs h Hs Hi Hl E R F Hin. unfold few in Hl. destruct (history p evs t Hs ltac:(lia) E) as (t2 & rs2 & R2 & S). rewrite R in R2. injection R2 as <- <-.
  assert (H0 : Forall rooted (n_blocks n_start)) by (constructor; [exact I|constructor]).
  pose proof (rooted_run p evs n_start H0 Hi) as C. set (n := fst _) in *.
  pose proof (sim_answers _ _ _ S ltac:(lia)) as (_ & Af & _). rewrite (proj2 (Af _)) in F. apply ok_inj in F. apply nth_error_In in F.
  rewrite Forall_forall in C. specialize (C _ F). cbn [rooted] in C. subst root. apply provable_in. exact Hin.
Qed.

(*@E
(** A block is emitted in the first epoch and read after a restart. *)
Example C120_tx_ex : let evs := [Call emit_good; Restart] in
  Forall (sane Release) evs /\ Forall roots_right evs /\ Forall inside_epochs evs /\ few (length evs) /\ t_new disk_empty = Ok fresh /\
  match code_run Release fresh evs with
  | Some (t', _) =>
      match mc_find_by_height 1 (t_main t') with
      | Ok (Some (TxBlock _ root _ [h])) => bytes_eqb h txh && negb (bytes_eqb root (repeat 0 32)) | _ => false
      end && (mc_get_height (t_main t') =? 2)
  | None => false
  end = true.
Proof.
  cbv zeta. split; [repeat (apply Forall_cons; [repeat split; try reflexivity; repeat constructor; reflexivity|]); constructor|].
  split; [repeat constructor|]. split; [repeat constructor|]. split; [reflexivity|]. split; vm_compute; reflexivity.
Qed.
@*)

(** ** An epoch boundary is reached *)
Definition fill (k : nat) : list event := map (fun j => Call (OAddNewBlock (filler (N.of_nat j)) [])) (seq 1 k).
Lemma n_run_app p a : forall n b, fst (n_run p n (a ++ b)) = fst (n_run p (fst (n_run p n a)) b).
Proof.
  induction a as [|[o|] a IH]; intros n b; cbn [app n_run]; [reflexivity| |apply IH].
  destruct (n_step p n o) as [n1 x]. specialize (IH n1 b). destruct (n_run p n1 (a ++ b)) as [n2 l]. destruct (n_run p n1 a) as [n3 l3]. exact IH.
Qed.
Lemma fill_run p k : let n := fst (n_run p n_start (fill k)) in
  n_blocks n = first_block :: map (fun j => filler (N.of_nat j)) (seq 1 k) /\ n_amounts n = [(ROOT_PUBLIC_ADDRESS, COINS_PER_CYCLE)] /\ n_gas n = [].
Proof.
  cbv zeta. unfold fill. induction k as [|k IH]; [repeat split|]. rewrite seq_S, !map_app, n_run_app. set (n := fst (n_run p n_start _)) in *.
  destruct IH as (I1 & I2 & I3). cbn [map n_run n_step]. change (bi_height (get_info (filler (N.of_nat (1 + k))))) with (N.of_nat (1 + k)).
  assert (E : n_height n = N.of_nat (1 + k)) by (unfold n_height; rewrite I1; cbn [length]; rewrite map_length, seq_length; lia).
  rewrite E, N.eqb_refl. cbv iota beta. cbn [fst]. split; [|split; [exact I2|exact I3]].
  change (n_blocks n ++ [filler (N.of_nat (1 + k))] = first_block :: map (fun j => filler (N.of_nat j)) (seq 1 k) ++ [filler (N.of_nat (1 + k))]). rewrite I1. reflexivity.
Qed.
Lemma seq_last (f : N -> block) d k : (0 < k)%nat -> last (map (fun j => f (N.of_nat j)) (seq 1 k)) d = f (N.of_nat k).
Proof. intros H. destruct k as [|k]; [lia|]. rewrite seq_S, map_app. cbn [map]. rewrite last_last. f_equal. Qed.

Lemma nat_of x : exists k, N.of_nat k = x.
Proof. exists (N.to_nat x). apply Nnat.N2Nat.id. Qed.
(*@T These theorems are about something: an epoch boundary is reached by a history that satisfies every hypothesis, with
    the account of the root kept. *)
Lemma p_C120_reached : forall p, exists evs t t' rs v,
  Forall (sane p) evs /\ Forall inside_epochs evs /\ few (length evs) /\ t_new disk_empty = Ok t /\ code_run p t evs = Some (t', rs) /\
  epoch_start (mc_get_height (t_main t')) = 1000000 /\ In (ROOT_PUBLIC_ADDRESS, v) (sled_iter (t_old_summary t')).
Proof.
  intros p. destruct (nat_of 999999) as (k & Hk).
  set (tl := [Call (OEmitMain (repeat 3 32) addrA [] 1597924900); Restart]). exists (fill k ++ tl), fresh.
  assert (Hl : length (fill k ++ tl) = (k + 2)%nat) by (rewrite app_length; unfold fill; rewrite map_length, seq_length; reflexivity).
  assert (Hw : few (length (fill k ++ tl))) by (rewrite Hl; unfold few; lia).
  assert (Hs : Forall (sane p) (fill k ++ tl)).
  { apply Forall_app. split.
    - apply Forall_forall. intros e He. unfold fill in He. apply in_map_iff in He as (j & <- & Hj). apply in_seq in Hj.
      split; [split; [apply filler_wf; lia|constructor]|]. split; [exact I|apply difficulty_begin].
    - repeat constructor. }
  assert (Hi : Forall inside_epochs (fill k ++ tl)).
  { apply Forall_app. split.
    - apply Forall_forall. intros e He. unfold fill in He. apply in_map_iff in He as (j & <- & Hj). apply in_seq in Hj.
      cbn [inside_epochs filler get_info bi_height]. rewrite N.mod_small by lia. lia.
    - repeat constructor. }
  destruct (history p (fill k ++ tl) fresh Hs ltac:(unfold few in Hw; lia) eq_refl) as (t' & rs & R & S).
  pose proof (fill_run p k) as (F1 & F2 & F3). cbv zeta in F1, F2, F3. rewrite n_run_app in S. set (n := fst (n_run p n_start (fill k))) in *.
  assert (Eh : n_height n = 1000000) by (unfold n_height; rewrite F1; cbn [length]; rewrite map_length, seq_length; lia).
  assert (El : n_last n = filler 999999).
  { unfold n_last. rewrite F1. destruct k as [|k0] eqn:Ek; [lia|]. change (last (map (fun j => filler (N.of_nat j)) (seq 1 (Datatypes.S k0))) first_block = filler 999999). rewrite seq_last by lia. f_equal. lia. }
  assert (En : exists i, n_header p (block_hash (n_last n)) (bi_difficulty (get_info (n_last n))) (bi_timestamp (get_info (n_last n))) (n_height n) (root_of []) (repeat 3 32) addrA 1597924900 = Ok i).
  { rewrite El, Eh. unfold n_header. set (x := enough_work _ _ _ _). assert (X : x = true) by (unfold x; vm_compute; reflexivity). rewrite X. cbn [negb].
    change (bi_timestamp (get_info (filler 999999))) with 1597924800. eexists. reflexivity. }
  destruct En as (i & En).
  assert (St : sim (length (fill k ++ tl)) t' (n_restart (MkNode (n_blocks n ++ [SummBlock i (root_of (summary_leaves n))]) (n_txs n) (put ROOT_PUBLIC_ADDRESS COINS_PER_CYCLE (n_amounts n)) (n_gas n)
               (n_amounts n) (n_gas n) (n_chains n) (n_open n)))).
  { unfold tl in S. cbn [n_run n_step] in S. unfold n_emit in S. rewrite En in S. rewrite Eh in S. exact S. }
  pose proof (sim_answers _ _ _ St ltac:(unfold few in Hw; lia)) as (Ah & _).
  exists t', rs, (dump_u256 COINS_PER_CYCLE []). split; [exact Hs|]. split; [exact Hi|]. split; [exact Hw|]. split; [reflexivity|]. split; [exact R|]. split.
  - rewrite Ah. unfold n_height, n_restart. cbn [n_blocks]. rewrite app_length. cbn [length].
    replace (N.of_nat (length (n_blocks n) + 1)) with 1000001 by (unfold n_height in Eh; lia). reflexivity.
  - destruct St as [_ [_ _ [A1 _] _] _]. unfold sled_iter. rewrite A1. unfold n_restart. cbn [n_old_amounts]. rewrite F2. left. reflexivity.
Qed.

(*@T Without the condition on blocks added by hand a block may carry any root, and none of its hashes can be proved. *)
Lemma p_C120_raw_refuted : ~ (forall p evs t t' rs j fee root i txs h,
  Forall (sane p) evs -> few (length evs) -> t_new disk_empty = Ok t -> code_run p t evs = Some (t', rs) ->
  mc_find_by_height j (t_main t') = Ok (Some (TxBlock fee root i txs)) -> In h txs -> provable h txs root).
Proof.
  intros H. pose (b := TxBlock 0 (repeat 0 32) (MkInfo 1597924800 (repeat 0 32) (repeat 0 32) 1 BEGINNING_DIFFICULTY (repeat 0 33)) [txh]).
  assert (Hs : Forall (sane Release) [Call (OAddNewBlock b [])]).
  { constructor; [|constructor]. split; [split; [repeat split; try reflexivity; repeat constructor; reflexivity|constructor]|]. split; [exact I|apply difficulty_begin]. }
  destruct (history Release [Call (OAddNewBlock b [])] fresh Hs ltac:(reflexivity) eq_refl) as (t' & rs & R & S).
  pose proof (sim_answers _ _ _ S ltac:(reflexivity)) as (_ & Af & _).
  destruct (H Release [Call (OAddNewBlock b [])] fresh t' rs 1 0 (repeat 0 32) (MkInfo 1597924800 (repeat 0 32) (repeat 0 32) 1 BEGINNING_DIFFICULTY (repeat 0 33)) [txh] txh Hs)
    as (tr & proof & B & G & _); [unfold few; cbn; lia|reflexivity|exact R| |left; reflexivity|].
  - rewrite (proj2 (Af 1)). reflexivity.
  - assert (X : match (let! t := build_tree [txh] in get_root t) with Ok (x :: _) => x =? 0 | _ => true end = false) by (vm_compute; reflexivity).
    rewrite B in X. cbn [bind] in X. rewrite G in X. cbn in X. discriminate X.
Qed.
