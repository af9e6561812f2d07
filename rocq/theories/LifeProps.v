(** Histories in which I/O operations fail, processes are killed and openings fail. *)
From Coq Require Import Lia ZifyBool ZifyNat ZifyN.
From Verif Require Import Base Sha256 Merkle Tools Transaction Block Sled Chain Tree Spec Reach QuietSpec Conc ConcTree ConcFlush ConcEmit Cancel ConcDeriv CrashSpec HistSpec Io IoSpec LifeSpec Demo.
From Verif Require Import BaseFacts ToolsFacts MerkleFacts DiffFacts CodecFacts SledFacts ChainFacts TreeFacts LedgerFacts CrashFacts ConcFacts EmitFacts IoFacts CodecProps MainProps DcrashProps HistProps LifeFacts.

Local Strategy 1000 [u256_mul u256_add u256_sub BYTE_GAS_PRICE t_get_amount t_get_gas mc_decode dc_decode recalculate_fee recalculate_difficulty t_send_amount t_sub_gas sled_get check_pow emit_block next_info dc_new mc_read_config genesis_block].

Lemma genesis_wf : block_wf genesis. Proof. apply genesis_readable. Qed.
Lemma genesis_stored : stored (height_key 0) (block_dump genesis).
Proof. exists 0, genesis. split; [lia|]. repeat split; try apply genesis_wf; reflexivity. Qed.
Lemma entries_insert x h b : entries x -> 1 <= h < 2 ^ 256 -> block_wf b -> bi_height (get_info b) = h -> entries (sm_insert (height_key h) (block_dump b) x).
Proof.
  intros H Hh Hb E k v. rewrite sm_get_insert. destruct (bytes_eqb k (height_key h)) eqn:Ek; [|apply H].
  intros X. injection X as <-. apply bytes_eqb_eq in Ek as ->. exists h, b. repeat (split; [first [lia|reflexivity|assumption]|]). lia.
Qed.
Lemma entries_genesis x : entries x -> entries (sm_insert (height_key 0) (block_dump genesis) x).
Proof.
  intros H k v. rewrite sm_get_insert. destruct (bytes_eqb k (height_key 0)) eqn:Ek; [|apply H]. intros X. injection X as <-. apply bytes_eqb_eq in Ek as ->. apply genesis_stored.
Qed.
Definition txs_stored (x : smap) : Prop := forall k v, sm_get k x = Some v -> sha256 v = k.
Lemma txs_stored_insert tx x : txs_stored x -> txs_stored (sm_insert (sha256 (tx_dump tx)) (tx_dump tx) x).
Proof. intros H k v. rewrite sm_get_insert. destruct (bytes_eqb k _) eqn:Ek; [|apply H]. intros X. injection X as <-. apply bytes_eqb_eq in Ek as ->. reflexivity. Qed.
Lemma life_entries ok p n h : life ok p (Down disk_empty) n (Up h) -> keeps entries txs_stored 0 (t_main (h_tree h)).
Proof.
  intros L. apply (kp_life entries txs_stored 0) in L; [exact L|auto| | |apply txs_stored_insert|].
  - intros x i b Hx Hi. apply entries_insert; [exact Hx|lia].
  - intros _. apply entries_genesis.
  - split; cbn [k_main disk_empty md_blocks md_txs md_cfg]; [apply alw_flat; intros ? ? X; discriminate X..|split; [reflexivity|constructor]].
Qed.

(*@T C107: whatever fails and whenever the process is killed, only blocks and transactions given to the node are found: everything found
   at a height is the dump of a block of that height, at height 0 of the first block; the chain is never empty. *)
Lemma p_C107_nothing_else_is_found : forall p n h, life any_faults p (Down disk_empty) n (Up h) ->
  1 <= mc_get_height (t_main (h_tree h)) < 2 ^ 256 /\
  forall i d, mc_find_raw_by_height i (t_main (h_tree h)) = Some d ->
    exists b, block_wf b /\ bi_height (get_info b) = i /\ d = block_dump b /\ (i = 0 -> genesis_block = Ok b).
Proof.
  intros p n h L. apply life_entries in L. split; [unfold mc_get_height; pose proof (kp_low _ _ _ _ L); lia|].
  intros i d E. unfold mc_find_raw_by_height in E. destruct (N.ltb_spec (mc_height (t_main (h_tree h))) i); [discriminate E|]. pose proof (kp_low _ _ _ _ L) as Hl.
  destruct (alw_cur _ _ (kp_blocks _ _ _ _ L) _ _ E) as (j & b & Hj & Ek & -> & Hb & Hh & Hg). apply height_key_inj in Ek; [|lia|exact Hj]. subst j.
  exists b. repeat (split; [first [assumption|reflexivity]|]). intros E0. rewrite (Hg E0). apply genesis_eq.
Qed.

Definition same_below (H : N) (x0 x : smap) : Prop := entries x /\ forall i, i < H -> sm_get (height_key i) x = sm_get (height_key i) x0.
Definition same_tx (k v : bytes) (x : smap) : Prop := sm_get k x = Some v \/ exists tx, collision v (tx_dump tx).
(*@T C107: a block or transaction of the main chain that was once flushed, with the config file on disk, is found ever after, through any calls,
   failing operations, closings, crashes and openings, successful or not; the chain is never shorter than then. *)
Lemma p_C107_flushed_is_never_lost : forall p n m h h', life any_faults p (Down disk_empty) n (Up h) -> life any_faults p (Up (saved h)) m (Up h') ->
  mc_get_height (t_main (h_tree h)) <= mc_get_height (t_main (h_tree h')) /\
  (forall i, i < mc_get_height (t_main (h_tree h)) -> mc_find_raw_by_height i (t_main (h_tree h')) = mc_find_raw_by_height i (t_main (h_tree h))) /\
  forall k tx, mc_get_transaction k (t_main (h_tree h)) = Ok (Some tx) ->
    mc_get_transaction k (t_main (h_tree h')) = Ok (Some tx) \/ exists d tx', collision d (tx_dump tx').
Proof.
  intros p n m h h' L1 L2. apply life_entries in L1. destruct L1 as [A B C D E]. set (H := mc_height (t_main (h_tree h))) in *. set (x0 := cur (mc_blocks (t_main (h_tree h)))) in *.
  assert (Hgen : forall Q : smap -> Prop, Q (cur (mc_txs (t_main (h_tree h)))) -> (forall tx x, Q x -> Q (sm_insert (sha256 (tx_dump tx)) (tx_dump tx) x)) ->
    keeps (same_below H x0) Q H (t_main (h_tree h'))).
  { intros Q Q0 Qi. refine (kp_life (same_below H x0) Q H _ _ _ _ _ _ _ _ _ L2 _).
    - intros x Hx. apply Hx.
    - intros x i b [X1 X2] Hi Hb Hh. split; [apply entries_insert; [exact X1|lia|exact Hb|exact Hh]|]. intros j Hj. rewrite sm_get_insert, height_key_eqb by lia. destruct (N.eqb_spec j i); [lia|]. apply X2, Hj.
    - intros X. lia.
    - exact Qi.
    - split; cbn [saved with_host h_tree t_settle with_main t_flush t_main mc_flush mc_blocks mc_txs mc_height mc_difficulty mc_cfg].
      + apply alw_flat. split; [exact (alw_cur _ _ A)|reflexivity].
      + apply alw_flat, Q0.
      + change (N.max H 1 <= H < 2 ^ 256). lia.
      + exact D.
      + split; [|constructor]. cbn [file_settle f_dur]. change (low H (file_cur (mc_cfg (mc_flush (t_main (h_tree h)))))). rewrite mc_cfg_flush. right. exists H, (mc_difficulty (t_main (h_tree h))). split; [lia|]. auto. }
  destruct (Hgen (fun _ => True) Logic.I ltac:(auto)) as [A' B' C' D' E']. unfold mc_get_height. fold H. split; [lia|]. split.
  - intros i Hi. unfold mc_find_raw_by_height. fold H. destruct (N.ltb_spec H i); [lia|]. destruct (N.ltb_spec (mc_height (t_main (h_tree h'))) i); [lia|].
    apply (alw_cur _ _ A'), Hi.
  - intros k tx Hk. unfold mc_get_transaction, mc_get_transaction_raw in *. destruct (sled_get k (mc_txs (t_main (h_tree h)))) as [v|] eqn:Ev; [|discriminate Hk].
    destruct (Hgen (same_tx k v)) as [_ B2 _ _ _].
    + left. exact Ev.
    + intros tx' x [X|X]; [|right; exact X]. destruct (bytes_eqb k (sha256 (tx_dump tx'))) eqn:Ek.
      * apply bytes_eqb_eq in Ek. destruct (list_eq_dec N.eq_dec v (tx_dump tx')) as [->|Hne]; [left; rewrite sm_get_insert, Ek, bytes_eqb_refl; reflexivity|].
        right. exists tx'. split; [exact Hne|]. rewrite <- Ek. exact (alw_cur _ _ B _ _ Ev).
      * left. rewrite sm_get_insert, Ek. exact X.
    + destruct (alw_cur _ _ B2) as [X|(tx' & X)]; [|right; eauto]. left. unfold sled_get. rewrite X. exact Hk.
Qed.

(** ** The chain as a whole, when blocks are never left behind by a flush *)
Definition post {St A} (x : io St A) (fs : list fault) (s : St) (Q : list fault -> out A -> St -> Prop) : Prop :=
  Q (fst (fst (x fs s))) (snd (x fs s)) (snd (fst (x fs s))).
Lemma post_bind {St A B} (x : io St A) (k : A -> io St B) fs s (Q : list fault -> out B -> St -> Prop) :
  post x fs s (fun fs' r s' => match r with Ok a => post (k a) fs' s' Q | Err e => Q fs' (Err e) s' | Panic => Q fs' Panic s' | UB => Q fs' UB s' end) ->
  post (io_bind x k) fs s Q.
Proof. unfold post, io_bind. destruct (x fs s) as [[fs' s'] [a|e| |]]; cbn [fst snd]; auto. Qed.
Lemma post_hoare {St A} (P : St -> Prop) (x : io St A) R fs s (Q : list fault -> out A -> St -> Prop) : hoare P x R -> P s -> (forall fs' r s', R r s' -> Q fs' r s') -> post x fs s Q.
Proof. intros H Hp HQ. apply HQ, H, Hp. Qed.
Lemma post_op {St A} (e : out A) (f : St -> St * out A) fs s (Q : list fault -> out A -> St -> Prop) :
  (next_fault fs = Fails 0 -> Q (tl fs) e s) -> Q (tl fs) e (fst (f s)) -> Q (tl fs) (snd (f s)) (fst (f s)) -> post (io_op e f) fs s Q.
Proof. unfold post, io_op. destruct (next_fault fs) as [|[|n]]; cbn [fst snd]; auto. Qed.
Lemma nth_tl {A} n (l : list A) d : nth n (tl l) d = nth (S n) l d. Proof. destruct l; [destruct n; reflexivity|reflexivity]. Qed.
Lemma next_nth fs : next_fault fs = nth 0 fs Fine. Proof. destruct fs; reflexivity. Qed.

Definition I (L : list block) (k : nat) (h : host) : Prop := hist (t_main (h_tree h)) L k.
Lemma hist_put_block b m L k : hist m L k -> N.of_nat (length L) < 2 ^ 256 -> hist (put_block b m) L k.
Proof.
  intros [H1 H2 H3 H4 H5 H6 H7 H8 H9] Hb. split; cbn [put_block mc_height mc_blocks mc_difficulty mc_cfg]; try assumption.
  - intros i x Hx. pose proof (nthN_some _ _ _ Hx) as Hi. rewrite sled_get_insert, height_key_eqb by lia. destruct (N.eqb_spec i (mc_height m)); [lia|]. apply H2, Hx.
  - apply log_commit, H7.
  - intros c Hc. specialize (H9 c Hc). destruct c as [x|]; [|exact H9]. destruct H9 as [H9|(h & Hk & -> & H9)]; [left; exact H9|right].
    exists h. split; [exact Hk|]. split; [reflexivity|]. intros n i y Hi Hy.
    unfold sled_insert. destruct (log_crash_commit n [(height_key (mc_height m), block_dump b)] _ H7) as [G|G]; rewrite G; [apply H9; assumption|].
    rewrite sled_get_commit1, height_key_eqb by lia. destruct (N.eqb_spec i (mc_height m)); [lia|]. apply H2, Hy.
Qed.
Lemma hist_refs m m' L k : hist m L k -> mc_blocks m' = mc_blocks m -> mc_height m' = mc_height m -> mc_difficulty m' = mc_difficulty m -> mc_cfg m' = mc_cfg m -> hist m' L k.
Proof. intros [H1 H2 H3 H4 H5 H6 H7 H8 H9] E1 E3 E4 E5. split; rewrite ?E1, ?E3, ?E4, ?E5; assumption. Qed.
Lemma hist_add L k b : block_wf b -> N.of_nat (length L) + 1 < 2 ^ 256 ->
  hoare (I L k) (add_block_io b) (fun r h => match r with Ok _ => I (L ++ [b]) k h | Err _ => I L k h | _ => False end).
Proof.
  intros Hb Hlt. unfold add_block_io. eapply h_bind with (R := fun r h => I L k h /\ r = Ok (t_main (h_tree h))); [apply h_mget; auto|split; [intros ? [_ X]|split; intros [_ X]]; discriminate X|].
  intros m. destruct (N.eqb_spec (bi_height (get_info b)) (mc_height m)) as [Hh|Hh]; cbn [negb]; [|apply h_out; intros s [A _]; exact A].
  eapply h_bind with (R := fun r h => match r with Ok _ => hist m L k /\ t_main (h_tree h) = put_block b m | Err _ => I L k h | _ => False end).
  - apply h_op. intros s [A E]. apply ok_inv in E. subst m. cbn [lift_tree fst snd]. split; [exact A|]. split.
    + unfold I. cbn [with_host h_tree with_main t_main]. apply hist_put_block; [exact A|lia].
    + split; [exact A|reflexivity].
  - intros s. auto.
  - intros _. eapply h_bind with (R := fun r h => match r with Ok _ => hist m L k /\ t_main (h_tree h) = put_ref b (put_block b m) | Err _ => I L k h | _ => False end).
    + apply h_op. intros s (A & E). cbn [lift_tree fst snd]. split; [unfold I; rewrite E; apply hist_put_block; [exact A|lia]|]. split.
      * unfold I. cbn [with_host h_tree with_main t_main]. rewrite E. apply (hist_refs (put_block b m)); try reflexivity. apply hist_put_block; [exact A|lia].
      * split; [exact A|]. cbn [with_host h_tree with_main t_main]. rewrite E. reflexivity.
    + intros s. auto.
    + intros _. eapply h_bind with (R := fun r h => r = Ok (mc_height m + 1) /\ hist m L k /\ t_main (h_tree h) = put_ref b (put_block b m)).
      * apply h_out. intros s (A & E). split; [|auto]. unfold u256_add. rewrite (h_height _ _ _ A). destruct (N.ltb_spec (N.of_nat (length L) + 1) (2 ^ 256)); [reflexivity|lia].
      * intros s. split; [intros e [X _]|split; intros [X _]]; discriminate X.
      * intros x. apply h_put. intros s (X & A & E). apply ok_inv in X. subst x. unfold I. cbn [with_host h_tree with_main t_main]. rewrite E.
        change (hist (mc_appended b m) (L ++ [b]) k). apply hist_append; [exact A|exact Hb|exact Hh|]. rewrite (h_height _ _ _ A). exact Hlt.
Qed.

(** The config file is complete but the blocks are not flushed yet. *)
Record hist1 (m : main_chain) (L : list block) (k : nat) : Prop := {
  o_hist : exists m0, hist m0 L k /\ mc_blocks m = mc_blocks m0 /\ mc_height m = mc_height m0 /\ mc_difficulty m = mc_difficulty m0;
  o_cfg : forall c, c = f_dur (mc_cfg m) \/ In c (f_pend (mc_cfg m)) ->
    cand (mc_blocks m) L k c \/ c = Some (height_key (N.of_nat (length L)) ++ BEGINNING_DIFFICULTY)
}.
Lemma hist_flush1 m L k : hist1 m L k -> hist (mc_flush_blocks m) L k.
Proof.
  intros [(m0 & [H1 H2 H3 H4 H5 H6 H7 H8 H9] & E1 & E2 & E3) Hc]. split; cbn [mc_flush_blocks mc_blocks mc_height mc_difficulty mc_cfg]; rewrite ?E1, ?E2, ?E3; try assumption; try reflexivity.
  assert (Hk : forall n i b, nthN L i = Some b -> sled_get (height_key i) (sled_crash n (sled_flush (mc_blocks m0))) = Some (block_dump b)) by (intros n i b Hi; rewrite crash_flush; apply H2, Hi).
  intros c C. destruct (Hc c C) as [X| ->].
  - destruct c as [x|]; [|exact X]. destruct X as [X|(h & Hh & -> & _)]; [left; exact X|right]. exists h. split; [exact Hh|]. split; [reflexivity|]. intros. apply Hk. assumption.
  - right. exists (length L). assert (L <> []) by (destruct L; [discriminate H4|discriminate]).
    split; [destruct L; [contradiction|cbn [length] in *; lia]|]. split; [reflexivity|]. intros. apply Hk. assumption.
Qed.
Lemma hist_hist1 m L k : hist m L k -> hist1 m L k.
Proof. intros H. split; [exists m; auto|]. intros c Hc. left. apply (h_cfg _ _ _ H), Hc. Qed.
Lemma hist_file m L k f x : hist m L k -> f_dur f = f_dur (mc_cfg m) -> f_pend f = f_pend (mc_cfg m) ++ [Some x] -> (length x < 64)%nat -> hist (with_cfg f m) L k.
Proof.
  intros [H1 H2 H3 H4 H5 H6 H7 H8 H9] E1 E2 Hx. split; cbn [with_cfg mc_blocks mc_height mc_difficulty mc_cfg]; try assumption. rewrite E1, E2. intros c Hc. rewrite in_app_iff in Hc.
  destruct Hc as [Hc|[Hc|[Hc|[]]]]; [apply H9; auto|apply H9; auto|subst c; left; exact Hx].
Qed.
Lemma hist1_file m L k f : hist m L k -> f_dur f = f_dur (mc_cfg m) -> f_pend f = f_pend (mc_cfg m) ++ [Some (height_key (N.of_nat (length L)) ++ BEGINNING_DIFFICULTY)] -> hist1 (with_cfg f m) L k.
Proof.
  intros H E1 E2. split; [exists m; auto|]. cbn [with_cfg mc_blocks mc_cfg]. rewrite E1, E2. intros c Hc. rewrite in_app_iff in Hc.
  destruct Hc as [Hc|[Hc|[Hc|[]]]]; [left; apply (h_cfg _ _ _ H); auto|left; apply (h_cfg _ _ _ H); auto|right; congruence].
Qed.
Lemma hist_mflush L k fs h : nth 3 fs Fine <> Fails 0 -> I L k h -> I L k (io_after main_flush_io fs h).
Proof.
  intros Hf A. change (post main_flush_io fs h (fun _ _ => I L k)). unfold main_flush_io. apply post_bind. change (post (do! _ := main_op EChainDumpConfig (fun m => with_cfg (file_truncate (mc_cfg m)) m) in
    do! _ := write_cfg_io true (height_key (mc_height (t_main (h_tree h)))) in do! _ := write_cfg_io false (mc_difficulty (t_main (h_tree h))) in
    do! _ := main_op EChainDumpConfig mc_flush_blocks in do! _ := main_op EChainDumpConfig mc_flush_refs in main_op EChainDumpConfig mc_flush_txs) fs h (fun _ _ => I L k)).
  rewrite (h_height _ _ _ A), (h_diff _ _ _ A). apply post_bind.
  set (J := fun c h => I L k h /\ file_cur (mc_cfg (t_main (h_tree h))) = Some c).
  assert (A1 : J [] (fst (lift_tree (fun t => (with_main t (with_cfg (file_truncate (mc_cfg (t_main t))) (t_main t)), Ok tt)) h))).
  { split; [|apply file_cur_truncate]. unfold I. cbn [lift_tree fst with_host h_tree with_main t_main]. eapply hist_file; [exact A|reflexivity..|cbn [length]; lia]. }
  apply post_op; [intros _; exact A|apply A1|]. cbn [lift_tree snd]. revert A1. generalize (fst (lift_tree (fun t => (with_main t (with_cfg (file_truncate (mc_cfg (t_main t))) (t_main t)), Ok tt)) h)). intros h1 [A1 C1].
  assert (Happ : forall d f x, file_cur f = Some x -> f_pend (file_append d f) = f_pend f ++ [Some (x ++ d)]) by (intros d f x E; cbn [file_append f_pend]; rewrite E; reflexivity).
  apply post_bind. set (key := height_key (N.of_nat (length L))).
  assert (A2 : forall n, J (firstn n key) (with_host h1 (with_main (h_tree h1) (with_cfg (file_append (firstn n key) (mc_cfg (t_main (h_tree h1)))) (t_main (h_tree h1)))))).
  { intros n. split; [|cbn [with_host h_tree with_main t_main with_cfg mc_cfg]; rewrite file_cur_append, C1; reflexivity]. unfold I. cbn [with_host h_tree with_main t_main].
    eapply hist_file; [exact A1|reflexivity|apply Happ, C1|]. cbn [app]. unfold key. rewrite firstn_length, height_key_length. lia. }
  assert (Ek : firstn 32 key = key) by (apply firstn_all2; unfold key; rewrite height_key_length; lia).
  unfold write_cfg_io at 1, post at 1. rewrite next_nth, nth_tl. destruct (nth 1 fs Fine) as [|n1]; cbv zeta; cbn [fst snd]; [|apply A2].
  specialize (A2 32%nat). rewrite Ek in A2. revert A2. generalize (with_host h1 (with_main (h_tree h1) (with_cfg (file_append key (mc_cfg (t_main (h_tree h1)))) (t_main (h_tree h1))))). intros h2 [A2 C2].
  apply post_bind.
  assert (Hrest : forall h3, hist1 (t_main (h_tree h3)) L k ->
    post (do! _ := main_op EChainDumpConfig mc_flush_blocks in do! _ := main_op EChainDumpConfig mc_flush_refs in main_op EChainDumpConfig mc_flush_txs) (tl (tl (tl fs))) h3 (fun _ _ => I L k)).
  { intros h3 A3. apply post_bind. apply post_op.
    - intros X. exfalso. apply Hf. rewrite next_nth, !nth_tl in X. exact X.
    - unfold I. cbn [lift_tree fst snd with_host h_tree with_main t_main]. apply hist_flush1, A3.
    - cbn [lift_tree snd]. eapply post_hoare with (P := I L k) (R := fun _ => I L k); [|unfold I; cbn [lift_tree fst with_host h_tree with_main t_main]; apply hist_flush1, A3|auto].
      change (stays (I L k) (do! _ := main_op EChainDumpConfig mc_flush_refs in main_op EChainDumpConfig mc_flush_txs)).
      stay; apply (g_mop (fun m => hist m L k)); intros m Hm; (eapply hist_refs; [exact Hm|reflexivity..]). }
  unfold write_cfg_io at 1, post at 1. rewrite next_nth, !nth_tl. destruct (nth 2 fs Fine) as [|n2]; cbv zeta; cbn [fst snd]; apply Hrest.
  - cbn [with_host h_tree with_main t_main]. eapply hist1_file; [exact A2|reflexivity|apply Happ, C2].
  - cbn [with_host h_tree with_main t_main]. destruct (Nat.leb_spec 32 n2).
    + rewrite firstn_all2 by exact H. eapply hist1_file; [exact A2|reflexivity|apply Happ, C2].
    + apply hist_hist1. eapply hist_file; [exact A2|reflexivity|apply Happ, C2|]. rewrite app_length, firstn_length. unfold key. rewrite height_key_length. lia.
Qed.
Lemma post_first {A B} L k (x : io host A) (c : A -> io host B) fs h : I L k (io_after x fs h) -> (forall a, stays (I L k) (c a)) -> I L k (io_after (io_bind x c) fs h).
Proof. intros Hx Hc. unfold io_after, io_bind in *. destruct (x fs h) as [[fs' s'] [a|e| |]]; cbn [fst snd] in *; try exact Hx. apply Hc, Hx. Qed.
Lemma hist_flush_io L k fs h : nth 3 fs Fine <> Fails 0 -> I L k h -> I L k (io_after flush_io fs h).
Proof.
  intros Hf A. unfold flush_io. apply post_first; [apply hist_mflush; assumption|]. intros _. unfold flush_op. stay; apply (g_tree (fun m => hist m L k)); reflexivity.
Qed.
Lemma hist_rotate_io L k fs h : nth 3 fs Fine <> Fails 0 -> I L k h -> I L k (io_after rotate_io fs h).
Proof.
  intros Hf A. unfold rotate_io. apply post_first; [apply hist_flush_io; assumption|]. intros _. unfold remove_dir_io, create_dir_io.
  stay; try (apply (g_same (fun m => hist m L k)); [assumption|reflexivity]); match goal with |- context [if ?c then _ else _] => destruct c end; assumption.
Qed.
Lemma hist_lastn m L k : hist m L k -> N.of_nat (length L) < 2 ^ 256 ->
  exists i, u256_sub (mc_height m) 1 = Ok i /\ i < mc_height m /\ nthN L i = Some (last L genesis) /\ sled_get (height_key i) (mc_blocks m) = Some (block_dump (last L genesis)).
Proof.
  intros H Hl. pose proof (hist_ne _ _ _ H) as Hne. pose proof (nthN_last L genesis Hne) as Hn. rewrite (h_height _ _ _ H).
  assert (0 < N.of_nat (length L)) by (destruct L; [contradiction|cbn [length]; lia]).
  exists (N.of_nat (length L) - 1). unfold u256_sub. destruct (N.leb_spec 1 (N.of_nat (length L))); [|lia]. split; [reflexivity|]. split; [lia|]. split; [exact Hn|apply (h_blocks _ _ _ H), Hn].
Qed.
Lemma hist_decode m L k i lb x : hist m L k -> nthN L i = Some lb -> mc_decode (Some (block_dump lb)) = Ok (Some x) -> x = lb.
Proof.
  intros A Hn E. destruct (hist_readable _ _ _ _ _ A Hn) as [Hr|(info & ->)]; [rewrite (readable_decode _ Hr) in E; congruence|]. unfold mc_decode in E. rewrite deserialize_deriv in E. discriminate E.
Qed.
Lemma post_out {A} (r : out A) fs h (Q : list fault -> out A -> host -> Prop) : Q fs r h -> post (io_out r) fs h Q. Proof. exact (fun H => H). Qed.
Lemma post_mget fs h (Q : list fault -> out main_chain -> host -> Prop) : Q fs (Ok (t_main (h_tree h))) h -> post main_get fs h Q. Proof. exact (fun H => H). Qed.
Lemma post_get fs h (Q : list fault -> out host -> host -> Prop) : Q fs (Ok h) h -> post io_get fs h Q. Proof. exact (fun H => H). Qed.
Lemma hist_emit_io L k p w f txs ts fs h : is_array 32 w -> is_array 33 f -> Forall (is_array 32) txs -> u64_ok ts -> N.of_nat (length L) + 1 < 2 ^ 256 ->
  nth 5 fs Fine <> Fails 0 -> I L k h ->
  post (emit_main_io p w f txs ts) fs h (fun _ r h' => match r with Ok b => I (L ++ [b]) k h' /\ main_link p (last L genesis) b | _ => I L k h' end).
Proof.
  intros Hw Hf Ht Hts Hlt Hfs A. unfold emit_main_io. apply post_bind. apply post_mget.
  destruct (hist_lastn _ _ _ A ltac:(lia)) as (i & Ei & Hi & Hn & Hg). rewrite Ei. apply post_bind. apply post_out.
  apply post_bind. unfold find_raw_io. apply post_bind. apply post_mget. destruct (N.ltb_spec (mc_height (t_main (h_tree h))) i); [lia|].
  apply post_op; cbn [fst snd]; [intros _; exact A|exact A|]. rewrite Hg. apply post_bind. apply post_get.
  apply post_bind. apply post_out. destruct (emit_block _ _ _ _ _ _ _) as [b|e| |] eqn:E; try exact A.
  apply (emit_block_spec _ _ _ _ _ _ _ _ i) in E; try assumption.
  2:{ intros x Hx. rewrite (hist_decode _ _ _ _ _ _ A Hn Hx). split; [eapply Forall_forall; [apply (h_wf _ _ _ A)|eapply nthN_in, Hn]|apply (h_heights _ _ _ A _ _ Hn)]. }
  destruct E as (Hb & _ & _ & (lb & El & Hl) & _). rewrite (hist_decode _ _ _ _ _ _ A Hn El) in Hl. clear El lb.
  set (x := match b with SummBlock _ _ => do! _ := io_read (Err ETreeGetFunds) (fun _ => tt) in do! _ := rotate_io in ledger_io (t_set_amount ROOT_PUBLIC_ADDRESS COINS_PER_CYCLE) | _ => io_out (Ok tt) end).
  assert (Hx : I L k (io_after x (tl fs) h)).
  { subst x. destruct b as [| |si sr]; [exact A|exact A|]. change (post (do! _ := io_read (Err ETreeGetFunds) (fun _ => tt) in do! _ := rotate_io in ledger_io (t_set_amount ROOT_PUBLIC_ADDRESS COINS_PER_CYCLE)) (tl fs) h (fun _ _ => I L k)).
    apply post_bind. apply post_op; cbn [fst snd]; [intros _; exact A|exact A|].
    change (I L k (io_after (do! _ := rotate_io in ledger_io (t_set_amount ROOT_PUBLIC_ADDRESS COINS_PER_CYCLE)) (tl (tl fs)) h)). apply post_first; [|intros _; apply (g_ledger (fun m => hist m L k)); reflexivity].
    apply hist_rotate_io; [rewrite !nth_tl; exact Hfs|exact A]. }
  apply post_bind. unfold post at 1. fold (io_after x (tl fs) h). generalize (fst (fst (x (tl fs) h))). intros fs'. destruct (snd (x (tl fs) h)) as [u|e| |]; try exact Hx.
  apply post_bind. eapply post_hoare; [apply hist_add; eassumption|exact Hx|]. intros fs2 [v|e| |] s2 Hs; [|exact Hs|destruct Hs..]. unfold post. cbn [io_out fst snd]. split; [exact Hs|exact Hl].
Qed.
Lemma post_after {A} (x : io host A) fs h (Q : host -> Prop) : post x fs h (fun _ _ => Q) -> Q (io_after x fs h). Proof. exact (fun H => H). Qed.
Lemma hist_io_step p o fs h L k : hist (t_main (h_tree h)) L k -> op_wf o -> blocks_flushed h o fs -> N.of_nat (length L) + 1 < 2 ^ 256 ->
  exists L', hist (t_main (h_tree (io_after (io_step p o) fs h))) L' k /\ main_grows p o L L'.
Proof.
  intros A Ho Hf Hlt.
  assert (Ftx : forall tx m, hist m L k -> hist (mc_add_transaction tx m) L k) by (intros tx m Hm; eapply hist_refs; [exact Hm|reflexivity..]).
  assert (Hs : stays (I L k) (io_step p o) -> exists L', hist (t_main (h_tree (io_after (io_step p o) fs h))) L' k /\ main_grows p o L L').
  { intros S. exists L. split; [apply S, A|left; reflexivity]. }
  destruct o; cbn [io_step] in *; try (apply Hs; first [apply w_unit|apply w_block|idtac];
    first [apply (g_send (fun m => hist m L k))|apply (g_sendtx (fun m => hist m L k)), Ftx|apply (g_demit (fun m => hist m L k))|apply (g_txs (fun m => hist m L k)), Ftx
      |solve [apply (g_ledger (fun m => hist m L k)); intros t; first [apply on_summary_main|apply on_gas_main]]]).
  - destruct Ho as (H1 & H2 & H3 & H4). pose proof (hist_emit_io L k p pow founder txs ts fs h H1 H2 H3 H4 Hlt Hf A) as E. unfold post in E. unfold io_after, io_block, io_bind.
    destruct (emit_main_io p pow founder txs ts fs h) as [[fs' h'] [b|e| |]]; cbn [fst snd io_out] in *.
    + exists (L ++ [b]). split; [apply E|]. right. exists b. split; [reflexivity|right]. exists pow, founder, txs, ts. split; [reflexivity|apply E].
    + exists L. split; [exact E|left; reflexivity].
    + exists L. split; [exact E|left; reflexivity].
    + exists L. split; [exact E|left; reflexivity].
  - apply Hs. stay. apply (g_gderiv (fun m => hist m L k)).
  - destruct Ho as [H1 _]. unfold io_unit, add_new_block_io. unfold io_after, io_bind. pose proof (hist_add L k b H1 Hlt fs h A) as E. destruct (add_block_io b fs h) as [[fs' h'] [u|e| |]]; cbn [fst snd] in *; try contradiction.
    + exists (L ++ [b]). split; [|right; exists b; split; [reflexivity|left; eauto]].
      assert (Ftx' : forall tx m, hist m (L ++ [b]) k -> hist (mc_add_transaction tx m) (L ++ [b]) k) by (intros tx m Hm; eapply hist_refs; [exact Hm|reflexivity..]).
      pose proof (g_txs (fun m => hist m (L ++ [b]) k) Ftx' txs fs' h' E) as E2. destruct (add_txs_io txs fs' h') as [[fs2 h2] [v|e| |]]; cbn [fst snd io_out] in *; exact E2.
    + exists L. split; [exact E|left; reflexivity].
  - apply Hs. intros fs0 s As. destruct (assoc_get _ _); [|exact As]. apply (w_unit _ _ (g_dadd (fun m => hist m L k) owner i)). exact As.
  - exists L. split; [|left; reflexivity]. unfold io_unit. apply (post_first L k); [apply hist_flush_io; assumption|intros _; apply s_out].
  - exists L. split; [|left; reflexivity]. unfold io_unit. apply (post_first L k); [apply hist_mflush; assumption|intros _; apply s_out].
  - apply Hs. intros fs0 s As. destruct (assoc_get _ _); [|exact As]. apply (w_unit _ _ (g_dflush (fun m => hist m L k) owner)). exact As.
Qed.

(** ** On disk, and across openings *)
Record dhist (d : main_disk) (L : list block) (k : nat) : Prop := {
  q_log : sled_log (md_blocks d);
  q_pend : f_pend (md_cfg d) = [];
  q_heights : forall i b, nthN L i = Some b -> bi_height (get_info b) = i;
  q_gen : nth_error L 0 = Some genesis;
  q_wf : Forall block_wf L;
  q_low : (k <= length L)%nat;
  q_len : N.of_nat (length L) + 1 < 2 ^ 256;
  q_cfg : cand (md_blocks d) L k (f_dur (md_cfg d))
}.
Lemma log_flat x : sled_log (MkSled x x []). Proof. reflexivity. Qed.
Lemma crash_crash n n' s : sled_crash n' (sled_crash n s) = sled_crash n s. Proof. unfold sled_crash at 1. cbn [sled_crash pend dur]. rewrite firstn_nil. reflexivity. Qed.
Lemma cand_crash s n L k c : cand s L k c -> cand (sled_crash n s) L k c.
Proof.
  destruct c as [x|]; cbn [cand]; [|auto]. intros [H|(h & Hh & -> & Hk)]; [left; exact H|right]. exists h. split; [exact Hh|]. split; [reflexivity|].
  intros n' i b Hi Hb. rewrite crash_crash. apply Hk; assumption.
Qed.
Lemma cand_flush s L k c : sled_log s -> cand s L k c -> cand (sled_flush s) L k c.
Proof.
  intros Hs. destruct c as [x|]; cbn [cand]; [|auto]. intros [H|(h & Hh & -> & Hk)]; [left; exact H|right]. exists h. split; [exact Hh|]. split; [reflexivity|].
  intros n i b Hi Hb. rewrite CrashFacts.crash_flush. rewrite <- (log_full _ Hs). apply Hk; assumption.
Qed.
Lemma hist_left_crash m L k s : hist m L k -> N.of_nat (length L) + 1 < 2 ^ 256 -> dhist (mc_crash s m) L k.
Proof.
  intros [H1 H2 H3 H4 H5 H6 H7 H8 H9] Hl. split; cbn [mc_crash md_blocks md_cfg file_crash f_pend f_dur]; try assumption; try reflexivity. apply cand_crash, H9, last_firstn_or.
Qed.
Lemma hist_left_close m L k : hist m L k -> N.of_nat (length L) + 1 < 2 ^ 256 -> dhist (mc_close m) L k.
Proof.
  intros [H1 H2 H3 H4 H5 H6 H7 H8 H9] Hl. split; cbn [mc_close md_blocks md_cfg file_settle f_pend f_dur]; try assumption; try reflexivity. apply cand_flush; [exact H7|]. apply H9.
  pose proof (last_firstn_or (length (f_pend (mc_cfg m))) (f_pend (mc_cfg m)) (f_dur (mc_cfg m))) as Hc. rewrite firstn_all in Hc. exact Hc.
Qed.
Lemma dhist_new d L k m' : dhist d L k -> mc_new d = Ok m' -> exists h, (0 < h /\ k <= h /\ h <= length L)%nat /\ hist m' (firstn h L) k.
Proof.
  intros [H1 H2 H3 H4 H5 H6 H7 H9] E.
  assert (Ec : file_cur (md_cfg d) = f_dur (md_cfg d)) by (unfold file_cur; rewrite H2; reflexivity).
  destruct (f_dur (md_cfg d)) as [x|] eqn:Ex; [destruct H9 as [Hc|(h & Hh & -> & Hk)]|].
  - exfalso. unfold mc_new, mc_read_config in E. rewrite Ec in E. destruct (short_config x Hc) as (e & Er). rewrite Er in E. discriminate E.
  - exists h. split; [exact Hh|]. rewrite (mc_new_settled _ (N.of_nat h) BEGINNING_DIFFICULTY) in E; [|exact Ec|lia|exact BD_length].
    apply ok_inv in E. rewrite <- E. clear E m'. assert (Hlf : length (firstn h L) = h) by (rewrite firstn_length; lia).
    assert (Hn : forall i b, nthN (firstn h L) i = Some b -> i < N.of_nat h /\ nthN L i = Some b).
    { intros i b Hi. pose proof (nthN_some _ _ _ Hi) as Hl. rewrite Hlf in Hl. rewrite nthN_firstn in Hi by lia. auto. }
    split; cbn [mc_blocks mc_height mc_difficulty mc_cfg]; rewrite ?Hlf, ?H2, ?Ex; try reflexivity; try lia; try assumption.
    + intros i b Hi. destruct (Hn i b Hi) as [Hl Hi']. rewrite <- (log_full _ H1). apply Hk; assumption.
    + intros i b Hi. apply H3, (Hn i b Hi).
    + destruct h; [lia|]. destruct L; [discriminate H4|exact H4].
    + rewrite Forall_forall in *. intros b Hb. apply H5. rewrite <- (firstn_skipn h L). apply in_or_app. left. exact Hb.
    + intros c' [->|[]]. right. exists h. rewrite Hlf. split; [lia|]. split; [reflexivity|]. intros n i b _ Hi. destruct (Hn i b Hi) as [Hl Hi']. apply Hk; assumption.
  - cbn [cand] in H9. subst k. unfold mc_new, mc_read_config in E. rewrite Ec in E. cbn [bind] in E. cbn [N.eqb] in E. rewrite genesis_eq in E. cbn [bind] in E.
    rewrite mc_add_block_right in E by reflexivity. cbn [change_context bind] in E. apply ok_inv in E. rewrite <- E. clear E m'.
    exists 1%nat. assert (EL : firstn 1 L = [genesis]) by (destruct L; [discriminate H4|injection H4 as ->; reflexivity]).
    rewrite EL. split; [destruct L; [discriminate H4|cbn [length]; lia]|].
    assert (Hg : forall i b, nthN [genesis] i = Some b -> i = 0 /\ b = genesis).
    { intros i b Hi. pose proof (nthN_some _ _ _ Hi) as Hl. cbn in Hl. assert (i = 0) by lia. subst i. injection Hi as <-. auto. }
    split; cbn [mc_appended mc_blocks mc_height mc_difficulty mc_cfg]; try reflexivity; try lia.
    + intros i b Hi. destruct (Hg i b Hi) as [-> ->]. rewrite sled_get_insert, bytes_eqb_refl. reflexivity.
    + intros i b Hi. destruct (Hg i b Hi) as [-> ->]. reflexivity.
    + constructor; [|constructor]. rewrite Forall_forall in H5. apply H5. destruct L; [discriminate H4|]. injection H4 as ->. left. reflexivity.
    + apply log_commit, H1.
    + rewrite H2, Ex. intros c' [->|[]]. reflexivity.
Qed.
(** What an opening does to the blocks and the config of the main chain. *)
Lemma new_touches fs d : config_opens fs -> sled_log (md_blocks (k_main d)) -> (forall df, mc_read_config (md_cfg (k_main d)) = Ok (0, df) -> file_cur (md_cfg (k_main d)) = None) ->
  let d' := io_after t_new_io fs d in
  md_cfg (k_main d') = md_cfg (k_main d) /\ sled_log (md_blocks (k_main d')) /\ (file_cur (md_cfg (k_main d)) = None \/ md_blocks (k_main d') = md_blocks (k_main d)).
Proof.
  intros Hc Hlog Hz. cbv zeta. destruct (new_after fs d Hc) as [->|(fs' & ->)]; [auto|]. set (d0 := d) in *.
  set (J := fun d => md_cfg (k_main d) = md_cfg (k_main d0) /\ sled_log (md_blocks (k_main d)) /\ (file_cur (md_cfg (k_main d0)) = None \/ md_blocks (k_main d) = md_blocks (k_main d0))).
  change (J (io_after new_rest fs' d)). assert (Jd : J d) by (unfold J; auto). revert Jd. unfold io_after. generalize fs' d. clear Hc fs fs'. change (stays J new_rest).
  unfold new_rest, stays. eapply h_bind with (R := fun r d => J d /\ r = Ok d); [apply h_get; auto|intros s; split; [|split]; intros; tauto|].
  intros d1. apply h_when. intros d' [Jd Ed]. apply ok_inv in Ed. subst d'.
  eapply h_bind with (R := fun r d => J d /\ match r with Ok (h, df) => file_cur (md_cfg (k_main d0)) = None \/ h <> 0 | _ => True end); [|intros s; split; [|split]; intros; tauto|].
  { rewrite (proj1 Jd). assert (Hr : forall fs s, J s -> J (snd (fst (io_out (St := disk) (mc_read_config (md_cfg (k_main d0))) fs s))) /\
      match snd (io_out (St := disk) (mc_read_config (md_cfg (k_main d0))) fs s) with Ok (h, df) => file_cur (md_cfg (k_main d0)) = None \/ h <> 0 | _ => True end).
    { intros fs0 s A. split; [exact A|]. cbn [io_out snd]. destruct (mc_read_config _) as [[h df]|e| |] eqn:E; try exact Logic.I.
      destruct (N.eq_dec h 0) as [->|Hne]; [left; apply (Hz _ eq_refl)|right; exact Hne]. }
    destruct (file_cur (md_cfg (k_main d0))) as [x|] eqn:Ex.
    - eapply h_bind with (R := fun _ => J); [apply h_read; intros s [A _]; auto|intros s; split; [|split]; auto|]. intros u fs0 s A. apply Hr, A.
    - apply h_out. intros s [A _]. split; [exact A|]. left. reflexivity. }
  intros [h df]. apply h_pure. intros Hh. eapply h_bind with (R := fun _ => J); [|auto|].
  - destruct (N.eqb_spec h 0) as [->|Hne]; [|apply h_out; auto]. assert (H0 : file_cur (md_cfg (k_main d0)) = None) by (destruct Hh; [assumption|lia]).
    rewrite genesis_eq. eapply h_bind with (R := fun r s => J s /\ match r with Ok g => g = genesis | _ => True end); [apply h_out; auto|intros s; split; [|split]; intros; tauto|].
    intros g. apply h_pure. intros ->.
    change (stays J (do! _ := disk_op (Err EChainInit) (disk_main (disk_blocks (sled_insert (height_key 0) (block_dump genesis)))) in
      do! _ := disk_op (Err EChainInit) (disk_main (disk_refs (sled_insert (sha256 (block_dump genesis)) (height_key 0)))) in io_out (Ok 1))).
    unfold disk_op. stay.
    + destruct H as (A & B & C). split; [exact A|]. split; [apply log_commit, B|left; exact H0].
  - intros h'. change (stays J (do! _ := (if h' =? 1 then disk_op Panic (disk_summary (sled_commit [(ROOT_PUBLIC_ADDRESS, led_encode COINS_PER_CYCLE)])) else io_out (Ok tt)) in
      do! d := io_get in
      let m := k_main d in
      io_out (Ok (MkTree0 (MkMain (md_blocks m) (md_refs m) (md_txs m) h' df (md_cfg m)) [] (k_summary d) (k_old_summary d) (k_gas d) (k_old_gas d) (k_derivs d))))).
    unfold disk_op. stay.
Qed.
Lemma dhist_zero d L k df : dhist d L k -> mc_read_config (md_cfg d) = Ok (0, df) -> file_cur (md_cfg d) = None.
Proof.
  intros [H1 H2 H3 H4 H5 H6 H7 H9] E. assert (Ec : file_cur (md_cfg d) = f_dur (md_cfg d)) by (unfold file_cur; rewrite H2; reflexivity). rewrite Ec.
  destruct (f_dur (md_cfg d)) as [x|]; [exfalso|reflexivity]. unfold mc_read_config in E. rewrite Ec in E. destruct H9 as [Hc|(h & Hh & -> & Hk)].
  - destruct (short_config x Hc) as (e & Er). rewrite Er in E. discriminate E.
  - replace (height_key (N.of_nat h) ++ BEGINNING_DIFFICULTY) with (concat [height_key (N.of_nat h); BEGINNING_DIFFICULTY]) in E by (cbn [concat]; rewrite app_nil_r; reflexivity).
    rewrite read_fields_concat in E by first [reflexivity | constructor; [apply height_key_length|constructor; [exact BD_length|constructor]]].
    cbn [bind index nth_error] in E. rewrite from_height_key in E by lia. apply ok_inv in E. injection E as E _. lia.
Qed.
Lemma dhist_touch fs d L k : config_opens fs -> dhist (k_main d) L k -> dhist (k_main (io_after t_new_io fs d)) L k.
Proof.
  intros Hc D. destruct (new_touches fs d Hc (q_log _ _ _ D) (fun df => dhist_zero _ _ _ df D)) as (E1 & E2 & E3). destruct D as [H1 H2 H3 H4 H5 H6 H7 H9].
  split; rewrite ?E1; try assumption. destruct E3 as [E3| ->]; [|exact H9]. unfold file_cur in E3. rewrite H2 in E3. cbn [last] in E3. rewrite E3 in *. exact H9.
Qed.
Lemma dhist_settle d L k : dhist (k_main d) L k -> dhist (k_main (disk_settle d)) L k.
Proof. intros [H1 H2 H3 H4 H5 H6 H7 H9]. split; try assumption; [apply log_flat|]. apply cand_flush; assumption. Qed.
Lemma dhist_crash s d L k : dhist (k_main d) L k -> dhist (k_main (disk_crash s d)) L k.
Proof. intros [H1 H2 H3 H4 H5 H6 H7 H9]. split; try assumption; [apply log_flat|]. apply cand_crash; assumption. Qed.
Definition mhist (b : machine) (L : list block) (k : nat) : Prop := match b with Up h => hist (t_main (h_tree h)) L k | Down d => dhist (k_main d) L k end.
Definition linked_by (ok : host -> op -> list fault -> Prop) p L := (forall h o fs, ok h o fs -> no_raw_main o) -> chained (main_link p) L.
Lemma life_hist (ok : host -> op -> list fault -> Prop) p a n b L0 k : (forall h o fs, ok h o fs -> blocks_flushed h o fs) -> life ok p a n b -> mhist a L0 k -> linked_by ok p L0 -> N.of_nat (length L0 + n) + 1 < 2 ^ 256 ->
  exists L, mhist b L k /\ (length L <= length L0 + n)%nat /\ firstn k L = firstn k L0 /\ linked_by ok p L.
Proof.
  intros Hb Hl H0 HK0. induction Hl as [|n h o fs Hl IH Ho Hok|n h Hl IH|n h s Hl IH|n d fs t Hl IH Hc E|n d fs Hl IH Hc E|n d fs s Hl IH Hc]; intros Hn; cbn [mhist] in *.
  - exists L0. split; [exact H0|]. split; [lia|]. split; [reflexivity|exact HK0].
  - destruct IH as (L & I1 & I2 & I3 & I4); [lia|]. destruct (hist_io_step p o fs h L k I1 Ho (Hb _ _ _ Hok) ltac:(lia)) as (L' & J1 & J2). exists L'. split; [exact J1|].
    destruct J2 as [->|(b & -> & Hb')]; [split; [lia|auto]|]. split; [rewrite app_length; cbn; lia|]. split.
    + rewrite firstn_app. pose proof (h_low _ _ _ I1). replace (k - length L)%nat with 0%nat by lia. cbn [firstn]. rewrite app_nil_r. exact I3.
    + intros Hr. destruct Hb' as [(txs & ->)|(pow & f & txs & ts & -> & Hlk)]; [destruct (Hr _ _ _ Hok)|]. eapply chained_snoc; [apply I4, Hr|eapply hist_ne, I1|exact Hlk].
  - destruct IH as (L & I1 & I2 & I3 & I4); [lia|]. exists L. split; [|auto]. apply hist_left_close; [exact I1|lia].
  - destruct IH as (L & I1 & I2 & I3 & I4); [lia|]. exists L. split; [|auto]. apply hist_left_crash; [exact I1|lia].
  - destruct IH as (L & I1 & I2 & I3 & I4); [lia|]. pose proof (t_new_main _ _ (new_ok _ _ _ Hc E)) as Em. destruct (dhist_new _ _ _ _ I1 Em) as (h & Hh & J). exists (firstn h L). split; [exact J|].
    split; [rewrite firstn_length; lia|]. split; [rewrite firstn_firstn, Nat.min_l by lia; exact I3|]. intros Hr. apply chained_firstn, I4, Hr.
  - destruct IH as (L & I1 & I2 & I3 & I4); [lia|]. exists L. split; [|auto]. apply dhist_settle, dhist_touch; assumption.
  - destruct IH as (L & I1 & I2 & I3 & I4); [lia|]. exists L. split; [|auto]. apply dhist_crash, dhist_touch; assumption.
Qed.
Lemma reopen_hist p d n b L k : life no_calls p (Down d) n b -> dhist (k_main d) L k -> exists h, (0 < h /\ k <= h /\ h <= length L)%nat /\ mhist b (firstn h L) k.
Proof.
  intros Hl H0. remember (Down d) as a eqn:Ea. induction Hl as [|n h o fs Hl IH Ho Hok|n h Hl IH|n h s Hl IH|n d' fs t Hl IH Hc E|n d' fs Hl IH Hc E|n d' fs s Hl IH Hc]; cbn [mhist] in *.
  - subst a. cbn [mhist]. exists (length L). rewrite firstn_all. split; [|exact H0]. pose proof (q_low _ _ _ H0). pose proof (q_gen _ _ _ H0). destruct L; [discriminate|cbn [length] in *; lia].
  - destruct Hok.
  - destruct IH as (j & Hj & I1). exists j. split; [exact Hj|]. apply hist_left_close; [exact I1|]. pose proof (q_len _ _ _ H0). rewrite firstn_length. lia.
  - destruct IH as (j & Hj & I1). exists j. split; [exact Hj|]. apply hist_left_crash; [exact I1|]. pose proof (q_len _ _ _ H0). rewrite firstn_length. lia.
  - destruct IH as (j & Hj & I1). pose proof (t_new_main _ _ (new_ok _ _ _ Hc E)) as Em. destruct (dhist_new _ _ _ _ I1 Em) as (h & Hh & J). rewrite firstn_length in Hh. exists h. split; [lia|].
    rewrite firstn_firstn, Nat.min_l in J by lia. exact J.
  - destruct IH as (j & Hj & I1). exists j. split; [exact Hj|]. apply dhist_settle, dhist_touch; assumption.
  - destruct IH as (j & Hj & I1). exists j. split; [exact Hj|]. apply dhist_crash, dhist_touch; assumption.
Qed.
Lemma dhist_empty : dhist (k_main disk_empty) [genesis] 0.
Proof.
  assert (Hg : forall i b, nthN [genesis] i = Some b -> i = 0 /\ b = genesis).
  { intros i b Hi. pose proof (nthN_some _ _ _ Hi) as Hl. cbn in Hl. assert (i = 0) by lia. subst i. injection Hi as <-. auto. }
  split; try reflexivity; try (cbn [length]; lia).
  - intros i b Hi. destruct (Hg i b Hi) as [-> ->]. reflexivity.
  - constructor; [apply genesis_wf|constructor].
Qed.

Lemma flushed_id h o fs : blocks_flushed h o fs -> blocks_flushed h o fs. Proof. auto. Qed.
(*@T C107: a closing or a crash only shortens the main chain: after any calls during which operations failed, crashes and openings that failed,
   a tree opened on what a closing or a crash left (at once, or after further failing openings, crashes and closings without calls in between)
   has a prefix of the blocks, at least the first one.
   Missing: calls in which the flush of the blocks fails without effect, or that are killed before it, after the config has been written; see
   [C107_broken_link_refuted]. *)
Lemma p_C107_only_shortened_partial : forall p n m h h' d, life blocks_flushed p (Down disk_empty) n (Up h) -> few n ->
  (d = t_close (h_tree h) \/ exists s, d = t_crash s (h_tree h)) -> life no_calls p (Down d) m (Up h') ->
  1 <= mc_get_height (t_main (h_tree h')) <= mc_get_height (t_main (h_tree h)) /\
  forall i, i < mc_get_height (t_main (h_tree h')) ->
    mc_find_raw_by_height i (t_main (h_tree h')) = mc_find_raw_by_height i (t_main (h_tree h)) /\ mc_find_raw_by_height i (t_main (h_tree h)) <> None.
Proof.
  intros p n m h h' d L1 Hn Hd L2. unfold few in Hn.
  destruct (life_hist _ _ _ _ _ [genesis] 0 flushed_id L1 dhist_empty ltac:(intros _; constructor) ltac:(cbn [length]; lia)) as (L & I1 & I2 & _). cbn [mhist length] in I1, I2.
  assert (D : dhist (k_main d) L 0) by (destruct Hd as [->|[s ->]]; [apply hist_left_close|apply hist_left_crash]; (exact I1 || lia)).
  destruct (reopen_hist _ _ _ _ _ _ L2 D) as (j & Hj & J). cbn [mhist] in J. unfold mc_get_height. rewrite (h_height _ _ _ I1), (h_height _ _ _ J). rewrite firstn_length, Nat.min_l by lia.
  split; [lia|]. intros i Hi. destruct (nthN_ex L i ltac:(lia)) as (b & Hb). rewrite (hist_find _ _ _ _ _ I1 Hb).
  rewrite <- (nthN_firstn j L) in Hb by lia. rewrite (hist_find _ _ _ _ _ J Hb). split; [reflexivity|discriminate].
Qed.
(*@T C107: if blocks of the main chain only come from emission, the main chain is linked from the first block on (hash, height, difficulty, work), every
   block of it can be read, whatever failed and whenever the process was killed or an opening failed.
   Missing: as in [C107_only_shortened_partial]. *)
Lemma p_C107_linked_partial : forall p n h, life emitted_only p (Down disk_empty) n (Up h) -> few n ->
  exists L g,
    genesis_block = Ok g /\ hd_error L = Some g /\
    mc_get_height (t_main (h_tree h)) = N.of_nat (length L) /\
    (forall i b, nth_error L i = Some b -> mc_find_by_height (N.of_nat i) (t_main (h_tree h)) = Ok (Some b)) /\
    mc_get_last_block (t_main (h_tree h)) = Ok (Some (last L g)) /\
    chained (main_link p) L.
Proof.
  intros p n h L1 Hn. unfold few in Hn.
  destruct (life_hist _ _ _ _ _ [genesis] 0 (fun h o fs H => proj2 H) L1 dhist_empty ltac:(intros _; constructor) ltac:(cbn [length]; lia)) as (L & I1 & I2 & _ & I4). cbn [mhist length] in I1, I2.
  specialize (I4 (fun h o fs H => proj1 H)). pose proof (h_gen _ _ _ I1) as Hg.
  assert (Hkind : forall i b, nth_error L i = Some b -> match b with DerivBlock _ => False | _ => True end).
  { intros [|i] b Hb; [rewrite Hg in Hb; injection Hb as <-; exact Logic.I|]. exact (chained_in_kind p L I4 i _ Hb). }
  exists L, genesis. split; [exact genesis_eq|]. split; [destruct L; [discriminate|exact Hg]|]. split; [apply (h_height _ _ _ I1)|]. split; [|split; [|exact I4]].
  - intros i b Hb. assert (Hb' : nthN L (N.of_nat i) = Some b) by (unfold nthN; rewrite Nnat.Nat2N.id; exact Hb).
    unfold mc_find_by_height. rewrite (hist_find _ _ _ _ _ I1 Hb'). destruct (hist_readable _ _ _ _ _ I1 Hb') as [Hr|(info & ->)]; [apply readable_decode, Hr|destruct (Hkind _ _ Hb)].
  - destruct (hist_last _ _ _ I1) as [Hl|[(info & Hi) _]]; [exact Hl|exfalso]. pose proof (nthN_last L genesis (hist_ne _ _ _ I1)) as Hn'. rewrite Hi in Hn'. exact (Hkind _ _ Hn').
Qed.

(** ** A chain whose links are broken *)
Definition emit_pow (pow : N) : op := OEmitMain (repeat pow 32) addrA [txh] 1597925000.
Definition after (o : op) (fs : list fault) (h : host) : host := io_after (io_step Debug o) fs h.
Definition again (d : disk) : bct := match io_result t_new_io [] d with Ok t => t | _ => fresh end.
Definition x1 : host := opened (again disk_empty).
Definition x3 : host := after (emit_pow 3) [] (after (emit_pow 3) [] x1).
Definition x4 : host := opened (again (t_crash (svs 3 0 0 0 0 0) (h_tree x3))).
Definition x6 : host := after (emit_pow 4) [] (after (emit_pow 5) [] x4).
Definition x7 : host := after OMainFlush [Fine; Fine; Fine; Fails 0] x6.
Definition x8 : host := opened (again (t_crash (svs 2 0 0 3 0 0) (h_tree x7))).
Lemma emit_pow_wf k : k < 256 -> op_wf (emit_pow k).
Proof.
  intros Hk. cbn [op_wf emit_pow]. split.
  - split; [reflexivity|]. unfold bytes_ok. apply Forall_forall. intros x Hx. apply repeat_spec in Hx. subst x. exact Hk.
  - repeat split; try (repeat constructor; fail); vm_compute; repeat constructor.
Qed.
(*@T C107 fails without that restriction: two blocks are lost in a crash that keeps their entries in the database but not the config; two other blocks are
   emitted in their place; the flush of the chain writes the config and is killed before the blocks are flushed, and of the two blocks only the first survives.
   The chain opened then has three blocks, of which the third is the lost one, whose previous hash is not the hash of the second; it can be read, and the next
   block is emitted on top of it. *)
Lemma p_C107_broken_link_refuted : exists n h s h' b1 b2 d,
  life (fun _ o _ => no_raw_main o) Debug (Down disk_empty) n (Up h) /\ life no_calls Debug (Down (t_crash s (h_tree h))) 0 (Up h') /\
  mc_get_height (t_main (h_tree h)) = 3 /\ mc_get_height (t_main (h_tree h')) = 3 /\
  mc_find_by_height 1 (t_main (h_tree h')) = Ok (Some b1) /\ mc_find_by_height 2 (t_main (h_tree h')) = Ok (Some b2) /\
  bi_previous_hash (get_info b2) <> block_hash b1 /\
  mc_find_raw_by_height 2 (t_main (h_tree h)) = Some d /\ d <> block_dump b2 /\
  exists o h'' b3, no_raw_main o /\ io_after (io_step Debug o) [] h' = h'' /\ mc_get_height (t_main (h_tree h'')) = 4 /\
    mc_get_last_block (t_main (h_tree h'')) = Ok (Some b3) /\ bi_previous_hash (get_info b3) = block_hash b2.
Proof.
  assert (O1 : io_result t_new_io [] disk_empty = Ok (again disk_empty)) by (vm_compute; reflexivity).
  assert (O2 : io_result t_new_io [] (t_crash (svs 3 0 0 0 0 0) (h_tree x3)) = Ok (again (t_crash (svs 3 0 0 0 0 0) (h_tree x3)))) by (vm_compute; reflexivity).
  assert (O3 : io_result t_new_io [] (t_crash (svs 2 0 0 3 0 0) (h_tree x7)) = Ok (again (t_crash (svs 2 0 0 3 0 0) (h_tree x7)))) by (vm_compute; reflexivity).
  exists 5%nat, x7, (svs 2 0 0 3 0 0), x8. do 3 eexists. split; [|split].
  - apply (life_call _ _ _ 4 x6 OMainFlush); [|exact Logic.I..]. apply (life_call _ _ _ 3 _ (emit_pow 4)); [|apply emit_pow_wf; lia|exact Logic.I]. apply (life_call _ _ _ 2 _ (emit_pow 5)); [|apply emit_pow_wf; lia|exact Logic.I].
    eapply (life_open _ _ _ 2 _ []); [|reflexivity|exact O2]. apply life_crash. apply (life_call _ _ _ 1 _ (emit_pow 3)); [|apply emit_pow_wf; lia|exact Logic.I]. apply (life_call _ _ _ 0 _ (emit_pow 3)); [|apply emit_pow_wf; lia|exact Logic.I].
    eapply (life_open _ _ _ 0 _ []); [apply life_start|reflexivity|exact O1].
  - eapply (life_open _ _ _ 0 _ []); [apply life_start|reflexivity|exact O3].
  - split; [vm_compute; reflexivity|]. split; [vm_compute; reflexivity|]. split; [vm_compute; reflexivity|]. split; [vm_compute; reflexivity|]. split; [vm_compute; discriminate|]. split; [vm_compute; reflexivity|]. split; [vm_compute; discriminate|].
    exists (emit_pow 50). do 2 eexists. split; [exact Logic.I|]. split; [reflexivity|]. split; [vm_compute; reflexivity|]. split; vm_compute; reflexivity.
Qed.
(*@E
(* emit, a flush that fails at its first write, crash, an opening that fails, an opening, emit, flush, crash, opening *)
Example C107_ex :
  let call o fs h := io_after (io_step Debug o) fs h in
  let reopened fs d h := match io_result t_new_io fs d with Ok t => opened t | _ => h end in
  let h0 := opened fresh in
  let h1 := call OFlush [] h0 in
  let h2 := call OFlush [Fine; Fails 1] (call emit_good [] h1) in
  let d2 := t_crash (svs 9 9 9 0 9 9) (h_tree h2) in
  let d3 := disk_settle (io_after t_new_io [Fine; Fails 0] d2) in
  let h3 := reopened [] d3 h0 in
  let h4 := call OFlush [] (call emit_bad [] h3) in
  let h5 := reopened [] (t_crash (svs 0 0 0 9 0 0) (h_tree h4)) h0 in
  map (fun h => (mc_get_height (t_main (h_tree h)), match mc_find_by_height 1 (t_main (h_tree h)) with Ok (Some b) => hd 0 (bi_pow (get_info b)) | _ => 0 end)) [h1; h2; h3; h4; h5] =
    [(1, 0); (2, 3); (1, 3); (2, 5); (2, 5)].
Proof. vm_compute. reflexivity. Qed.
@*)
