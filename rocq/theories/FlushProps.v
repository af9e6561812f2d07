(** Proofs of the theorems about concurrent flushes. *)
From Coq Require Import Lia ZifyBool ZifyNat ZifyN.
From Verif Require Import Base Sha256 Tools Transaction Block Sled Chain Tree Spec Reach LedgerSpec CrashSpec Conc ConcTree ConcSpec ConcFlush FlushSpec Demo.
From Verif Require Import BaseFacts ToolsFacts CodecFacts SledFacts ChainFacts TreeFacts LedgerFacts CrashFacts ConcFacts.

Local Strategy 1000 [u256_mul u256_add u256_sub BYTE_GAS_PRICE t_get_amount t_get_gas mc_decode recalculate_fee t_send_amount t_sub_gas lcall_run sled_get].

(** ** Parts of a step *)
Definition pr (th : fthread) : thread := match th with FTh th => th | _ => TDone CLast Panic end.
Definition is_flush (th : fthread) : bool := match th with FTh _ => false | _ => true end.
Definition quiet (s s' : shared) : Prop :=
  sh_locked s' = sh_locked s /\ mc_height (mainof s') = mc_height (mainof s) /\ mc_difficulty (mainof s') = mc_difficulty (mainof s) /\
  cur (mc_blocks (mainof s')) = cur (mc_blocks (mainof s)) /\ cur (mc_txs (mainof s')) = cur (mc_txs (mainof s)).

Lemma map_replace {A B} (f : A -> B) l : forall k y, map f (replace l k y) = replace (map f l) k (f y).
Proof. induction l as [|a l IH]; intros [|k] y; cbn [replace map]; [reflexivity..|]. rewrite IH. reflexivity. Qed.
Lemma replace_id {A} (l : list A) : forall k x, nth_error l k = Some x -> replace l k x = l.
Proof. induction l as [|a l IH]; intros [|k] x H; cbn [replace nth_error] in *; try discriminate H; [congruence|]. rewrite IH by exact H. reflexivity. Qed.

Lemma fstep_cases s th s' th' : flush_step s th = Some (s', th') ->
  (exists a a', th = FTh a /\ th' = FTh a' /\ tree_step s a = Some (s', a')) \/
  (is_flush th = true /\ is_flush th' = true /\ quiet s s').
Proof.
  destruct th; cbn [flush_step]; intros E.
  - left. destruct (tree_step s th) as [[s1 th1]|] eqn:E1; [|discriminate E]. apply some_inv in E as [-> <-]. eauto.
  - right. apply some_inv in E as [<- <-]. repeat split.
  - right. destruct (sh_locked s); [discriminate E|]. apply some_inv in E as [<- <-]. repeat split.
  - right. apply some_inv in E as [<- <-]. repeat split.
  - right. apply some_inv in E as [<- <-]. repeat split.
  - right. apply some_inv in E as [<- <-]. repeat split.
  - right. apply some_inv in E as [<- <-]. repeat split.
  - right. apply some_inv in E as [<- <-]. repeat split.
  - discriminate E.
Qed.

Lemma step_cfg s th s' th' : tree_step s th = Some (s', th') ->
  mc_cfg (mainof s') = mc_cfg (mainof s) /\ mc_difficulty (mainof s') = mc_difficulty (mainof s) /\
  (mc_txs (mainof s') = mc_txs (mainof s) \/ exists k v, mc_txs (mainof s') = sled_insert k v (mc_txs (mainof s))).
Proof.
  intros E. destruct th as [[c|tx|b| |h|h]|tx g|tx g a|tx g a i|tx g a i|tx g|tx g|tx g|b|b|b|c i|c i|c r]; cbn [tree_step] in E.
  - pose proof (lcall_main c (sh_tree s)) as H. destruct (lcall_run c (sh_tree s)). apply some_inv in E as [<- <-]. unfold mainof. cbn [fst sh_tree with_tree] in *. rewrite H. auto.
  - apply some_inv in E as [<- <-]. auto.
  - destruct (sh_locked s); [discriminate E|]. destruct (negb _); apply some_inv in E as [<- <-]; auto.
  - destruct (sh_locked s); [discriminate E|]. apply some_inv in E as [<- <-]. auto.
  - destruct (sh_locked s); [discriminate E|]. apply some_inv in E as [<- <-]. auto.
  - apply some_inv in E as [<- <-]. auto.
  - apply some_inv in E as [<- <-]. auto.
  - destruct (sh_locked s); [discriminate E|]. apply some_inv in E as [<- <-]. auto.
  - destruct (sh_locked s); [discriminate E|]. apply some_inv in E as [<- <-]. auto.
  - apply some_inv in E as [<- <-]. auto.
  - apply some_inv in E as [<- <-]. split; [reflexivity|]. split; [reflexivity|]. right. eexists _, _. reflexivity.
  - pose proof (send_amount_main (tx_sender tx) (tx_receiver tx) (tx_amount tx) (sh_tree s)) as H. destruct (t_send_amount _ _ _ _) as [t' r]. apply some_inv in E as [<- <-].
    unfold mainof. cbn [fst sh_tree with_tree] in *. rewrite H. auto.
  - pose proof (on_gas_main (led_sub (tx_sender tx) g) (sh_tree s)) as H. change (t_on_gas (led_sub (tx_sender tx) g) (sh_tree s)) with (t_sub_gas (tx_sender tx) g (sh_tree s)) in H.
    destruct (t_sub_gas _ _ _) as [t' r]. apply some_inv in E as [<- <-]. unfold mainof. cbn [fst sh_tree with_tree] in *. rewrite H. auto.
  - apply some_inv in E as [<- <-]. auto.
  - apply some_inv in E as [<- <-]. auto.
  - unfold mainof. destruct (u256_add _ _); apply some_inv in E as [<- <-]; auto.
  - destruct (sh_locked s); [discriminate E|]. apply some_inv in E as [<- <-]. auto.
  - apply some_inv in E as [<- <-]. auto.
  - discriminate E.
Qed.

(** ** Every block below the height is stored *)
Definition in_rb (th : thread) : bool := match th with TRef _ | TBump _ => true | _ => false end.
Lemma step_rb s th s' th' : tree_step s th = Some (s', th') -> in_rb th' = true -> (exists b, th = TWrite b) \/ (exists b, th = TRef b).
Proof.
  intros E Hr. pose proof (step_call s th s' th' E) as Hc. assert (exists b, th_call th' = CAddBlock b) as (b & Hb) by (destruct th'; try discriminate Hr; eexists; reflexivity).
  rewrite Hb in Hc. symmetry in Hc. destruct th; cbn [th_call] in Hc; try discriminate Hc; eauto; subst; cbn [tree_step] in E.
  - destruct (sh_locked s); [discriminate E|]. destruct (negb _); apply some_inv in E as [_ <-]; discriminate Hr.
  - destruct (u256_add _ _); apply some_inv in E as [_ <-]; discriminate Hr.
  - destruct (sh_locked s); [discriminate E|]. apply some_inv in E as [_ <-]. destruct (_ <? _); discriminate Hr.
  - apply some_inv in E as [_ <-]. discriminate Hr.
  - discriminate E.
Qed.
Definition kept (m : main_chain) (P : list thread) : Prop :=
  mc_height m < 2 ^ 256 /\ (forall i, i < mc_height m -> sled_get (height_key i) (mc_blocks m) <> None) /\
  (forall th, In th P -> in_rb th = true -> sled_get (height_key (mc_height m)) (mc_blocks m) <> None).

Lemma kept_step s P k th s' th' : lock_inv s P -> kept (mainof s) P -> nth_error P k = Some th -> tree_step s th = Some (s', th') ->
  kept (mainof s') (replace P k th').
Proof.
  intros HL (K1 & K2 & K3) Hk E. pose proof (step_main s th s' th' E) as M. pose proof (step_rb s th s' th' E) as R.
  assert (Hsame : same_chain (mainof s) (mainof s') -> in_rb th' = false -> kept (mainof s') (replace P k th')).
  { intros (E1 & _ & E3) Hf. unfold kept. rewrite E1, E3. split; [exact K1|]. split; [exact K2|]. intros z Hz Hr. apply in_replace in Hz as [->|Hz]; [congruence|]. apply (K3 z Hz Hr). }
  assert (Hno : (forall b, th <> TWrite b) -> (forall b, th <> TRef b) -> in_rb th' = false).
  { intros A B. destruct (in_rb th') eqn:Er; [|reflexivity]. destruct (R eq_refl) as [[b ->]|[b ->]]; exfalso; [apply (A b)|apply (B b)]; reflexivity. }
  destruct th; try (apply Hsame; [exact M|apply Hno; intros; discriminate]).
  - rewrite M. unfold kept. cbn [put_block mc_height mc_blocks]. split; [exact K1|]. split.
    + intros i Hi. rewrite sled_get_insert. destruct (bytes_eqb _ _); [discriminate|apply K2, Hi].
    + intros z _ _. rewrite sled_get_insert, bytes_eqb_refl. discriminate.
  - rewrite M. unfold kept. cbn [put_ref mc_height mc_blocks]. split; [exact K1|]. split; [exact K2|].
    intros z _ _. apply (K3 (TRef b)); [eapply nth_error_In, Hk|reflexivity].
  - assert (Hf : in_rb th' = false) by (apply Hno; intros; discriminate).
    revert M. unfold u256_add. destruct (N.ltb_spec (mc_height (mainof s) + 1) (2 ^ 256)) as [Hlt|]; intros M; [|apply Hsame; [rewrite M; repeat split|exact Hf]].
    rewrite M. unfold kept. cbn [put_height mc_height mc_blocks]. split; [exact Hlt|]. split.
    + intros i Hi. destruct (N.eq_dec i (mc_height (mainof s))) as [->|Hne]; [|apply K2; lia]. apply (K3 (TBump b)); [eapply nth_error_In, Hk|reflexivity].
    + intros z Hz Hr. exfalso. apply In_nth_error in Hz as (j & Hj). destruct (Nat.eq_dec k j) as [Heq|Hne].
      * subst j. rewrite (replace_same _ _ _ th' Hk) in Hj. injection Hj as <-. congruence.
      * rewrite replace_other in Hj by exact Hne. apply Hne. eapply (lock_unique s P k j); [exact HL|exact Hk|exact Hj|reflexivity|destruct z; try discriminate Hr; reflexivity].
Qed.

Definition base_inv (s : shared) (ts : list fthread) : Prop := lock_inv s (map pr ts) /\ kept (mainof s) (map pr ts).
Lemma sled_get_cur k a b : cur a = cur b -> sled_get k a = sled_get k b.
Proof. unfold sled_get. intros ->. reflexivity. Qed.
Lemma base_step s ts k th s' th' : base_inv s ts -> nth_error ts k = Some th -> flush_step s th = Some (s', th') -> base_inv s' (replace ts k th').
Proof.
  intros [HL HK] Hk E. assert (Hp : nth_error (map pr ts) k = Some (pr th)) by (rewrite nth_error_map, Hk; reflexivity).
  unfold base_inv. rewrite map_replace. destruct (fstep_cases s th s' th' E) as [(a & a' & -> & -> & Ea)|(F1 & F2 & Q1 & Q2 & Q3 & Q4 & Q5)].
  - cbn [pr] in *. split; [eapply lock_step; eassumption|eapply kept_step; eassumption].
  - assert (pr th' = pr th) as -> by (destruct th; [discriminate F1|..]; destruct th'; try discriminate F2; reflexivity).
    rewrite replace_id by exact Hp. split; [unfold lock_inv, locked1 in *; rewrite Q1; exact HL|].
    destruct HK as (K1 & K2 & K3). unfold kept. rewrite Q2. split; [exact K1|].
    split; intros; rewrite (sled_get_cur _ _ _ Q4); eauto.
Qed.
Lemma fstep_grows s th s' th' : flush_step s th = Some (s', th') -> grows (mainof s) (mainof s').
Proof.
  intros E. destruct (fstep_cases s th s' th' E) as [(a & a' & -> & -> & Ea)|(_ & _ & _ & Q2 & _ & Q4 & _)]; [eapply step_grows, Ea|].
  intros H. rewrite Q2. split; [lia|]. intros i Hi. apply sled_get_cur, Q4.
Qed.
Lemma fexec_grows sch s ts : grows (mainof s) (mainof (fst (exec flush_step sch (s, ts)))).
Proof.
  pose proof (exec_ind flush_step (fun s' _ => grows (mainof s) (mainof s'))) as H.
  specialize (H ltac:(intros s1 ts1 k th s' th' H1 _ E; exact (grows_trans _ _ _ H1 (fstep_grows _ _ _ _ E))) sch s ts (grows_refl _ _ ltac:(repeat split))).
  destruct (exec flush_step sch (s, ts)). exact H.
Qed.
Lemma lock_fstart t calls : lock_inv (MkShared t false) (map pr (map fstart calls)).
Proof. unfold lock_inv, total. rewrite !map_map. induction calls as [|[c|] l IH]; [reflexivity|exact IH..]. Qed.
Lemma kept_start t L P : tree_inv t L -> N.of_nat (length L) < 2 ^ 256 -> (forall th, In th P -> in_rb th = false) -> kept (t_main t) P.
Proof.
  intros H Hl HP. pose proof (ti_main _ _ H) as HM. unfold kept. rewrite (mi_height _ _ HM). split; [exact Hl|]. split.
  - intros i Hi. rewrite (mi_blocks _ _ HM) by lia. destruct (nthN_ex L i Hi) as (b & ->). discriminate.
  - intros th Hin Hr. rewrite HP in Hr by exact Hin. discriminate Hr.
Qed.
Lemma base_start t L calls : tree_inv t L -> N.of_nat (length L) < 2 ^ 256 -> base_inv (MkShared t false) (map fstart calls).
Proof.
  intros H Hl. split; [apply lock_fstart|]. apply (kept_start t L); [exact H|exact Hl|]. intros th Hin. rewrite map_map in Hin. apply in_map_iff in Hin as ([c|] & <- & _); reflexivity.
Qed.

(** ** The config file under several flushes *)
Lemma overwrite_0 d c : overwrite 0 d c = d ++ skipn (length d) c.
Proof. reflexivity. Qed.
Lemma file_bytes_write off d f : file_bytes (file_write_at off d f) = overwrite off d (file_bytes f).
Proof. unfold file_bytes at 1, file_write_at, file_cur. cbn [f_pend f_dur]. rewrite last_last. reflexivity. Qed.
Lemma file_bytes_truncate f : file_bytes (file_truncate f) = [].
Proof. unfold file_bytes, file_truncate, file_cur. cbn [f_pend f_dur]. rewrite last_last. reflexivity. Qed.

Definition to_height (th : fthread) : bool := match th with FOpen | FHeight | FWriteHeight _ => true | _ => false end.
Definition to_diff (th : fthread) : bool := match th with FOpen | FHeight | FWriteHeight _ | FWriteDiff => true | _ => false end.
Definition opened (th : fthread) : bool := match th with FTh _ | FOpen => false | _ => true end.
Record cfg_inv (h0 : N) (d : bytes) (s : shared) (ts : list fthread) : Prop := {
  cv_diff : mc_difficulty (mainof s) = d;
  cv_low : h0 <= mc_height (mainof s) < 2 ^ 256;
  cv_len : (exists th, In th ts /\ opened th = true) -> (length (file_bytes (mc_cfg (mainof s))) <= 64)%nat;
  cv_read : forall h, In (FWriteHeight h) ts -> h0 <= h <= mc_height (mainof s);
  cv_height : (exists th, In th ts /\ to_height th = true) \/
    exists h, h0 <= h <= mc_height (mainof s) /\ firstn 32 (file_bytes (mc_cfg (mainof s))) = height_key h;
  cv_tail : (exists th, In th ts /\ to_diff th = true) \/ skipn 32 (file_bytes (mc_cfg (mainof s))) = d
}.
Lemma in_replace_new {A} (l : list A) k x y : nth_error l k = Some x -> In y (replace l k y).
Proof. intros H. eapply nth_error_In, replace_same, H. Qed.
Lemma in_replace_old {A} (l : list A) k x y z : nth_error l k = Some x -> In z l -> In z (replace l k y) \/ z = x.
Proof.
  intros Hk Hz. apply In_nth_error in Hz as (j & Hj). destruct (Nat.eq_dec k j) as [<-|Hne]; [right; congruence|left].
  apply (nth_error_In _ j). rewrite replace_other by exact Hne. exact Hj.
Qed.
(** What stays pending when thread [k] moves from [x] to [y]. *)
Lemma pending_move {A} (f : A -> bool) l k x y : nth_error l k = Some x -> (f x = true -> f y = true) ->
  (exists z, In z l /\ f z = true) -> exists z, In z (replace l k y) /\ f z = true.
Proof.
  intros Hk Hf (z & Hz & Hfz). destruct (in_replace_old l k x y z Hk Hz) as [Hz'| ->]; [eauto|]. exists y. split; [eapply in_replace_new, Hk|auto].
Qed.
Lemma pending_back {A} (f : A -> bool) l k x y : nth_error l k = Some x -> (f y = true -> f x = true) ->
  (exists z, In z (replace l k y) /\ f z = true) -> exists z, In z l /\ f z = true.
Proof.
  intros Hk Hf (z & Hz & Hfz). apply in_replace in Hz as [->|Hz]; [|eauto]. exists x. split; [eapply nth_error_In, Hk|auto].
Qed.

Lemma cfg_step h0 d s ts k th s' th' : length d = 32%nat -> cfg_inv h0 d s ts -> nth_error ts k = Some th -> flush_step s th = Some (s', th') ->
  cfg_inv h0 d s' (replace ts k th').
Proof.
  intros Hd [C1 C2 C3 C4 C5 C6] Hk E. destruct th; cbn [flush_step] in E.
  - destruct (tree_step s th) as [[s1 th1]|] eqn:E1; [|discriminate E]. apply some_inv in E as [-> <-].
    destruct (step_cfg s th s' th1 E1) as (F1 & F2 & _). destruct (step_grows s th s' th1 E1 (proj2 C2)) as [G1 _].
    split; rewrite ?F1, ?F2.
    + exact C1.
    + lia.
    + intros H. apply C3. eapply pending_back; [exact Hk| |exact H]. intros X; exact X.
    + intros h H. apply in_replace in H as [H|H]; [discriminate H|]. specialize (C4 h H). lia.
    + destruct C5 as [H|(h & Hh & Hf)]; [left; eapply pending_move; [exact Hk| |exact H]; intros X; discriminate X|right; exists h; split; [lia|exact Hf]].
    + destruct C6 as [H|H]; [left; eapply pending_move; [exact Hk| |exact H]; intros X; discriminate X|right; exact H].
  - apply some_inv in E as [<- <-]. split; unfold mainof; cbn [sh_tree with_tree t_main with_main with_cfg mc_difficulty mc_height mc_cfg]; rewrite ?file_bytes_truncate.
    + exact C1.
    + exact C2.
    + intros _. cbn [length]. lia.
    + intros h H. apply in_replace in H as [H|H]; [discriminate H|]. exact (C4 h H).
    + left. exists FHeight. split; [eapply in_replace_new, Hk|reflexivity].
    + left. exists FHeight. split; [eapply in_replace_new, Hk|reflexivity].
  - destruct (sh_locked s); [discriminate E|]. apply some_inv in E as [<- <-]. split.
    + exact C1.
    + exact C2.
    + intros _. apply C3. exists FHeight. split; [eapply nth_error_In, Hk|reflexivity].
    + intros h H. apply in_replace in H as [H|H]; [|exact (C4 h H)]. injection H as ->. change (t_main (sh_tree s)) with (mainof s). lia.
    + left. exists (FWriteHeight (mc_height (t_main (sh_tree s)))). split; [eapply in_replace_new, Hk|reflexivity].
    + left. exists (FWriteHeight (mc_height (t_main (sh_tree s)))). split; [eapply in_replace_new, Hk|reflexivity].
  - assert (Hlen : (length (file_bytes (mc_cfg (mainof s))) <= 64)%nat) by (apply C3; exists (FWriteHeight h); split; [eapply nth_error_In, Hk|reflexivity]).
    apply some_inv in E as [<- <-]. split; unfold mainof in *; cbn [sh_tree with_tree t_main with_main with_cfg mc_difficulty mc_height mc_cfg]; rewrite ?file_bytes_write, ?overwrite_0.
    + exact C1.
    + exact C2.
    + intros _. rewrite app_length, skipn_length, !height_key_length. lia.
    + intros h1 H. apply in_replace in H as [H|H]; [discriminate H|]. exact (C4 h1 H).
    + right. exists h. split; [apply C4; eapply nth_error_In, Hk|]. rewrite firstn_app, height_key_length, Nat.sub_diag, firstn_O, app_nil_r. apply firstn_all2. rewrite height_key_length. lia.
    + left. exists FWriteDiff. split; [eapply in_replace_new, Hk|reflexivity].
  - assert (Hlen : (length (file_bytes (mc_cfg (mainof s))) <= 64)%nat) by (apply C3; exists FWriteDiff; split; [eapply nth_error_In, Hk|reflexivity]).
    apply some_inv in E as [<- <-]. split; unfold mainof in *; cbn [sh_tree with_tree t_main with_main with_cfg mc_difficulty mc_height mc_cfg]; rewrite ?file_bytes_write.
    + exact C1.
    + exact C2.
    + intros _. unfold overwrite. rewrite C1, !app_length, firstn_length, app_length, repeat_length, skipn_length, Hd. lia.
    + intros h1 H. apply in_replace in H as [H|H]; [discriminate H|]. exact (C4 h1 H).
    + destruct C5 as [H|(h & Hh & Hf)]; [left; eapply pending_move; [exact Hk| |exact H]; intros X; discriminate X|right]. exists h. split; [exact Hh|].
      assert (Hc : (32 <= length (file_bytes (mc_cfg (t_main (sh_tree s)))))%nat). { pose proof (f_equal (@length N) Hf) as Hl. rewrite firstn_length, height_key_length in Hl. lia. }
      unfold overwrite. rewrite firstn_app, firstn_firstn, firstn_length, app_length, repeat_length.
      replace (32 - Nat.min 32 _)%nat with 0%nat by lia. rewrite firstn_O, app_nil_r. cbn [Nat.min]. rewrite firstn_app. replace (32 - length (file_bytes (mc_cfg (t_main (sh_tree s)))))%nat with 0%nat by lia. cbn [repeat]. rewrite firstn_nil, app_nil_r. exact Hf.
    + right. rewrite C1. unfold overwrite. rewrite (skipn_all2 (n := 32 + length d)) by lia. rewrite app_nil_r, skipn_app, skipn_all2; [|rewrite firstn_length; lia].
      rewrite firstn_length, app_length, repeat_length. replace (32 - Nat.min 32 _)%nat with 0%nat by lia. reflexivity.
  - apply some_inv in E as [<- <-]. split.
    + exact C1.
    + exact C2.
    + intros H. apply C3. eapply pending_back; [exact Hk| |exact H]. reflexivity.
    + intros h H. apply in_replace in H as [H|H]; [discriminate H|]. exact (C4 h H).
    + destruct C5 as [H|H]; [left; eapply pending_move; [exact Hk| |exact H]; intros X; discriminate X|right; exact H].
    + destruct C6 as [H|H]; [left; eapply pending_move; [exact Hk| |exact H]; intros X; discriminate X|right; exact H].
  - apply some_inv in E as [<- <-]. split.
    + exact C1.
    + exact C2.
    + intros H. apply C3. eapply pending_back; [exact Hk| |exact H]. reflexivity.
    + intros h H. apply in_replace in H as [H|H]; [discriminate H|]. exact (C4 h H).
    + destruct C5 as [H|H]; [left; eapply pending_move; [exact Hk| |exact H]; intros X; discriminate X|right; exact H].
    + destruct C6 as [H|H]; [left; eapply pending_move; [exact Hk| |exact H]; intros X; discriminate X|right; exact H].
  - apply some_inv in E as [<- <-]. split.
    + exact C1.
    + exact C2.
    + intros H. apply C3. eapply pending_back; [exact Hk| |exact H]. reflexivity.
    + intros h H. apply in_replace in H as [H|H]; [discriminate H|]. exact (C4 h H).
    + destruct C5 as [H|H]; [left; eapply pending_move; [exact Hk| |exact H]; intros X; discriminate X|right; exact H].
    + destruct C6 as [H|H]; [left; eapply pending_move; [exact Hk| |exact H]; intros X; discriminate X|right; exact H].
  - discriminate E.
Qed.

(** ** One flush among other calls *)
Definition durb (h : N) (m : main_chain) : Prop :=
  forall i n, i < h -> sled_get (height_key i) (sled_crash n (mc_blocks m)) = sled_get (height_key i) (mc_blocks m).
Definition saved (hs : N) (d : bytes) (m : main_chain) (h : N) : Prop :=
  hs <= h <= mc_height m /\ file_bytes (mc_cfg m) = height_key h ++ d.
Definition phase (hs : N) (d : bytes) (m1 m : main_chain) (th : fthread) : Prop :=
  match th with
  | FTh _ => False
  | FOpen => True
  | FHeight => file_bytes (mc_cfg m) = []
  | FWriteHeight h => file_bytes (mc_cfg m) = [] /\ hs <= h <= mc_height m
  | FWriteDiff => exists h, hs <= h <= mc_height m /\ file_bytes (mc_cfg m) = height_key h
  | FBlocks => exists h, saved hs d m h
  | FRefs | FTxs => exists h, saved hs d m h /\ durb h m
  | FDone => (exists h, saved hs d m h /\ durb h m) /\ (forall x, mc_transaction_exists x m1 = true -> dur_txs m x)
  end.
Record single_inv (k : nat) (hs : N) (d : bytes) (m1 : main_chain) (s : shared) (ts : list fthread) : Prop := {
  sv_others : forall j th, j <> k -> nth_error ts j = Some th -> is_flush th = false;
  sv_diff : mc_difficulty (mainof s) = d;
  sv_low : hs <= mc_height (mainof s) < 2 ^ 256;
  sv_bok : sled_ok (mc_blocks (mainof s));
  sv_tok : sled_ok (mc_txs (mainof s));
  sv_tx : forall x, mc_transaction_exists x m1 = true -> mc_transaction_exists x (mainof s) = true;
  sv_phase : exists th, nth_error ts k = Some th /\ phase hs d m1 (mainof s) th
}.

Lemma exists_insert x k v s : sled_contains x s = true -> sled_contains x (sled_insert k v s) = true.
Proof. unfold sled_contains. rewrite sled_get_insert. destruct (bytes_eqb x k); auto. Qed.
Lemma single_tree hs d m1 s a s' a' : sled_ok (mc_blocks (mainof s)) -> sled_ok (mc_txs (mainof s)) -> hs <= mc_height (mainof s) < 2 ^ 256 ->
  tree_step s a = Some (s', a') ->
  sled_ok (mc_blocks (mainof s')) /\ sled_ok (mc_txs (mainof s')) /\ hs <= mc_height (mainof s') < 2 ^ 256 /\
  (forall x, mc_transaction_exists x (mainof s) = true -> mc_transaction_exists x (mainof s') = true) /\
  (forall th, phase hs d m1 (mainof s) th -> phase hs d m1 (mainof s') th).
Proof.
  intros Hb Ht Hh E. destruct (step_grows s a s' a' E (proj2 Hh)) as [G1 G2]. destruct (step_cfg s a s' a' E) as (F1 & _ & F3).
  assert (Hblocks : mc_blocks (mainof s') = mc_blocks (mainof s) \/ exists b, mc_blocks (mainof s') = sled_insert (height_key (mc_height (mainof s))) b (mc_blocks (mainof s))).
  { pose proof (step_main s a s' a' E) as M. destruct a; try (left; apply M); try (rewrite M; auto).
    - right. eexists. reflexivity.
    - left. destruct (u256_add _ _); reflexivity. }
  assert (Hdur : forall h, h <= mc_height (mainof s) -> durb h (mainof s) -> durb h (mainof s')).
  { intros h Hle Hd i n Hi. destruct Hblocks as [Eb|(b & Eb)]; rewrite Eb; [apply Hd, Hi|].
    rewrite sled_get_insert, height_key_eqb by lia. destruct (N.eqb_spec i (mc_height (mainof s))); [lia|].
    unfold sled_insert. destruct (crash_commit n [(height_key (mc_height (mainof s)), b)] _ Hb) as [G|G]; rewrite G; [apply Hd, Hi|].
    rewrite sled_get_commit1, height_key_eqb by lia. destruct (N.eqb_spec i (mc_height (mainof s))); [lia|reflexivity]. }
  assert (Hdt : forall x, dur_txs (mainof s) x -> dur_txs (mainof s') x).
  { intros x Hd n. destruct F3 as [Eb|(kk & v & Eb)]; rewrite Eb; [apply Hd|].
    unfold sled_insert. destruct (crash_commit n [(kk, v)] _ Ht) as [G|G]; rewrite G; [apply Hd|].
    rewrite sled_get_commit1. destruct (bytes_eqb x kk); [discriminate|]. pose proof (Hd (length (pend (mc_txs (mainof s))))) as Hc. rewrite crash_full in Hc by exact Ht. exact Hc. }
  assert (Hsv : forall h, saved hs d (mainof s) h -> saved hs d (mainof s') h) by (intros h [A B]; split; [lia|rewrite F1; exact B]).
  split; [destruct Hblocks as [->|(b & ->)]; [exact Hb|apply sled_ok_commit, Hb]|].
  split; [destruct F3 as [->|(kk & v & ->)]; [exact Ht|apply sled_ok_commit, Ht]|].
  split; [lia|]. split.
  { intros x Hx. unfold mc_transaction_exists in *. destruct F3 as [->|(kk & v & ->)]; [exact Hx|apply exists_insert, Hx]. }
  intros th Hp. destruct th; cbn [phase] in *; rewrite ?F1; try exact Hp.
  - split; [apply Hp|]. destruct Hp as [_ Hp]. lia.
  - destruct Hp as (h & A & B). exists h. split; [lia|exact B].
  - destruct Hp as (h & A). eauto.
  - destruct Hp as (h & A & B). exists h. split; [auto|]. apply Hdur; [destruct A; lia|exact B].
  - destruct Hp as (h & A & B). exists h. split; [auto|]. apply Hdur; [destruct A; lia|exact B].
  - destruct Hp as [(h & A & B) C]. split; [|intros x Hx; apply Hdt, C, Hx]. exists h. split; [auto|]. apply Hdur; [destruct A; lia|exact B].
Qed.

Lemma overwrite_32 d h : overwrite 32 d (height_key h) = height_key h ++ d.
Proof.
  unfold overwrite. rewrite height_key_length. change (32 - 32)%nat with 0%nat. cbn [repeat]. rewrite app_nil_r, firstn_all2 by (rewrite height_key_length; lia).
  rewrite skipn_all2 by (rewrite height_key_length; lia). rewrite app_nil_r. reflexivity.
Qed.
Lemma single_step k hs d m1 s ts j th s' th' : single_inv k hs d m1 s ts -> nth_error ts j = Some th -> flush_step s th = Some (s', th') ->
  single_inv k hs d m1 s' (replace ts j th').
Proof.
  intros [S1 S2 S3 S4 S5 S6 (thk & Sk & Sp)] Hj E. destruct (Nat.eq_dec j k) as [->|Hne].
  - rewrite Sk in Hj. injection Hj as <-.
    assert (Ho : forall j th, j <> k -> nth_error (replace ts k th') j = Some th -> is_flush th = false).
    { intros j th Hj Hn. rewrite replace_other in Hn by auto. eapply S1; eassumption. }
    destruct thk; cbn [phase] in Sp; [contradiction|..]; cbn [flush_step] in E; [| |..].
    + apply some_inv in E as [<- <-]. split; auto. eexists. split; [eapply replace_same, Sk|]. cbn [phase]. unfold mainof. cbn [sh_tree with_tree t_main with_main with_cfg mc_cfg]. apply file_bytes_truncate.
    + destruct (sh_locked s); [discriminate E|]. apply some_inv in E as [<- <-]. split; auto. eexists. split; [eapply replace_same, Sk|]. cbn [phase]. split; [exact Sp|]. change (t_main (sh_tree s)) with (mainof s). lia.
    + apply some_inv in E as [<- <-]. destruct Sp as [Sp Sh]. split; auto. eexists. split; [eapply replace_same, Sk|]. cbn [phase]. exists h. split; [exact Sh|].
      unfold mainof in *. cbn [sh_tree with_tree t_main with_main with_cfg mc_cfg]. rewrite file_bytes_write, Sp, overwrite_0, skipn_nil, app_nil_r. reflexivity.
    + apply some_inv in E as [<- <-]. destruct Sp as (h & Sh & Sp). split; auto. eexists. split; [eapply replace_same, Sk|]. cbn [phase]. exists h. split; [exact Sh|].
      unfold mainof in *. cbn [sh_tree with_tree t_main with_main with_cfg mc_cfg]. rewrite file_bytes_write, Sp, S2. apply overwrite_32.
    + apply some_inv in E as [<- <-]. destruct Sp as (h & Sp). split; auto. { apply sled_ok_flush, S4. } eexists. split; [eapply replace_same, Sk|]. cbn [phase]. exists h. split; [exact Sp|].
      intros i n _. unfold mainof. cbn [sh_tree with_tree t_main with_main mc_flush_blocks mc_blocks]. rewrite crash_flush. reflexivity.
    + apply some_inv in E as [<- <-]. split; auto. eexists. split; [eapply replace_same, Sk|]. exact Sp.
    + apply some_inv in E as [<- <-]. split; auto. { apply sled_ok_flush, S5. } eexists. split; [eapply replace_same, Sk|]. cbn [phase]. split; [exact Sp|].
      intros x Hx n. unfold mainof. cbn [sh_tree with_tree t_main with_main mc_flush_txs mc_txs]. rewrite crash_flush. specialize (S6 x Hx). unfold mc_transaction_exists, sled_contains, mainof in S6.
      destruct (sled_get x (mc_txs (t_main (sh_tree s)))); [discriminate|discriminate S6].
    + discriminate E.
  - pose proof (S1 j th Hne Hj) as Hf. destruct th as [a| | | | | | | |]; try discriminate Hf. cbn [flush_step] in E. destruct (tree_step s a) as [[s1 a1]|] eqn:Ea; [|discriminate E].
    apply some_inv in E as [-> <-]. destruct (step_cfg s a s' a1 Ea) as (_ & F2 & _).
    destruct (single_tree hs d m1 s a s' a1 S4 S5 S3 Ea) as (T1 & T2 & T3 & T4 & T5). split; auto.
    + intros j0 th0 Hj0 Hn. destruct (Nat.eq_dec j j0) as [<-|Hn0]; [rewrite (replace_same _ _ _ _ Hj) in Hn; injection Hn as <-; reflexivity|].
      rewrite replace_other in Hn by exact Hn0. eapply S1; eassumption.
    + rewrite F2. exact S2.
    + exists thk. split; [rewrite replace_other by exact Hne; exact Sk|auto].
Qed.

(** ** Theorems *)
Lemma settle_cfg f c : file_bytes f = c -> c <> [] -> file_cur f = Some c.
Proof. unfold file_bytes. destruct (file_cur f); intros <- H; [reflexivity|contradiction]. Qed.
Lemma key_ne h d : height_key h ++ d <> [].
Proof. intros H. pose proof (f_equal (@length N) H) as Hl. rewrite app_length, height_key_length in Hl. discriminate Hl. Qed.

Lemma exec_inv {S T} (step : S -> T -> option (S * T)) (I : S -> list T -> Prop) :
  (forall s ts k th s' th', I s ts -> nth_error ts k = Some th -> step s th = Some (s', th') -> I s' (replace ts k th')) ->
  forall sch s ts s' ts', I s ts -> exec step sch (s, ts) = (s', ts') -> I s' ts'.
Proof. intros H sch s ts s' ts' H0 E. pose proof (exec_ind step I H sch s ts H0) as G. rewrite E in G. exact G. Qed.

(*@T C77.  A flush running alone, in seven steps, does what the sequential flush does. *)
Lemma p_C77_flush_alone : forall t,
  flush_exec (repeat 0%nat 7) t [FFlush] = (MkShared (with_main t (mc_flush (t_main t))) false, [FDone]).
Proof.
  intros t. unfold flush_exec. cbn [map fstart repeat exec fold_left sched_step nth_error flush_step replace with_tree sh_tree sh_locked with_main t_main with_cfg mc_cfg mc_height mc_difficulty].
  assert (E : with_cfg (file_write_at 32 (mc_difficulty (t_main t)) (file_write_at 0 (height_key (mc_height (t_main t))) (file_truncate (mc_cfg (t_main t))))) (t_main t) = mc_dump_config (t_main t)).
  { unfold mc_dump_config, with_cfg. f_equal. unfold file_write_at at 1, file_append at 1. rewrite file_bytes_write, file_bytes_truncate, overwrite_0, skipn_nil, app_nil_r, overwrite_32.
    unfold file_write_at, file_append. rewrite file_bytes_truncate, overwrite_0, skipn_nil, app_nil_r. unfold file_cur. cbn [f_pend f_dur file_truncate]. rewrite !last_last. reflexivity. }
  unfold mc_flush. rewrite <- E. reflexivity.
Qed.

(*@T C77.  One flush among any other calls that are not flushes: when it has returned and its
   file writes have reached the disk, every crash leaves a directory that opens again, at a height at least that at which the
   flush was called, with every block below that height as it was, and with every transaction stored when the flush was called.
   Missing from the full claim: other flushes at the same time (refuted below). *)
Lemma p_C77_flush_saves_partial : forall ok p n t calls k sch1 sch2 s1 ts1 s2 ts2 sv,
  reachable ok p n t -> few n -> only_flush k calls ->
  flush_exec sch1 t calls = (s1, ts1) -> nth_error ts1 k = Some FOpen ->
  exec flush_step sch2 (s1, ts1) = (s2, ts2) -> nth_error ts2 k = Some FDone ->
  exists t', t_new (t_crash sv (t_settle (sh_tree s2))) = Ok t' /\
    mc_get_height (t_main (sh_tree s1)) <= mc_get_height (t_main t') <= mc_get_height (t_main (sh_tree s2)) /\
    (forall i, i < mc_get_height (t_main t') ->
       mc_find_raw_by_height i (t_main t') = mc_find_raw_by_height i (t_main (sh_tree s2)) /\
       mc_find_raw_by_height i (t_main t') <> None) /\
    (forall h, mc_transaction_exists h (t_main (sh_tree s1)) = true -> mc_transaction_exists h (t_main t') = true).
Proof.
  intros ok p n t calls k sch1 sch2 s1 ts1 s2 ts2 sv Hr Hn [Hk Ho] E1 Hk1 E2 Hk2.
  destruct (reachable_crash _ _ _ _ Hr Hn) as (L & HL & Hlen & HC). unfold few in Hn. pose proof (mi_height _ _ (ti_main _ _ HL)) as Hh.
  assert (B1 : base_inv s1 ts1). { eapply (exec_inv flush_step base_inv base_step); [|exact E1]. apply (base_start t L); [exact HL|lia]. }
  assert (B2 : base_inv s2 ts2) by (eapply (exec_inv flush_step base_inv base_step); eassumption).
  assert (I0 : single_inv k (mc_height (t_main t)) BEGINNING_DIFFICULTY (t_main t) (MkShared t false) (map fstart calls)).
  { split.
    - intros j th Hj Hn0. rewrite nth_error_map in Hn0. destruct (nth_error calls j) as [[c|]|] eqn:Ec; cbn [option_map] in Hn0; [injection Hn0 as <-; reflexivity|exfalso; exact (Ho j Hj Ec)|discriminate Hn0].
    - apply (ti_diff _ _ HL).
    - change (mainof (MkShared t false)) with (t_main t). lia.
    - apply HC.
    - apply HC.
    - auto.
    - exists FOpen. split; [rewrite nth_error_map, Hk; reflexivity|exact I]. }
  assert (I1 : single_inv k (mc_height (t_main t)) BEGINNING_DIFFICULTY (t_main t) s1 ts1).
  { eapply (exec_inv flush_step _ (single_step _ _ _ _)); [exact I0|exact E1]. }
  assert (I1' : single_inv k (mc_height (mainof s1)) BEGINNING_DIFFICULTY (mainof s1) s1 ts1).
  { destruct I1 as [A1 A2 A3 A4 A5 A6 A7]. split; auto; [lia|]. exists FOpen. split; [exact Hk1|exact I]. }
  assert (I2 : single_inv k (mc_height (mainof s1)) BEGINNING_DIFFICULTY (mainof s1) s2 ts2).
  { eapply (exec_inv flush_step _ (single_step _ _ _ _)); [exact I1'|exact E2]. }
  destruct I2 as [A1 A2 A3 A4 A5 A6 (th & Hth & Hp)]. rewrite Hk2 in Hth. injection Hth as <-. destruct Hp as [(h & [Hhh Hc] & Hd) Ht].
  assert (H0 : 0 < mc_height (mainof s1)).
  { pose proof (sv_low _ _ _ _ _ _ I1) as Hl. pose proof (tree_inv_ne _ _ HL). destruct L; [contradiction|]. cbn [length] in Hh. lia. }
  destruct B2 as [_ (K1 & K2 & _)]. change (t_main (sh_tree s2)) with (mainof s2). change (t_main (sh_tree s1)) with (mainof s1).
  unfold t_new. cbn [t_crash k_main].
  rewrite (mc_new_settled (mc_crash sv (t_main (t_settle (sh_tree s2)))) h BEGINNING_DIFFICULTY);
    [|cbn [mc_crash md_cfg t_settle with_main t_main mc_cfg]; unfold file_settle; rewrite file_crash_settled; apply settle_cfg; [exact Hc|apply key_ne]|lia|reflexivity].
  cbn [bind]. eexists. split; [reflexivity|]. unfold mc_get_height. cbn [t_main mc_height mc_blocks mc_txs mc_crash md_blocks md_txs t_settle with_main].
  split; [exact Hhh|]. split.
  - intros i Hi. unfold mc_find_raw_by_height. cbn [mc_height mc_blocks mc_crash md_blocks t_settle with_main t_main].
    destruct (N.ltb_spec h i); [lia|]. destruct (N.ltb_spec (mc_height (mainof s2)) i); [lia|].
    change (t_main (sh_tree s2)) with (mainof s2). rewrite Hd by exact Hi. split; [reflexivity|apply K2; lia].
  - intros x Hx. unfold mc_transaction_exists, sled_contains. cbn [mc_txs mc_crash md_txs t_settle with_main t_main]. pose proof (Ht x Hx (sv_txs sv)) as G.
    change (t_main (sh_tree s2)) with (mainof s2). destruct (sled_get x _); [reflexivity|contradiction].
Qed.

(*@T C77.  Any number of flushes among other calls: when all calls have returned, and at
   least one was a flush, the directory opens again after closing, at a height between that at the start and that at the end, with
   every block below it as it was.  Missing from the full claim: the height reached may be smaller than when a flush was called. *)
Lemma p_C77_flushes_reopen_partial : forall ok p n t calls sch s ts,
  reachable ok p n t -> few n -> In FFlush calls ->
  flush_exec sch t calls = (s, ts) -> (forall th, In th ts -> finished th = true) ->
  exists t', t_new (t_close (sh_tree s)) = Ok t' /\
    mc_get_height (t_main t) <= mc_get_height (t_main t') <= mc_get_height (t_main (sh_tree s)) /\
    (forall i, i < mc_get_height (t_main t') ->
       mc_find_raw_by_height i (t_main t') = mc_find_raw_by_height i (t_main (sh_tree s)) /\
       mc_find_raw_by_height i (t_main t') <> None).
Proof.
  intros ok p n t calls sch s ts Hr Hn Hin E Hfin. destruct (reachable_crash _ _ _ _ Hr Hn) as (L & HL & Hlen & HC). unfold few in Hn.
  pose proof (mi_height _ _ (ti_main _ _ HL)) as Hh.
  assert (B : base_inv s ts). { eapply (exec_inv flush_step base_inv base_step); [|exact E]. apply (base_start t L); [exact HL|lia]. }
  assert (C : cfg_inv (mc_height (t_main t)) BEGINNING_DIFFICULTY s ts).
  { eapply (exec_inv flush_step _ (fun s ts k th s' th' => cfg_step (mc_height (t_main t)) BEGINNING_DIFFICULTY s ts k th s' th' eq_refl)); [|exact E]. split.
    - apply (ti_diff _ _ HL).
    - change (mainof (MkShared t false)) with (t_main t). lia.
    - intros (th & Hi & Hop). apply in_map_iff in Hi as ([c|] & <- & _); discriminate Hop.
    - intros h Hi. apply in_map_iff in Hi as ([c|] & Hc & _); discriminate Hc.
    - left. exists FOpen. split; [apply in_map_iff; exists FFlush; auto|reflexivity].
    - left. exists FOpen. split; [apply in_map_iff; exists FFlush; auto|reflexivity]. }
  destruct C as [C1 C2 _ _ C5 C6].
  destruct C5 as [(th & Hi & Hx)|(h & Hb & Hf)]; [specialize (Hfin th Hi); destruct th; discriminate|].
  destruct C6 as [(th & Hi & Hx)|Ht]; [specialize (Hfin th Hi); destruct th; discriminate|].
  assert (Hc : file_bytes (mc_cfg (mainof s)) = height_key h ++ BEGINNING_DIFFICULTY) by (rewrite <- (firstn_skipn 32 (file_bytes _)), Hf, Ht; reflexivity).
  assert (H0 : 0 < mc_height (t_main t)). { pose proof (tree_inv_ne _ _ HL). destruct L; [contradiction|]. cbn [length] in Hh. lia. }
  destruct B as [_ (K1 & K2 & _)]. change (t_main (sh_tree s)) with (mainof s).
  unfold t_new. cbn [t_close k_main].
  rewrite (mc_new_settled (mc_close (t_main (sh_tree s))) h BEGINNING_DIFFICULTY); [|cbn [mc_close md_cfg]; unfold file_settle, file_cur; cbn [f_pend f_dur last]; apply settle_cfg; [exact Hc|apply key_ne]|lia|reflexivity].
  cbn [bind]. eexists. split; [reflexivity|]. unfold mc_get_height. cbn [t_main mc_height mc_blocks mc_close md_blocks].
  split; [exact Hb|]. intros i Hi. unfold mc_find_raw_by_height. cbn [mc_height mc_blocks mc_close md_blocks].
  destruct (N.ltb_spec h i); [lia|]. destruct (N.ltb_spec (mc_height (mainof s)) i); [lia|].
  change (t_main (sh_tree s)) with (mainof s). rewrite (sled_get_cur _ (sled_flush (mc_blocks (mainof s))) (mc_blocks (mainof s)) eq_refl).
  split; [reflexivity|apply K2; lia].
Qed.
Definition flush_block : block := emitted Debug fresh emit_good.
(*@E
(** One block is being added while a flush runs; the flush saves it when it comes between, and the crash that loses all unflushed
    writes does not matter. *)
Example C77_ex_alone : snd (flush_exec (repeat 0%nat 7) fresh [FFlush]) = [FDone].
Proof. vm_compute. reflexivity. Qed.
Example C77_ex_single :
  let calls := [FFlush; FCall (CAddBlock flush_block)] in
  let height_after sch := match t_new (t_crash (svs 0 0 0 0 0 0) (t_settle (sh_tree (fst (flush_exec sch fresh calls))))) with
    | Ok t' => mc_get_height (t_main t') | _ => 0 end in
  only_flush 0 calls /\
  map height_after [[0; 1; 1; 1; 1; 0; 0; 0; 0; 0; 0]; [0; 0; 1; 1; 1; 1; 0; 0; 0; 0; 0]]%nat = [2; 1] /\
  snd (flush_exec [0; 1; 1; 1; 1; 0; 0; 0; 0; 0; 0]%nat fresh calls) = [FDone; FTh (TDone (CAddBlock flush_block) (Ok CRUnit))].
Proof. cbn zeta. split; [split; [reflexivity|intros [|[|j]] Hj; [contradiction|discriminate|destruct j; discriminate]]|]. split; vm_compute; reflexivity. Qed.
@*)

(*@T C77.  Two flushes at once: the second is called when the chain has two blocks and returns; when the first has returned
   too, the directory is that of a chain with one block, and the block added before the second flush was called is gone. *)
Lemma p_C77_flush_saves_refuted : exists t b sch1 sch2,
  let calls := [FFlush; FFlush; FCall (CAddBlock b)] in
  reachable any_op Debug 0 t /\
  (let '(s1, ts1) := flush_exec sch1 t calls in
   ts1 = [FWriteHeight 1; FOpen; FTh (TDone (CAddBlock b) (Ok CRUnit))] /\ mc_get_height (t_main (sh_tree s1)) = 2 /\
   (let '(s2, ts2) := exec flush_step sch2 (s1, ts1) in
    ts2 = [FDone; FDone; FTh (TDone (CAddBlock b) (Ok CRUnit))] /\ mc_get_height (t_main (sh_tree s2)) = 2 /\
    exists t', t_new (t_close (sh_tree s2)) = Ok t' /\ mc_get_height (t_main t') = 1 /\
      (exists b', snd (mc_add_block b' (t_main t')) = Ok tt /\ b' <> b /\
         mc_find_raw_by_height 1 (fst (mc_add_block b' (t_main t'))) = Some (block_dump b')))).
Proof.
  exists fresh, flush_block, [0; 0; 2; 2; 2; 2]%nat, (repeat 1 7 ++ repeat 0 5)%nat. cbn zeta.
  split; [apply reach_open; vm_compute; reflexivity|].
  destruct (flush_exec _ _ _) as [s1 ts1] eqn:E1. destruct (exec flush_step _ (s1, ts1)) as [s2 ts2] eqn:E2.
  vm_compute in E1. injection E1 as <- <-. split; [vm_compute; reflexivity|]. split; [vm_compute; reflexivity|].
  vm_compute in E2. injection E2 as <- <-. split; [vm_compute; reflexivity|]. split; [vm_compute; reflexivity|].
  destruct (t_new _) as [t'| | |] eqn:E3; [|vm_compute in E3; discriminate E3..]. vm_compute in E3. injection E3 as <-.
  eexists. split; [reflexivity|]. split; [vm_compute; reflexivity|].
  exists (emitted Debug fresh (OEmitMain (repeat 3 32) addrA [txh] 1597926000)).
  split; [vm_compute; reflexivity|]. split; [vm_compute; discriminate|vm_compute; reflexivity].
Qed.
