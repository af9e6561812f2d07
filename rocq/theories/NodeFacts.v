(** The abstract node simulates the code: lemmas about NodeSpec.v. *)
From Coq Require Import Lia ZifyBool ZifyNat ZifyN.
From Verif Require Import Base Sha256 Merkle Tools Transaction Block Sled Chain Tree Spec Reach LedgerSpec NodeSpec.
From Verif Require Import BaseFacts ToolsFacts MerkleFacts DiffFacts CodecFacts SledFacts ChainFacts TreeFacts LedgerFacts DerivFacts.

Local Strategy 1000 [sha256 block_dump tx_dump mroot build_tree block_hash to_be].

Lemma ok_inj {A} (x y : A) : Ok x = Ok y -> x = y.
Proof. congruence. Qed.

(** ** Accounts *)
Definition encl (l : accounts) : smap := map (fun e => (fst e, led_encode (snd e))) l.
Definition fits (l : accounts) : Prop := Forall (fun e => u256_ok (snd e)) l.

Lemma encl_get w l : sm_get w (encl l) = option_map led_encode (entry w l).
Proof.
  unfold entry. induction l as [|[k x] l IH]; cbn [encl map sm_get find fst snd]; [reflexivity|].
  destruct (bytes_eqb w k); [reflexivity|exact IH].
Qed.
Lemma encl_put w x l : sm_insert w (led_encode x) (encl l) = encl (put w x l).
Proof.
  induction l as [|[k y] l IH]; cbn [encl map sm_insert put fst snd]; [reflexivity|].
  destruct (bytes_cmp w k); cbn [map fst snd]; [reflexivity..|]. f_equal. exact IH.
Qed.
Lemma fits_put w x l : fits l -> u256_ok x -> fits (put w x l).
Proof.
  intros H Hx. induction H as [|[k y] l Hy H IH]; cbn [put fst]; [constructor; [exact Hx|constructor]|].
  destruct (bytes_cmp w k); constructor; try assumption. constructor; assumption.
Qed.
Lemma fits_entry w l x : fits l -> entry w l = Some x -> u256_ok x.
Proof.
  intros H. unfold entry. destruct (find _ l) as [e|] eqn:E; [|discriminate]. cbn. intros X. injection X as <-.
  apply find_some in E as [E _]. unfold fits in H. rewrite Forall_forall in H. apply H, E.
Qed.
Lemma fits_held w l : fits l -> u256_ok (held w l).
Proof. intros H. unfold held. destruct (entry w l) eqn:E; [eapply fits_entry; eassumption|reflexivity]. Qed.

(** The database [s] holds the accounts [l]. *)
Definition holds (s : sled) (l : accounts) : Prop := cur s = encl l /\ fits l.
Lemma holds_empty : holds sled_empty [].
Proof. split; [reflexivity|constructor]. Qed.
Lemma holds_get s l w : holds s l -> led_get w s = Ok (held w l).
Proof.
  intros [E F]. unfold led_get, sled_get, held. rewrite E, encl_get. destruct (entry w l) as [x|] eqn:X; cbn [option_map]; [|reflexivity].
  apply led_decode_encode. eapply fits_entry; eassumption.
Qed.
Lemma holds_commit1 s l w x : holds s l -> u256_ok x -> holds (sled_commit [(w, led_encode x)] s) (put w x l).
Proof.
  intros [E F] Hx. split; [|apply fits_put; assumption].
  unfold sled_commit. cbn [cur]. rewrite apply_batch_cons, apply_batch_nil, E. apply encl_put.
Qed.
Lemma holds_commit2 s l w x w2 x2 : holds s l -> u256_ok x -> u256_ok x2 ->
  holds (sled_commit [(w, led_encode x); (w2, led_encode x2)] s) (put w2 x2 (put w x l)).
Proof.
  intros [E F] Hx Hx2. split; [|apply fits_put; [apply fits_put|]; assumption].
  unfold sled_commit. cbn [cur]. rewrite !apply_batch_cons, apply_batch_nil, E, !encl_put. reflexivity.
Qed.
Lemma holds_flush s l : holds s l -> holds (sled_flush s) l.
Proof. intros [E F]. split; [exact E|exact F]. Qed.

(** A call on one database does what [f] does to the accounts. *)
Definition does (call : sled -> sled * out unit) (f : accounts -> option accounts) : Prop :=
  forall s l, holds s l -> match f l with Some l' => exists s', call s = (s', Ok tt) /\ holds s' l' | None => call s = (s, Panic) end.
Lemma does_add w a : does (led_add w a) (give w a).
Proof.
  intros s l H. unfold give, led_add. rewrite (holds_get s l) by exact H. cbn [bind]. unfold u256_add.
  destruct (N.ltb_spec (held w l + a) (2 ^ 256)); cbn [bind led_tx]; [|reflexivity].
  eexists. split; [reflexivity|]. apply holds_commit1; assumption.
Qed.
Lemma does_set w a : u256_ok a -> does (led_set w a) (fun l => Some (put w a l)).
Proof. intros Ha s l H. eexists. split; [reflexivity|]. apply holds_commit1; assumption. Qed.
Lemma does_sub w a : does (led_sub w a) (take w a).
Proof.
  intros s l H. unfold take, led_sub. rewrite (holds_get s l) by exact H. cbn [bind]. pose proof (fits_held w l (proj2 H)) as F.
  unfold u256_sub. rewrite N.leb_antisym. destruct (N.ltb_spec (held w l) a); cbn [bind led_tx negb]; [reflexivity|].
  eexists. split; [reflexivity|]. apply holds_commit1; [exact H|]. unfold u256_ok in *. lia.
Qed.
Lemma does_send x y a : does (led_send x y a) (move x y a).
Proof.
  intros s l H. unfold move, led_send. rewrite !(holds_get s l) by exact H. cbn [bind]. pose proof (fits_held x l (proj2 H)) as F.
  unfold u256_sub, u256_add. rewrite N.leb_antisym. destruct (N.ltb_spec (held x l) a); cbn [bind led_tx negb andb]; [reflexivity|].
  destruct (N.ltb_spec (held y l + a) (2 ^ 256)); cbn [bind led_tx]; [|reflexivity].
  eexists. split; [reflexivity|]. apply holds_commit2; [exact H| |]; unfold u256_ok in *; lia.
Qed.

(** ** Roots, difficulties *)
Lemma size_height n : height_for n (N.size_nat (N.of_nat n)).
Proof.
  rewrite <- (Nnat.Nat2N.id (N.size_nat _)). destruct (N.eq_dec (N.of_nat n) 0) as [E|E].
  - rewrite E. cbn. assert (n = 0)%nat by lia. subst n. split; [cbn; lia|left; reflexivity].
  - assert (S : N.of_nat (N.size_nat (N.of_nat n)) = N.size (N.of_nat n)).
    { destruct (N.of_nat n); [reflexivity|]. cbn. clear. induction p; cbn; lia. }
    rewrite S. rewrite (N.size_log2 _ E). destruct (N.log2_spec (N.of_nat n)) as [L1 L2]; [lia|].
    unfold height_for. set (k := N.log2 (N.of_nat n)) in *.
    assert (P : forall a : nat, N.of_nat (2 ^ a) = 2 ^ N.of_nat a).
    { clear. induction a; [reflexivity|]. cbn [Nat.pow]. rewrite Nnat.Nat2N.inj_succ, N.pow_succ_r'. lia. }
    split; [|right].
    + apply Nat.compare_lt_iff. rewrite Nnat.Nat2N.inj_compare. apply N.compare_lt_iff. rewrite P, Nnat.N2Nat.id. exact L2.
    + replace (N.to_nat (N.succ k) - 1)%nat with (N.to_nat k) by lia.
      apply Nat.compare_le_iff. rewrite Nnat.Nat2N.inj_compare. apply N.compare_le_iff. rewrite P, Nnat.N2Nat.id. exact L1.
Qed.
Lemma root_of_mroot items : root_of items = mroot items.
Proof. apply mroot_iff. exists (N.size_nat (N.of_nat (length items))). split; [apply size_height|reflexivity]. Qed.
Lemma root_of_nil : root_of [] = ff32.
Proof. rewrite root_of_mroot. apply mroot_nil. Qed.

Lemma first_is_genesis : first_block = genesis.
Proof. unfold first_block, genesis, genesis_info. rewrite root_of_mroot. reflexivity. Qed.

Lemma target_sweep : forallb (fun d => forallb (fun p => forallb (fun c =>
  out_eqb (retarget p c d) (to_be 32 (next_target c (be_val d)))) [Eq; Lt; Gt]) [Debug; Release]) domain = true.
Proof. vm_compute. reflexivity. Qed.
Lemma target_ok p c d : In d domain -> retarget p c d = Ok (to_be 32 (next_target c (be_val d))).
Proof.
  intros H. pose proof target_sweep as S. rewrite forallb_forall in S. specialize (S d H). rewrite forallb_forall in S.
  specialize (S p (profile_in p)). rewrite forallb_forall in S. apply out_eqb_eq, S. destruct c; cbn; auto.
Qed.
Lemma recalc_target p a b d : In d domain -> u64_ok a -> recalculate_difficulty p a b d =
  match seconds p a b with None => Panic | Some s => Ok (to_be 32 (next_target (s ?= 600) (be_val d))) end.
Proof.
  intros H Ha. rewrite recalc_retarget. unfold u64_sub, seconds. destruct (N.leb_spec a b); cbn [bind]; [apply target_ok, H|].
  destruct p; cbn [bind]; [reflexivity|]. unfold u64_ok in Ha. rewrite N.mod_small by lia. apply target_ok, H.
Qed.
Lemma target_domain (p : profile) c d : In d domain -> In (to_be 32 (next_target c (be_val d))) domain.
Proof.
  intros H. destruct (domain_step p c d H) as (d' & E & H'). rewrite (target_ok p c d H) in E. apply ok_inj in E. rewrite E. exact H'.
Qed.
Lemma work_bool h d root pow : bytes_ok d ->
  (count_leading_zeros d <=? count_leading_zeros (sha256 (h ++ root ++ pow))) = enough_work h d root pow.
Proof. intros H. unfold enough_work. rewrite !clz_spec; [reflexivity|apply sha256_array|exact H]. Qed.
Lemma reachable_domain p d : difficulty_reachable p d -> In d domain.
Proof.
  induction 1 as [|d d' a b _ IH E]; [exact beginning_domain|].
  destruct (recalc_domain p a b d IH) as [(x & E1 & H)|(_ & _ & E1)]; rewrite E in E1; [|discriminate]. injection E1 as ->. exact H.
Qed.

(** ** Lookups by hash *)
Lemma find_snoc {A} (f : A -> bool) l x : find f (rev (l ++ [x])) = if f x then Some x else find f (rev l).
Proof. rewrite rev_app_distr. reflexivity. Qed.
Lemma by_hash_snoc h l b : block_by_hash h (l ++ [b]) = if bytes_eqb h (block_hash b) then Some b else block_by_hash h l.
Proof. exact (find_snoc (fun b => bytes_eqb h (block_hash b)) l b). Qed.
Lemma by_hash_in h l b : block_by_hash h l = Some b -> In b l /\ block_hash b = h.
Proof.
  intros H. apply find_some in H as [H1 H2]. split; [apply in_rev, H1|]. apply bytes_eqb_eq in H2. congruence.
Qed.
Definition refs_of (l : list block) (h : bytes) : option bytes :=
  option_map (fun b => height_key (bi_height (get_info b))) (block_by_hash h l).

(** ** Derivative chains *)
Definition sides (B : list basic_info) : list block := map DerivBlock B.
Record shows (bs rs : sled) (B : list basic_info) : Prop := {
  sh_blocks : forall i, i < 2 ^ 256 -> sled_get (height_key i) bs = option_map block_dump (nthN (sides B) i);
  sh_refs : forall h, sled_get h rs = refs_of (sides B) h;
  sh_heights : forall i b, nthN (sides B) i = Some b -> bi_height (get_info b) = i;
  sh_wf : Forall info_wf B;
  sh_domain : Forall (fun x => In (bi_difficulty x) domain) B
}.
Record rep (c : deriv_chain) (s : side_chain) : Prop := {
  rp_height : dc_height c = N.of_nat (length (snd s));
  rp_genesis : dc_genesis c = fst s;
  rp_array : is_array 32 (fst s);
  rp_diff : dc_difficulty c = BEGINNING_DIFFICULTY;
  rp_shows : shows (dc_blocks c) (dc_refs c) (snd s)
}.
Record rep_disk (d : deriv_disk) (s : side_chain) : Prop := {
  rd_cfg : file_cur (dd_cfg d) = Some (height_key (N.of_nat (length (snd s))) ++ BEGINNING_DIFFICULTY ++ fst s);
  rd_array : is_array 32 (fst s);
  rd_shows : shows (dd_blocks d) (dd_refs d) (snd s)
}.

Lemma sides_length B : length (sides B) = length B.
Proof. apply map_length. Qed.
Lemma sides_snoc B x : sides (B ++ [x]) = sides B ++ [DerivBlock x].
Proof. apply map_app. Qed.
Lemma sides_in B b : In b (sides B) -> exists x, In x B /\ b = DerivBlock x.
Proof. intros H. apply in_map_iff in H as (x & <- & H). eauto. Qed.

Lemma shows_nil : shows sled_empty sled_empty [].
Proof.
  split; [|reflexivity| |constructor..].
  - intros i _. rewrite nthN_none by (cbn; lia). reflexivity.
  - intros i b H. rewrite nthN_none in H by (cbn; lia). discriminate.
Qed.
Lemma rep_new h : is_array 32 h -> rep (MkDeriv sled_empty sled_empty 0 h BEGINNING_DIFFICULTY file_absent) (h, []).
Proof. intros H. split; try reflexivity; [exact H|exact shows_nil]. Qed.

Lemma rep_appended c s i : rep c s -> bi_height i = dc_height c -> dc_height c + 1 < 2 ^ 256 -> info_wf i -> In (bi_difficulty i) domain ->
  rep (dc_appended i c) (fst s, snd s ++ [i]).
Proof.
  intros [H1 H2 H3 H4 [S1 S2 S3 S4 S5]] Hi Hb Hw Hd. split; cbn [dc_appended dc_height dc_genesis dc_difficulty dc_blocks dc_refs fst snd];
    [rewrite app_length; cbn [length]; lia|exact H2|exact H3|exact H4|].
  split.
  - intros j Hj. rewrite sled_get_insert, height_key_eqb by lia. rewrite sides_snoc.
    destruct (N.eqb_spec j (dc_height c)) as [->|Hne].
    + rewrite H1, <- sides_length, nthN_snoc. reflexivity.
    + rewrite S1 by exact Hj. destruct (N.lt_ge_cases j (N.of_nat (length (sides (snd s))))) as [Hc|Hc].
      * rewrite nthN_app1 by exact Hc. reflexivity.
      * rewrite sides_length in Hc. rewrite nthN_none, nthN_snoc_gt by (rewrite sides_length; lia). reflexivity.
  - intros h. rewrite sled_get_insert. unfold refs_of. rewrite sides_snoc, by_hash_snoc.
    destruct (bytes_eqb h (block_hash (DerivBlock i))); [cbn [option_map get_info]; rewrite Hi; reflexivity|apply S2].
  - intros j x Hx. rewrite sides_snoc in Hx. destruct (N.lt_trichotomy j (N.of_nat (length (sides (snd s))))) as [Hc|[Hc|Hc]].
    + rewrite nthN_app1 in Hx by exact Hc. apply S3, Hx.
    + subst j. rewrite nthN_snoc in Hx. injection Hx as <-. rewrite sides_length. cbn [get_info]. lia.
    + rewrite nthN_snoc_gt in Hx by exact Hc. discriminate.
  - apply Forall_app. split; [exact S4|]. constructor; [exact Hw|constructor].
  - apply Forall_app. split; [exact S5|]. constructor; [exact Hd|constructor].
Qed.

Lemma rep_ext c c' s : rep c s -> dc_height c' = dc_height c -> dc_genesis c' = dc_genesis c -> dc_difficulty c' = dc_difficulty c ->
  cur (dc_blocks c') = cur (dc_blocks c) -> cur (dc_refs c') = cur (dc_refs c) -> rep c' s.
Proof.
  intros [H1 H2 H3 H4 [S1 S2 S3 S4 S5]] E1 E2 E3 E4 E5. split; [congruence|congruence|exact H3|congruence|].
  split; [intros i Hi|intros h|exact S3|exact S4|exact S5]; unfold sled_get; [rewrite E4; apply S1, Hi|rewrite E5; apply S2].
Qed.
Lemma rep_flush c s : rep c s -> rep (dc_flush c) s.
Proof. intros H. apply (rep_ext c); [exact H|reflexivity..]. Qed.
Lemma rep_close c s : rep c s -> rep_disk (dc_close (dc_flush c)) s.
Proof.
  intros [H1 H2 H3 H4 [S1 S2 S3 S4 S5]]. split; [|exact H3|split; [exact S1|exact S2|exact S3|exact S4|exact S5]].
  cbn [dc_close dd_cfg]. rewrite file_cur_settle, dc_cfg_flush, H1, H2, H4. reflexivity.
Qed.
Lemma begin_array : is_array 32 BEGINNING_DIFFICULTY.
Proof. split; [reflexivity|repeat constructor; reflexivity]. Qed.
Lemma rep_opened d s h : rep_disk d s -> N.of_nat (length (snd s)) < 2 ^ 256 -> exists c, dc_new d h = Ok c /\ rep c s.
Proof.
  intros [H1 H2 H3] Hn. eexists. split; [apply (dc_new_cfg d h (N.of_nat (length (snd s))) BEGINNING_DIFFICULTY (fst s)); try assumption; exact begin_array|].
  split; try reflexivity; [exact H2|exact H3].
Qed.

(** Reading a derivative chain. *)
Lemma rep_raw c s i : rep c s -> N.of_nat (length (snd s)) < 2 ^ 256 -> dc_find_raw_by_height i c = option_map block_dump (nthN (sides (snd s)) i).
Proof.
  intros H Hn. unfold dc_find_raw_by_height. rewrite (rp_height _ _ H). destruct (N.ltb_spec (N.of_nat (length (snd s))) i).
  - rewrite nthN_none by (rewrite sides_length; lia). reflexivity.
  - apply (sh_blocks _ _ _ (rp_shows _ _ H)). lia.
Qed.
Lemma rep_dec c s o : rep c s -> (forall b, o = Some b -> In b (sides (snd s))) -> dc_decode (option_map block_dump o) = Ok o.
Proof.
  intros H Ho. destruct o as [b|]; [|reflexivity]. destruct (sides_in _ _ (Ho b eq_refl)) as (x & Hx & ->). cbn [option_map].
  apply dc_decode_dump. pose proof (sh_wf _ _ _ (rp_shows _ _ H)) as W. rewrite Forall_forall in W. apply W, Hx.
Qed.
Lemma rep_hash c s h : rep c s -> N.of_nat (length (snd s)) < 2 ^ 256 -> dc_find_raw_by_hash h c = Ok (option_map block_dump (block_by_hash h (sides (snd s)))).
Proof.
  intros H Hn. unfold dc_find_raw_by_hash. rewrite (sh_refs _ _ _ (rp_shows _ _ H)). unfold refs_of.
  destruct (block_by_hash h (sides (snd s))) as [b|] eqn:E; cbn [option_map]; [|reflexivity].
  rewrite height_key_length. cbn [Nat.ltb Nat.leb]. apply by_hash_in in E as [E _]. apply In_nth_error in E as (k & E).
  assert (E' : nthN (sides (snd s)) (N.of_nat k) = Some b) by (unfold nthN; rewrite Nnat.Nat2N.id; exact E).
  rewrite (sh_heights _ _ _ (rp_shows _ _ H) _ _ E'). pose proof (nthN_some _ _ _ E') as Hk. rewrite sides_length in Hk.
  rewrite from_height_key by lia. rewrite (rep_raw c s) by assumption. rewrite E'. reflexivity.
Qed.
Lemma rep_answers c s : rep c s -> N.of_nat (length (snd s)) < 2 ^ 256 -> chain_answers c s.
Proof.
  intros H Hn. unfold chain_answers. fold (sides (snd s)). cbv zeta.
  assert (Hdec : forall i, dc_decode (option_map block_dump (nthN (sides (snd s)) i)) = Ok (nthN (sides (snd s)) i)).
  { intros i. apply (rep_dec c s); [exact H|]. intros b Hb. eapply nthN_in, Hb. }
  split; [unfold dc_get_height; rewrite sides_length; apply H|]. split; [apply H|]. split; [apply H|].
  split; [|split; [|split]].
  - intros i. unfold dc_find_by_height. rewrite (rep_raw c s) by assumption. split; [reflexivity|apply Hdec].
  - intros h. unfold dc_find_by_hash. rewrite (rep_hash c s) by assumption. split; [reflexivity|]. cbn [bind].
    apply (rep_dec c s); [exact H|]. intros b Hb. apply by_hash_in in Hb. apply Hb.
  - unfold dc_get_last_raw_block. rewrite (rp_height _ _ H), sides_length.
    destruct (N.eqb_spec (N.of_nat (length (snd s))) 0) as [E|E].
    + destruct (snd s); [reflexivity|cbn in E; lia].
    + unfold u256_sub. destruct (N.leb_spec 1 (N.of_nat (length (snd s)))); [|lia]. cbn [bind].
      rewrite (rep_raw c s) by assumption. unfold nthN. repeat f_equal. lia.
  - unfold dc_get_last_block, dc_get_last_raw_block. rewrite (rp_height _ _ H), sides_length.
    destruct (N.eqb_spec (N.of_nat (length (snd s))) 0) as [E|E].
    + destruct (snd s); [reflexivity|cbn in E; lia].
    + unfold u256_sub. destruct (N.leb_spec 1 (N.of_nat (length (snd s)))); [|lia]. cbn [bind].
      rewrite (rep_raw c s) by assumption. rewrite Hdec. unfold nthN. repeat f_equal. lia.
Qed.
