(** Proofs of the statements in P_Pow.v. *)
From Coq Require Import Lia ZifyBool ZifyNat ZifyN.
From Verif Require Import Base Sha256 Merkle Tools Spec Reach.
From Verif Require Import BaseFacts ToolsFacts MerkleFacts DiffFacts.

(** ** Merkle trees *)

(*@T C18.  [build_tree] and [get_root] succeed (no out-of-bounds access, no endless
    loop) and the root is the one of the specification, which is unique. *)
Lemma p_C18_build_tree : forall items : list bytes,
  (exists t root, build_tree items = Ok t /\ get_root t = Ok root /\ merkle_root_of items root) /\
  (forall r r', merkle_root_of items r -> merkle_root_of items r' -> r = r').
Proof. intros items. split; [apply build_tree_root|apply merkle_root_of_unique]. Qed.
(*@E
Definition leafA : bytes := repeat 0xA5 32.
Definition leafB : bytes := repeat 0x3C 32.
Definition leafC : bytes := repeat 0x77 32.
Example C18_ex : merkle_root_of [leafA; leafB; leafC]
  (node (node leafA leafB) (node leafC ff32)).
Proof. exists 2%nat. split; [split; [|right]; cbn; auto with arith|reflexivity]. Qed.
Example C18_ex_empty : merkle_root_of [] ff32.
Proof. exists 0%nat. split; [split; [|left]; auto with arith|reflexivity]. Qed.
@*)

(*@T C19 *)
Lemma p_C19_proof_complete : forall items t h,
  build_tree items = Ok t -> In h items ->
  exists proof root, get_proof t h = Ok (proof ++ [root]) /\ get_root t = Ok root /\
    length (proof ++ [root]) = mt_depth t /\ verify_proof h root proof = Ok true.
Proof. exact get_proof_complete. Qed.
(*@T C19, safety: for any queried value [get_proof] stays in bounds and returns depth
    entries; [verify_proof] panics exactly on the empty proof. *)
Lemma p_C19_proof_safe :
  (forall items t h, build_tree items = Ok t ->
     exists proof, get_proof t h = Ok proof /\ length proof = mt_depth t) /\
  (forall h root proof, verify_proof h root proof = Panic <-> proof = []) /\
  (forall h root proof, proof <> [] ->
     verify_proof h root proof = Ok true <-> climb_proof h proof = root).
Proof.
  split; [exact get_proof_safe|]. split.
  - intros h root [|p0 t]; cbn; split; intros E; try reflexivity; try discriminate.
  - intros h root proof H. rewrite verify_proof_eq by exact H. rewrite fold_proof_climb. split.
    + intros E. injection E as E. apply bytes_eqb_eq in E. auto.
    + intros <-. rewrite bytes_eqb_refl. reflexivity.
Qed.
(*@E
Example C19_ex : exists t, build_tree [leafA; leafB; leafC] = Ok t /\
  get_proof t leafC = Ok [ff32; node leafA leafB; node (node leafA leafB) (node leafC ff32)] /\
  mt_depth t = 3%nat.
Proof. eexists. split; [vm_compute; reflexivity|]. split; [vm_compute; reflexivity|reflexivity]. Qed.
@*)

(*@T C20, what holds: if a proof obtained from a tree also verifies for a value [x]
    that is not in it, then on the way up two different values have the same AND with
    the sibling, or SHA-256 collides.  (The first case is easy to bring about, see below.) *)
Lemma p_C20_proof_sound_partial : forall items t h x proof root,
  build_tree items = Ok t -> items <> [] -> get_proof t h = Ok (proof ++ [root]) ->
  ~ In x items -> verify_proof x root proof = Ok true ->
  exists y, In y items /\ exists pre q suf, proof = pre ++ q :: suf /\
    let u := climb_proof x pre in let v := climb_proof y pre in
    u <> v /\ (band u q = band v q \/ collision (band u q) (band v q)).
Proof.
  intros items t h x proof root Hb Hne Hg Hx Hv.
  destruct (build_tree_inv items) as (t' & k & Hb' & Hi). rewrite Hb in Hb'. injection Hb' as <-.
  destruct (get_proof_eq items t k h Hi Hne) as (j & Hj & Hg' & Hn & _).
  rewrite Hg in Hg'. assert (E : proof ++ [root] = path (mt_array t) k (2 ^ k - 1 + j) ++ [nth 0 (mt_array t) []]) by congruence.
  apply app_inj_tail in E as [-> ->].
  exists (nth j items []). split; [apply nth_In; exact Hj|].
  apply climb_proof_inj.
  - intros ->. apply Hx, nth_In, Hj.
  - destruct (path (mt_array t) k (2 ^ k - 1 + j)) as [|p0 pt] eqn:Ep; [discriminate Hv|].
    rewrite <- Ep in *. clear Hg'.
    rewrite verify_proof_eq in Hv by (rewrite Ep; discriminate).
    injection Hv as Hv. apply bytes_eqb_eq in Hv. rewrite <- !fold_proof_climb, <- Hv, <- Hn.
    pose proof (pow2_pos k).
    symmetry. destruct Hi as [[Hh1 Hh2] Hd Hin Hl Hc Hlv]. apply (fold_path _ (2 ^ k)); [exact Hc|red; lia|lia].
Qed.
(*@T C20 is false of the code: the proof of an item of a two-item tree also verifies
    for a value that is not in it. *)
Lemma p_C20_proof_sound_refuted : exists items t h x proof root,
  build_tree items = Ok t /\ In h items /\ get_proof t h = Ok (proof ++ [root]) /\
  ~ In x items /\ Forall (is_array 32) (x :: items) /\ verify_proof x root proof = Ok true.
Proof.
  exists [repeat 1 32; repeat 2 32]. eexists. exists (repeat 1 32), (repeat 5 32). eexists. eexists.
  split; [vm_compute; reflexivity|]. split; [left; reflexivity|].
  split; [vm_compute; instantiate (2 := [_; _]); reflexivity|].
  split; [intros [E|[E|[]]]; discriminate E|].
  split; [repeat constructor; reflexivity|vm_compute; reflexivity].
Qed.

Lemma and_tree_deep k : forall j L L', length L = (2 ^ k)%nat -> last L [] = ff32 ->
  and_tree k L = and_tree (k + S j) L' ->
  (exists l r l' r', In (l, r) (children k L) /\ In (l', r') (children (k + S j) L') /\ (l, r) <> (l', r') /\
    (band l r = band l' r' \/ collision (band l r) (band l' r'))) \/
  exists l r, In (l, r) (children (k + S j) L') /\ sha256 (band l r) = ff32.
Proof.
  induction k as [|k IH]; intros j L L' Hl Hf H.
  - right. cbn [Nat.pow] in Hl. destruct L as [|x [|? ?]]; try discriminate Hl. cbn [last] in Hf. cbn [plus and_tree hd] in H. cbn [plus children].
    eexists _, _. split; [left; reflexivity|]. unfold node in H. congruence.
  - cbn [plus]. cbn [plus and_tree] in H. cbn [children]. cbn [Nat.pow] in Hl.
    set (l := firstn (2 ^ k) L) in *. set (r := skipn (2 ^ k) L) in *.
    set (l' := firstn (2 ^ (k + S j)) L') in *. set (r' := skipn (2 ^ (k + S j)) L') in *.
    destruct (bytes_eq_dec (and_tree k l) (and_tree (k + S j) l')) as [El|El]; [destruct (bytes_eq_dec (and_tree k r) (and_tree (k + S j) r')) as [Er|Er]|].
    + destruct (IH j r r') as [(a & b & c & d & Ha & Hb & Hc)|(a & b & Ha & Hb)].
      * unfold r. rewrite skipn_length. lia.
      * unfold r. pose proof (pow2_pos k). assert (Hne : skipn (2 ^ k) L <> []) by (intros E; pose proof (f_equal (@length bytes) E) as E'; rewrite skipn_length in E'; cbn [length] in E'; lia).
        destruct (exists_last Hne) as (z & y & Ez). rewrite Ez, last_last, <- Hf, <- (firstn_skipn (2 ^ k) L), Ez, app_assoc, last_last. reflexivity.
      * exact Er.
      * left. exists a, b, c, d. split; [right; apply in_or_app; right; exact Ha|]. split; [right; apply in_or_app; right; exact Hb|exact Hc].
      * right. exists a, b. split; [right; apply in_or_app; right; exact Ha|exact Hb].
    + left. exists (and_tree k l), (and_tree k r), (and_tree (k + S j) l'), (and_tree (k + S j) r').
      split; [left; reflexivity|]. split; [left; reflexivity|]. split; [congruence|].
      destruct (bytes_eq_dec (band (and_tree k l) (and_tree k r)) (band (and_tree (k + S j) l') (and_tree (k + S j) r'))) as [E|E]; [left; exact E|right; split; [exact E|exact H]].
    + left. exists (and_tree k l), (and_tree k r), (and_tree (k + S j) l'), (and_tree (k + S j) r').
      split; [left; reflexivity|]. split; [left; reflexivity|]. split; [congruence|].
      destruct (bytes_eq_dec (band (and_tree k l) (and_tree k r)) (band (and_tree (k + S j) l') (and_tree (k + S j) r'))) as [E|E]; [left; exact E|right; split; [exact E|exact H]].
Qed.
Lemma padded_last k items : height_for (length items) k -> last (padded k items) [] = ff32.
Proof.
  intros [H _]. unfold padded. destruct (2 ^ k - length items)%nat as [|m] eqn:E; [lia|].
  replace (S m) with (m + 1)%nat by lia. rewrite repeat_app, app_assoc. cbn [repeat]. apply last_last.
Qed.
(*@T C21, what holds: two lists with the same root are the same up to trailing 0xFF items, unless two different pairs of
    children have the same AND, SHA-256 collides on two of them, or a node of one tree is a SHA-256 preimage
    of the all-0xFF string. *)
Lemma p_C21_root_binding_partial : forall items items' k k' root,
  height_for (length items) k -> height_for (length items') k' ->
  merkle_root_of items root -> merkle_root_of items' root ->
  (k = k' /\ padded k items = padded k' items') \/
  (exists l r l' r', In (l, r) (children k (padded k items)) /\ In (l', r') (children k' (padded k' items')) /\
    (l, r) <> (l', r') /\ (band l r = band l' r' \/ collision (band l r) (band l' r'))) \/
  (exists l r, In (l, r) (children k (padded k items) ++ children k' (padded k' items')) /\ sha256 (band l r) = ff32).
Proof.
  intros items items' k k' root Hk Hk' (k1 & H1 & E1) (k2 & H2 & E2).
  rewrite (height_for_unique _ _ _ H1 Hk) in E1. rewrite (height_for_unique _ _ _ H2 Hk') in E2. rewrite E1 in E2. clear E1 H1 H2 k1 k2.
  destruct (Nat.lt_trichotomy k k') as [Hlt|[<-|Hlt]].
  - replace k' with (k + S (k' - k - 1))%nat in * by lia.
    destruct (and_tree_deep k _ _ _ (padded_length _ _ (proj1 Hk)) (padded_last _ _ Hk) E2) as [H|(l & r & H & Hs)]; [right; left; exact H|right; right].
    exists l, r. split; [apply in_or_app; right; exact H|exact Hs].
  - destruct (list_eq_dec bytes_eq_dec (padded k items) (padded k items')) as [E|E]; [left; split; [reflexivity|exact E]|right; left].
    apply and_tree_inj; [apply padded_length, Hk|apply padded_length, Hk'|exact E|exact E2].
  - replace k with (k' + S (k - k' - 1))%nat in * by lia. symmetry in E2.
    destruct (and_tree_deep k' _ _ _ (padded_length _ _ (proj1 Hk')) (padded_last _ _ Hk') E2) as [(a & b & c & d & Ha & Hb & Hc & Hd)|(l & r & H & Hs)]; right; [left|right].
    + exists c, d, a, b. split; [exact Hb|]. split; [exact Ha|]. split; [congruence|]. destruct Hd as [Hd|[Hd Hd']]; [left; congruence|right; split; congruence].
    + exists l, r. split; [apply in_or_app; left; exact H|exact Hs].
Qed.
Lemma and_tree_swap k a b L : (1 <= k)%nat -> and_tree k (a :: b :: L) = and_tree k (b :: a :: L).
Proof.
  revert L; induction k as [|k IH]; intros L Hk; [lia|]. cbn [and_tree]. destruct k as [|k].
  - cbn. apply node_comm.
  - pose proof (pow2_pos k). assert (E : (2 ^ S k = S (S (2 ^ S k - 2)))%nat) by (cbn [Nat.pow]; lia).
    rewrite E. cbn [firstn skipn]. f_equal. apply IH. lia.
Qed.
(*@T C21 is false of the code: swapping the first two transactions, or appending an
    all-0xFF item to an even number not one below a power of two, never changes the root. *)
Lemma p_C21_root_binding_refuted :
  (forall a b rest root, merkle_root_of (a :: b :: rest) root -> merkle_root_of (b :: a :: rest) root) /\
  (forall items k root, height_for (length items) k -> height_for (length items + 1) k ->
     merkle_root_of items root -> merkle_root_of (items ++ [ff32]) root) /\
  (exists a b root, [a; b] <> [b; a] /\ merkle_root_of [a; b] root /\ merkle_root_of [b; a] root).
Proof.
  assert (Hsw : forall a b rest root, merkle_root_of (a :: b :: rest) root -> merkle_root_of (b :: a :: rest) root).
  { intros a b rest root (k & Hk & ->). exists k. split; [exact Hk|]. unfold padded. cbn [app length].
    apply and_tree_swap. destruct Hk as [Hk _]. destruct k; [cbn [length Nat.pow] in Hk; lia|lia]. }
  split; [exact Hsw|]. split.
  - intros items k root Hk Hk' (k0 & H0 & ->). rewrite (height_for_unique _ _ _ H0 Hk).
    exists k. split; [rewrite app_length; exact Hk'|]. f_equal. unfold padded.
    rewrite <- app_assoc, app_length. f_equal. cbn [length]. destruct Hk' as [Hk' _].
    replace (2 ^ k - length items)%nat with (S (2 ^ k - (length items + 1))) by lia. reflexivity.
  - exists (repeat 1 32), (repeat 2 32), (mroot [repeat 1 32; repeat 2 32]).
    split; [discriminate|]. split; [apply mroot_spec|apply Hsw, mroot_spec].
Qed.
(*@E
Example C21_ex : height_for (length [leafA; leafB]) 2 /\ height_for (length [leafA; leafB; ff32]) 2 /\
  merkle_root_of [leafA; leafB] (mroot [leafA; leafB]) /\ merkle_root_of [leafA; leafB; ff32] (mroot [leafA; leafB]) /\
  mroot [leafA; leafB] <> mroot [leafA] /\ mroot [leafA; leafB] <> mroot [leafA; leafC].
Proof.
  split; [split; [|right]; cbn; auto with arith|]. split; [split; [|right]; cbn; auto with arith|]. split; [apply mroot_spec|].
  split; [replace (mroot [leafA; leafB]) with (mroot [leafA; leafB; ff32]) by (vm_compute; reflexivity); apply mroot_spec|].
  split; vm_compute; discriminate.
Qed.
@*)

(** ** Proof of work *)

(*@T C22 *)
Lemma p_C22_count_leading_zeros : forall l, bytes_ok l -> count_leading_zeros l = leading_zero_bits l.
Proof. exact clz_spec. Qed.
(*@E
Example C22_ex : leading_zero_bits [0; 0; 19; 255] = 19 /\ leading_zero_bits [0; 0] = 16 /\
  leading_zero_bits [] = 0 /\ bytes_ok [0; 0; 19; 255].
Proof. vm_compute. repeat split. repeat constructor. Qed.
@*)

(*@T C23: acceptance is decided by leading zeros only, never fails ... *)
Lemma p_C23_check_pow : forall h d txs pow root, bytes_ok d -> merkle_root_of txs root ->
  exists r, check_pow h d txs pow = Ok r /\
    (r = true <-> leading_zero_bits d <= leading_zero_bits (sha256 (h ++ root ++ pow))).
Proof.
  intros h d txs pow root Hd Hr. apply mroot_iff in Hr as ->. rewrite check_pow_eq. eexists. split; [reflexivity|].
  rewrite N.leb_le, !clz_spec by (try exact Hd; apply sha256_array). reflexivity.
Qed.
(*@T ... and is monotone in the difficulty. *)
Lemma p_C23_check_pow_monotone : forall h d d' txs pow, bytes_ok d -> bytes_ok d' ->
  leading_zero_bits d' <= leading_zero_bits d ->
  check_pow h d txs pow = Ok true -> check_pow h d' txs pow = Ok true.
Proof.
  intros h d d' txs pow Hd Hd' Hle. rewrite !check_pow_eq. intros E. injection E as E. f_equal.
  rewrite !clz_spec in * by (try assumption; apply sha256_array). lia.
Qed.
(*@E
Example C23_ex : check_pow (repeat 7 32) (127 :: repeat 255 31) [leafA] [1] = Ok true /\
  check_pow (repeat 7 32) (repeat 0 32) [leafA] [1] = Ok false.
Proof. vm_compute. auto. Qed.
@*)

Lemma mask_val m : (m <= 255)%nat -> is_array 32 (mask m) /\ be_val (mask m) = 2 ^ N.of_nat m - 1.
Proof.
  intros H. unfold mask. split; [split; [apply to_be_length|apply to_be_ok]|].
  rewrite be_val_from_be. apply from_to_be_small. change (256 ^ N.of_nat 32) with (2 ^ 256).
  assert (2 ^ N.of_nat m <= 2 ^ 255) by (apply N.pow_le_mono_r; lia).
  assert (2 ^ 255 < 2 ^ 256) by reflexivity. lia.
Qed.
Lemma mask_of d m : is_array 32 d -> (m <= 255)%nat -> be_val d = 2 ^ N.of_nat m - 1 -> d = mask m.
Proof.
  intros [Hl Hok] Hm Hv. destruct (mask_val m Hm) as [[Hl' Hok'] Hv'].
  rewrite be_val_from_be in Hv, Hv'. apply from_be_inj; congruence.
Qed.

(*@T C24 for every difficulty 2^m-1 except 0. *)
Lemma p_C24_retarget_partial : forall p prev_ts ts d m,
  prev_ts <= ts -> ts < 2 ^ 64 -> is_array 32 d -> (1 <= m <= 255)%nat -> be_val d = 2 ^ N.of_nat m - 1 ->
  exists d', recalculate_difficulty p prev_ts ts d = Ok d' /\ is_array 32 d' /\
    be_val d' = (let g := ts - prev_ts in
                 if g <? 600 then 2 ^ N.of_nat (m - 1) - 1
                 else if 600 <? g then 2 ^ N.of_nat (Nat.min 255 (m + 1)) - 1
                 else be_val d).
Proof.
  intros p a b d m Hab Hb Hd Hm Hv. pose proof (mask_of d m Hd ltac:(lia) Hv) as ->.
  rewrite recalc_retarget. unfold u64_sub. destruct (N.leb_spec a b) as [_|]; [|lia]. cbn [bind]. cbv zeta.
  destruct (N.compare_spec (b - a) 600) as [E|E|E].
  - rewrite E. exists (mask m). cbn [N.ltb N.compare Pos.compare Pos.compare_cont]. split; [reflexivity|]. split; [exact Hd|reflexivity].
  - rewrite mask_lt by lia. eexists. split; [reflexivity|].
    destruct (N.ltb_spec (b - a) 600); [|lia]. apply mask_val. lia.
  - rewrite mask_gt by lia. destruct (Nat.eqb_spec m 0); [lia|]. eexists. split; [reflexivity|].
    destruct (N.ltb_spec (b - a) 600); [lia|]. destruct (N.ltb_spec 600 (b - a)); [|lia]. apply mask_val. lia.
Qed.
(*@T C24 is false at the hardest difficulty 0: a slow block gives 2^248, not 2^1-1
    (the difficulty drops from 256 leading zeros to 7). *)
Lemma p_C24_retarget_refuted : forall p, exists d d', is_array 32 d /\ be_val d = 2 ^ 0 - 1 /\
  recalculate_difficulty p 0 601 d = Ok d' /\ be_val d' = 2 ^ 248 /\ leading_zero_bits d' = 7.
Proof.
  intros p. exists (repeat 0 32). eexists. split; [split; [reflexivity|repeat constructor; reflexivity]|].
  split; [reflexivity|]. destruct p; (split; [vm_compute; reflexivity|split; reflexivity]).
Qed.
(*@E
Example C24_ex : be_val (127 :: repeat 255 31) = 2 ^ N.of_nat 255 - 1 /\
  recalculate_difficulty Debug 1000 1100 (127 :: repeat 255 31) = Ok (63 :: repeat 255 31) /\
  recalculate_difficulty Debug 1000 1700 (127 :: repeat 255 31) = Ok (127 :: repeat 255 31) /\
  recalculate_difficulty Debug 1000 1700 (0 :: 3 :: repeat 255 30) = Ok (0 :: 7 :: repeat 255 30).
Proof. vm_compute. auto. Qed.
@*)

(*@T C25: every reachable difficulty keeps a leading zero bit, and retargeting it
    always succeeds except that a debug build panics when time goes backwards. *)
Lemma p_C25_difficulty_domain : forall p d, difficulty_reachable p d ->
  is_array 32 d /\ 1 <= leading_zero_bits d /\
  forall prev_ts ts,
    (exists d', recalculate_difficulty p prev_ts ts d = Ok d') \/
    (p = Debug /\ ts < prev_ts /\ recalculate_difficulty p prev_ts ts d = Panic).
Proof.
  intros p d H. assert (Hd : In d domain).
  { induction H as [|d d' a b _ IH E]; [exact beginning_domain|].
    destruct (recalc_domain p a b d IH) as [(d1 & E1 & H1)|(_ & _ & E1)]; rewrite E in E1; [congruence|discriminate]. }
  destruct (domain_ok d Hd) as [Ha Hz]. split; [exact Ha|].
  split; [rewrite clz_spec in Hz by apply Ha; exact Hz|].
  intros a b. destruct (recalc_domain p a b d Hd) as [(d1 & E1 & _)|E1]; [left; eauto|right; exact E1].
Qed.
(*@E
Example C25_ex : difficulty_reachable Release (63 :: repeat 255 31).
Proof.
  apply (difficulty_step Release BEGINNING_DIFFICULTY _ 1000 1100); [constructor|vm_compute; reflexivity].
Qed.
@*)
(*@T C25, outside that domain: a difficulty with its top bit set (which no reachable
    state has) makes a slow block read and write out of bounds. *)
Lemma p_C25_domain_needed : forall t, bytes_ok t ->
  recalculate_difficulty Release 0 601 (255 :: t) = UB /\
  recalculate_difficulty Debug 0 601 (255 :: t) = Panic.
Proof. split; reflexivity. Qed.

(*@T C26 *)
Lemma p_C26_fee : forall d, is_array 32 d ->
  recalculate_fee d = Ok (62500 * leading_zero_bits d) /\ 62500 * leading_zero_bits d <= 16000000.
Proof.
  intros d [Hl Hok]. rewrite <- clz_spec by exact Hok. apply fee_eq. lia.
Qed.
(*@E
Example C26_ex : recalculate_fee (0 :: 0 :: 19 :: repeat 0 29) = Ok 1187500 /\
  recalculate_fee (repeat 0 32) = Ok 16000000.
Proof. vm_compute. auto. Qed.
@*)
