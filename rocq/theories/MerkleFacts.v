(** Lemmas about Merkle.v. *)
From Coq Require Import Lia ZifyBool ZifyNat ZifyN.
From Verif Require Import Base Sha256 Merkle Spec BaseFacts.
Local Open Scope nat_scope.

Lemma sha256_array m : is_array 32 (sha256 m).
Proof.
  unfold sha256. split.
  - rewrite !app_length, !to_be_length. reflexivity.
  - rewrite !bytes_ok_app. repeat split; apply to_be_ok.
Qed.
Global Opaque sha256.

Lemma and_bytes_band a b : and_bytes a b = band a b.
Proof. revert b; induction a as [|x a IH]; intros [|y b]; cbn; try reflexivity. f_equal. apply IH. Qed.

Lemma band_comm a b : band a b = band b a.
Proof. revert b; induction a as [|x a IH]; intros [|y b]; cbn; try reflexivity. rewrite N.land_comm. f_equal. apply IH. Qed.

Lemma node_comm a b : node a b = node b a.
Proof. unfold node. rewrite band_comm. reflexivity. Qed.

(** ** Height *)

Lemma pow2_pos k : 1 <= 2 ^ k.
Proof. induction k; cbn [Nat.pow]; lia. Qed.

Lemma pow2_gt k : k < 2 ^ k.
Proof. induction k; cbn [Nat.pow]; lia. Qed.

Lemma fcp_loop_ok fuel power n : power <= n -> n - power < fuel ->
  (power = 0 \/ 2 ^ (power - 1) <= n) ->
  exists k, fcp_loop fuel (2 ^ power) power n = Ok k /\ height_for n k.
Proof.
  revert power; induction fuel as [|fuel IH]; intros power Hp Hf Hinv; [lia|].
  cbn [fcp_loop]. destruct (Nat.leb_spec (2 ^ power) n) as [H|H].
  - pose proof (pow2_gt power).
    replace (2 * 2 ^ power) with (2 ^ (power + 1)) by (rewrite Nat.add_1_r; reflexivity).
    apply IH; try lia. right. replace (power + 1 - 1) with power by lia. exact H.
  - exists power. split; [reflexivity|]. split; [exact H|exact Hinv].
Qed.

Lemma find_closest_ok n : exists k, find_closest_power_of_2 n = Ok k /\ height_for n k.
Proof.
  unfold find_closest_power_of_2. change 1 with (2 ^ 0). apply fcp_loop_ok; lia.
Qed.

Lemma pow2_mono a b : a <= b -> 2 ^ a <= 2 ^ b.
Proof. intros. apply Nat.pow_le_mono_r; lia. Qed.

Lemma height_for_unique n k k' : height_for n k -> height_for n k' -> k = k'.
Proof.
  assert (forall k k', height_for n k -> height_for n k' -> k < k' -> False) as Hlt.
  { intros a b (H1 & _) (_ & [->|H2]) Hab; [lia|].
    pose proof (pow2_mono a (b - 1) ltac:(lia)). lia. }
  intros H1 H2. destruct (Nat.lt_trichotomy k k') as [H|[H|H]]; [|exact H|]; exfalso; eauto.
Qed.

Lemma merkle_root_of_unique items r r' : merkle_root_of items r -> merkle_root_of items r' -> r = r'.
Proof.
  intros (k & Hk & ->) (k' & Hk' & ->). rewrite (height_for_unique _ _ _ Hk Hk'). reflexivity.
Qed.

(** ** Filling the leaves *)

Lemma firstn_replace {A} (l : list A) i x : i < length l ->
  firstn i (replace l i x) = firstn i l /\ skipn (S i) (replace l i x) = skipn (S i) l /\
  nth_error (replace l i x) i = Some x.
Proof.
  revert i; induction l as [|y l IH]; intros [|i] H; cbn [length] in H; try lia.
  - cbn [replace firstn skipn nth_error]. auto.
  - destruct (IH i ltac:(lia)) as (H1 & H2 & H3). cbn [replace firstn nth_error].
    rewrite H1. split; [reflexivity|]. split; [|exact H3]. exact H2.
Qed.

Lemma replace_split {A} (l : list A) i x : i < length l ->
  replace l i x = firstn i l ++ x :: skipn (S i) l.
Proof.
  revert i; induction l as [|y l IH]; intros [|i] H; cbn [length] in H; try lia.
  - reflexivity.
  - cbn [replace firstn skipn app]. f_equal. rewrite IH by lia. reflexivity.
Qed.

Lemma skipn_add {A} (l : list A) a b : skipn a (skipn b l) = skipn (a + b) l.
Proof.
  revert b; induction l as [|x l IH]; intros b.
  - rewrite !skipn_nil. reflexivity.
  - destruct b as [|b]; [rewrite Nat.add_0_r; reflexivity|].
    rewrite Nat.add_succ_r. cbn [skipn]. apply IH.
Qed.

Lemma put_leaves_ok arr pos items : pos + length items <= length arr ->
  put_leaves arr pos items = Ok (firstn pos arr ++ items ++ skipn (pos + length items) arr).
Proof.
  revert arr pos; induction items as [|it items IH]; intros arr pos H; cbn [put_leaves length] in *.
  - rewrite Nat.add_0_r. cbn [app]. rewrite firstn_skipn. reflexivity.
  - rewrite set_unchecked_ok by lia. cbn [bind]. rewrite IH by (rewrite replace_length; lia).
    f_equal. rewrite replace_split by lia.
    replace (firstn (S pos) (firstn pos arr ++ it :: skipn (S pos) arr)) with (firstn pos arr ++ [it]).
    2:{ rewrite firstn_app. rewrite firstn_length. rewrite Nat.min_l by lia.
        rewrite (firstn_all2 (firstn pos arr)) by (rewrite firstn_length; lia).
        replace (S pos - pos) with 1 by lia. reflexivity. }
    rewrite <- app_assoc. cbn [app]. f_equal. f_equal. f_equal.
    rewrite skipn_app. rewrite firstn_length, Nat.min_l by lia.
    rewrite (skipn_all2 (firstn pos arr)) by (rewrite firstn_length; lia). cbn [app].
    replace (S pos + length items - pos) with (S (length items)) by lia. rewrite skipn_cons.
    rewrite skipn_add. f_equal. lia.
Qed.

Lemma put_padding_ok arr from count :
  from + count <= length arr ->
  put_padding arr from count = Ok (firstn from arr ++ repeat padding_hash count ++ skipn (from + count) arr).
Proof.
  intros H.
  assert (Hp : forall c a f, put_padding a f c = put_leaves a f (repeat padding_hash c)).
  { induction c as [|c IH]; intros a f; cbn [put_padding put_leaves repeat]; [reflexivity|].
    destruct (set_unchecked a f padding_hash); cbn [bind]; auto. }
  rewrite Hp, put_leaves_ok by (rewrite repeat_length; exact H). rewrite repeat_length. reflexivity.
Qed.

Lemma skipn_repeat {A} (x : A) n k : skipn k (repeat x n) = repeat x (n - k).
Proof. revert k; induction n as [|n IH]; intros [|k]; cbn; auto. Qed.

Lemma firstn_repeat {A} (x : A) n k : firstn k (repeat x n) = repeat x (Nat.min k n).
Proof. revert k; induction n as [|n IH]; intros [|k]; cbn; auto. f_equal. apply IH. Qed.

(** ** Hashing upwards *)

(** Entries [m..L-1) of the array are the node of their children. *)
Definition consistent (arr : list bytes) (L m : nat) : Prop :=
  forall i, m <= i < L - 1 -> nth i arr [] = node (nth (2 * i + 1) arr []) (nth (2 * i + 2) arr []).

Lemma nth_replace {A} (l : list A) i j x d : i < length l ->
  nth j (replace l i x) d = if Nat.eqb i j then x else nth j l d.
Proof.
  revert i j; induction l as [|y l IH]; intros [|i] [|j] H; cbn [length] in H; cbn [replace nth Nat.eqb]; try lia; auto.
  apply IH. lia.
Qed.

Lemma index_unchecked_nth (l : list bytes) i : i < length l -> index_unchecked l i = Ok (nth i l []).
Proof. intros H. unfold index_unchecked. rewrite (nth_error_nth' l [] H). reflexivity. Qed.

Lemma hash_pairs_ok L m arr :
  length arr = 2 * L - 1 -> m <= L - 1 -> consistent arr L m ->
  exists arr', hash_pairs arr (rev (map (fun k => 1 + 2 * k) (seq 0 m))) = Ok arr' /\
    length arr' = length arr /\ consistent arr' L 0 /\ skipn (L - 1) arr' = skipn (L - 1) arr.
Proof.
  revert arr; induction m as [|m IH]; intros arr Hlen Hm Hc.
  - exists arr. cbn. auto.
  - rewrite seq_S, map_app, rev_app_distr. cbn [map rev app hash_pairs Nat.add].
    unfold hash_pair. rewrite !index_unchecked_nth by lia. cbn [bind].
    replace ((S (2 * m) - 1) / 2) with m.
    2:{ replace (S (2 * m) - 1) with (m * 2) by lia. rewrite Nat.div_mul; lia. }
    rewrite set_unchecked_ok by lia. cbn [bind]. rewrite and_bytes_band.
    fold (node (nth (S (2 * m)) arr []) (nth (S (2 * m) + 1) arr [])).
    set (arr1 := replace arr m _).
    destruct (IH arr1) as (arr' & H1 & H2 & H3 & H4).
    + unfold arr1. rewrite replace_length. exact Hlen.
    + lia.
    + intros i Hi. unfold arr1. rewrite !nth_replace by lia.
      destruct (Nat.eqb_spec m i) as [->|Hne].
      * destruct (Nat.eqb_spec i (2 * i + 1)); [lia|]. destruct (Nat.eqb_spec i (2 * i + 2)); [lia|].
        f_equal; f_equal; lia.
      * destruct (Nat.eqb_spec m (2 * i + 1)); [lia|]. destruct (Nat.eqb_spec m (2 * i + 2)); [lia|].
        apply Hc. lia.
    + exists arr'. split; [exact H1|]. unfold arr1 in H2, H4. rewrite replace_length in H2.
      split; [exact H2|]. split; [exact H3|]. rewrite H4, replace_split by lia.
      rewrite skipn_app, firstn_length, Nat.min_l by lia.
      rewrite (skipn_all2 (firstn m arr)) by (rewrite firstn_length; lia). cbn [app].
      replace (L - 1 - m) with (S (L - 1 - m - 1)) by lia. rewrite skipn_cons, skipn_add. f_equal. lia.
Qed.

(** What [build_tree] returns. *)
Record tree_inv (items : list bytes) (t : merkle_tree) (k : nat) : Prop := {
  ti_height : height_for (length items) k;
  ti_depth : mt_depth t = k + 1;
  ti_inputs : mt_inputs t = length items;
  ti_len : length (mt_array t) = 2 * 2 ^ k - 1;
  ti_cons : consistent (mt_array t) (2 ^ k) 0;
  ti_leaves : skipn (2 ^ k - 1) (mt_array t) = padded k items
}.

Lemma build_tree_inv items : exists t k, build_tree items = Ok t /\ tree_inv items t k.
Proof.
  destruct (find_closest_ok (length items)) as (k & Hk & Hh).
  unfold build_tree. rewrite Hk. cbn [bind].
  pose proof (pow2_pos k) as Hp. destruct Hh as [Hlt Hge].
  rewrite (firstn_all2 items) by lia.
  rewrite put_leaves_ok by (rewrite repeat_length; lia). cbn [bind].
  replace (2 ^ k * 2 - 1 - 2 ^ k) with (2 ^ k - 1) by lia.
  rewrite firstn_repeat, skipn_repeat. rewrite Nat.min_l by lia.
  replace (2 ^ k * 2 - 1 - (2 ^ k - 1 + length items)) with (2 ^ k - length items) by lia.
  rewrite put_padding_ok by (rewrite !app_length, !repeat_length; lia). cbn [bind].
  set (arr1 := repeat padding_hash (2 ^ k - 1) ++ items ++ repeat padding_hash (2 ^ k - length items)).
  assert (Hl1 : length arr1 = 2 * 2 ^ k - 1) by (unfold arr1; rewrite !app_length, !repeat_length; lia).
  rewrite (skipn_all2 arr1) by lia. rewrite app_nil_r.
  replace (firstn (2 ^ k * 2 - 1 - (2 ^ k - length items)) arr1 ++ repeat padding_hash (2 ^ k - length items)) with arr1.
  2:{ unfold arr1. rewrite !(app_assoc _ items). rewrite firstn_app_exact; [reflexivity|].
      rewrite app_length, repeat_length. lia. }
  unfold step_by_2.
  replace ((2 ^ k * 2 - 1 - 1 - 1 + 1) / 2) with (2 ^ k - 1).
  2:{ destruct (Nat.eq_dec (2 ^ k) 1) as [->|]; [reflexivity|].
      replace (2 ^ k * 2 - 1 - 1 - 1 + 1) with ((2 ^ k - 1) * 2) by lia. rewrite Nat.div_mul; lia. }
  destruct (hash_pairs_ok (2 ^ k) (2 ^ k - 1) arr1) as (arr' & H1 & H2 & H3 & H4); [exact Hl1|lia| |].
  { intros i Hi. lia. }
  rewrite H1. cbn [bind]. eexists _, k. split; [reflexivity|].
  constructor; cbn [mt_depth mt_inputs mt_array]; auto.
  - split; assumption.
  - lia.
  - rewrite H4. unfold arr1. rewrite skipn_app_exact by apply repeat_length. reflexivity.
Qed.

Lemma nth_skipn_hd {A} (l : list A) i d : nth i l d = hd d (skipn i l).
Proof. revert l; induction i as [|i IH]; intros [|x l]; cbn; auto. Qed.

Lemma firstn_firstn_le {A} (l : list A) a b : a <= b -> firstn a (firstn b l) = firstn a l.
Proof. intros H. rewrite firstn_firstn, Nat.min_l by lia. reflexivity. Qed.

Lemma skipn_firstn_sub {A} (l : list A) a b : skipn a (firstn b l) = firstn (b - a) (skipn a l).
Proof. rewrite skipn_firstn_comm. reflexivity. Qed.

Lemma subtree arr L h j : length arr = 2 * L - 1 -> consistent arr L 0 ->
  (j + 2) * 2 ^ h <= 2 * L ->
  nth j arr [] = and_tree h (firstn (2 ^ h) (skipn ((j + 1) * 2 ^ h - 1) arr)).
Proof.
  intros Hlen Hc. revert j; induction h as [|h IH]; intros j Hj.
  - cbn [Nat.pow] in *. cbn [and_tree]. rewrite Nat.mul_1_r. replace (j + 1 - 1) with j by lia.
    rewrite nth_skipn_hd. destruct (skipn j arr); reflexivity.
  - cbn [Nat.pow] in Hj. pose proof (pow2_pos h) as Hp.
    rewrite Hc by nia. cbn [and_tree]. f_equal.
    + rewrite (IH (2 * j + 1)) by nia.
      rewrite firstn_firstn_le by (cbn [Nat.pow]; lia). do 3 f_equal. cbn [Nat.pow]. lia.
    + rewrite (IH (2 * j + 2)) by nia. rewrite skipn_firstn_sub, skipn_add.
      cbn [Nat.pow]. f_equal. f_equal; [|f_equal]; nia.
Qed.

Lemma tree_root items t k : tree_inv items t k -> get_root t = Ok (and_tree k (padded k items)).
Proof.
  intros [Hh _ _ Hl Hc Hlv]. pose proof (pow2_pos k). unfold get_root.
  rewrite index_unchecked_nth by lia. f_equal.
  rewrite (subtree (mt_array t) (2 ^ k) k 0 Hl Hc) by lia.
  replace ((0 + 1) * 2 ^ k - 1) with (2 ^ k - 1) by lia. rewrite Hlv. f_equal.
  apply firstn_all2. unfold padded. rewrite app_length, repeat_length. destruct Hh. lia.
Qed.

Lemma build_tree_root items : exists t root,
  build_tree items = Ok t /\ get_root t = Ok root /\ merkle_root_of items root.
Proof.
  destruct (build_tree_inv items) as (t & k & Hb & Hi). exists t, (and_tree k (padded k items)).
  split; [exact Hb|]. split; [apply (tree_root _ _ _ Hi)|]. exists k. split; [apply Hi|reflexivity].
Qed.

(** The root as a function. *)
Definition mroot (items : list bytes) : bytes :=
  match (let! t := build_tree items in get_root t) with Ok r => r | _ => [] end.

Lemma mroot_ok items : (let! t := build_tree items in get_root t) = Ok (mroot items).
Proof.
  destruct (build_tree_root items) as (t & r & H1 & H2 & _).
  unfold mroot. rewrite H1. cbn [bind]. rewrite H2. reflexivity.
Qed.

Lemma mroot_spec items : merkle_root_of items (mroot items).
Proof.
  destruct (build_tree_root items) as (t & r & H1 & H2 & H3).
  unfold mroot. rewrite H1. cbn [bind]. rewrite H2. exact H3.
Qed.

Lemma mroot_iff items r : merkle_root_of items r <-> r = mroot items.
Proof.
  split.
  - intros H. eapply merkle_root_of_unique; [exact H|apply mroot_spec].
  - intros ->. apply mroot_spec.
Qed.

(** ** Proofs *)

Lemma find_leaf_ok arr h rel count last : rel + count <= length arr ->
  exists j, find_leaf arr h rel count last = Ok j /\
    (count = 0 -> j = last) /\
    (0 < count -> rel <= j < rel + count /\
      (nth j arr [] = h \/
       (j = rel + count - 1 /\ forall i, rel <= i < rel + count -> nth i arr [] <> h))).
Proof.
  revert rel last; induction count as [|c IH]; intros rel last H; cbn [find_leaf].
  - exists last. split; [reflexivity|]. split; [auto|lia].
  - rewrite index_unchecked_nth by lia. cbn [bind].
    destruct (bytes_eqb (nth rel arr []) h) eqn:E.
    + apply bytes_eqb_eq in E. exists rel. split; [reflexivity|]. split; [lia|]. intros _. split; [lia|left; exact E].
    + apply bytes_eqb_neq in E. destruct (IH (S rel) rel ltac:(lia)) as (j & Hj & H0 & H1).
      exists j. split; [exact Hj|]. split; [lia|]. intros _.
      destruct c as [|c].
      * rewrite (H0 eq_refl). split; [lia|]. right. split; [lia|].
        intros i Hi. replace i with rel by lia. exact E.
      * destruct (H1 ltac:(lia)) as (H2 & [H3|(H3 & H4)]).
        -- split; [lia|left; exact H3].
        -- split; [lia|]. right. split; [lia|]. intros i Hi.
           destruct (Nat.eq_dec i rel) as [->|]; [exact E|]. apply H4. lia.
Qed.

Definition sibling (i : nat) : nat := if Nat.odd i then i + 1 else i - 1.

Fixpoint path (arr : list bytes) (d idx : nat) : list bytes :=
  match d with
  | O => []
  | S d' => nth (sibling idx) arr [] :: path arr d' ((idx - 1) / 2)
  end.

Lemma path_length arr d idx : length (path arr d idx) = d.
Proof. revert idx; induction d as [|d IH]; intros idx; cbn [path length]; auto. Qed.

Lemma sibling_cases i : 0 < i -> exists p,
  (i = 2 * p + 1 /\ sibling i = 2 * p + 2 \/ i = 2 * p + 2 /\ sibling i = 2 * p + 1) /\
  (i - 1) / 2 = p /\ (sibling i - 1) / 2 = p.
Proof.
  intros Hi. unfold sibling. destruct (Nat.odd i) eqn:E.
  - apply Nat.odd_spec in E as (m & Hm). exists m. split; [left; lia|].
    subst i. split; [replace (2 * m + 1 - 1) with (m * 2) by lia; rewrite Nat.div_mul; lia|].
    replace (2 * m + 1 + 1 - 1) with (2 * m + 1) by lia.
    symmetry. apply Nat.div_unique with 1; lia.
  - assert (Nat.even i = true) as E' by (rewrite <- Nat.negb_odd, E; reflexivity).
    apply Nat.even_spec in E' as (m & Hm). exists (m - 1). split; [right; lia|]. split.
    + symmetry. apply Nat.div_unique with 1; lia.
    + replace (i - 1 - 1) with ((m - 1) * 2) by lia. rewrite Nat.div_mul; lia.
Qed.

(** [idx] lies at depth [d] of the array. *)
Definition at_depth (d idx : nat) : Prop := 2 ^ d - 1 <= idx < 2 * 2 ^ d - 1.

Lemma at_depth_parent d idx p : at_depth (S d) idx -> idx = 2 * p + 1 \/ idx = 2 * p + 2 -> at_depth d p.
Proof. unfold at_depth. cbn [Nat.pow]. pose proof (pow2_pos d). lia. Qed.

Lemma climb_ok fuel arr ret ri d idx :
  at_depth d idx -> d < fuel -> 2 * 2 ^ d - 1 <= length arr -> ri + d <= length ret ->
  exists ret', climb fuel arr ret ri idx = Ok (ret', ri + d) /\
    ret' = firstn ri ret ++ path arr d idx ++ skipn (ri + d) ret.
Proof.
  revert fuel ret ri idx; induction d as [|d IH]; intros fuel ret ri idx Hd Hf Hl Hr.
  - unfold at_depth in Hd. cbn in Hd. destruct fuel as [|fuel]; [lia|]. cbn [climb].
    replace idx with 0 by lia. cbn [Nat.ltb Nat.leb path app]. rewrite Nat.add_0_r, firstn_skipn.
    eauto.
  - destruct fuel as [|fuel]; [lia|]. cbn [climb].
    assert (Hpos : 0 < idx) by (unfold at_depth in Hd; cbn [Nat.pow] in Hd; pose proof (pow2_pos d); lia).
    destruct (Nat.ltb_spec 0 idx) as [_|]; [|lia].
    fold (sibling idx). destruct (sibling_cases idx Hpos) as (p & Hsib & Hp1 & Hp2).
    assert (Hd' : at_depth d p) by (eapply at_depth_parent; [exact Hd|lia]).
    rewrite index_unchecked_nth.
    2:{ unfold at_depth in Hd'. cbn [Nat.pow] in Hl. lia. }
    cbn [bind]. rewrite set_unchecked_ok by lia. cbn [bind]. rewrite Hp2.
    destruct (IH fuel (replace ret ri (nth (sibling idx) arr [])) (ri + 1) p) as (ret' & H1 & H2);
      [exact Hd'|lia|cbn [Nat.pow] in Hl; lia|rewrite replace_length; lia|].
    exists ret'. rewrite H1. split; [do 2 f_equal; lia|].
    rewrite H2. cbn [path]. rewrite Hp1. rewrite replace_split by lia.
    rewrite firstn_app, firstn_length, Nat.min_l by lia.
    rewrite (firstn_all2 (firstn ri ret)) by (rewrite firstn_length; lia).
    replace (ri + 1 - ri) with 1 by lia.
    rewrite skipn_app, firstn_length, Nat.min_l by lia.
    rewrite (skipn_all2 (firstn ri ret)) by (rewrite firstn_length; lia).
    replace (ri + 1 + d - ri) with (S d) by lia. rewrite skipn_cons, skipn_add.
    rewrite <- app_assoc. cbn [firstn app]. do 4 f_equal. lia.
Qed.

Definition fold_proof (c : bytes) (proof : list bytes) : bytes :=
  fold_left (fun c p => sha256 (and_bytes c p)) proof c.

Lemma verify_proof_eq h root proof : proof <> [] ->
  verify_proof h root proof = Ok (bytes_eqb root (fold_proof h proof)).
Proof. destruct proof as [|p0 t]; [congruence|]. intros _. reflexivity. Qed.

Lemma fold_path arr L d idx : consistent arr L 0 -> at_depth d idx -> 2 ^ d <= L ->
  fold_proof (nth idx arr []) (path arr d idx) = nth 0 arr [].
Proof.
  intros Hc. revert idx; induction d as [|d IH]; intros idx Hd HL.
  - unfold at_depth in Hd. cbn in Hd. replace idx with 0 by lia. reflexivity.
  - assert (Hpos : 0 < idx) by (unfold at_depth in Hd; cbn [Nat.pow] in Hd; pose proof (pow2_pos d); lia).
    destruct (sibling_cases idx Hpos) as (p & Hsib & Hp1 & _).
    assert (Hd' : at_depth d p) by (eapply at_depth_parent; [exact Hd|lia]).
    cbn [path]. unfold fold_proof. cbn [fold_left]. fold (fold_proof (sha256 (and_bytes (nth idx arr []) (nth (sibling idx) arr []))) (path arr d ((idx - 1) / 2))).
    rewrite Hp1, and_bytes_band. fold (node (nth idx arr []) (nth (sibling idx) arr [])).
    replace (node (nth idx arr []) (nth (sibling idx) arr [])) with (nth p arr []).
    2:{ rewrite (Hc p) by (unfold at_depth in Hd'; cbn [Nat.pow] in HL; lia).
        destruct Hsib as [(-> & ->)|(-> & ->)]; [reflexivity|apply node_comm]. }
    apply IH; [exact Hd'|]. cbn [Nat.pow] in HL. lia.
Qed.

(** [get_proof] returns the path of some leaf index followed by the root. *)
Lemma get_proof_eq items t k h : tree_inv items t k -> items <> [] ->
  exists j, j < length items /\
    get_proof t h = Ok (path (mt_array t) k (2 ^ k - 1 + j) ++ [nth 0 (mt_array t) []]) /\
    nth (2 ^ k - 1 + j) (mt_array t) [] = nth j items [] /\
    (nth j items [] = h \/ (j = length items - 1 /\ ~ In h items)).
Proof.
  intros [[Hh1 Hh2] Hd Hn Hl Hc Hlv] Hne. pose proof (pow2_pos k) as Hp.
  assert (Hpos : 0 < length items) by (destruct items; [congruence|cbn; lia]).
  assert (Hleaf : forall j, j < length items -> nth (2 ^ k - 1 + j) (mt_array t) [] = nth j items []).
  { intros j Hj. rewrite (nth_skipn_hd _ (2 ^ k - 1 + j)), Nat.add_comm, <- skipn_add, Hlv, <- nth_skipn_hd.
    unfold padded. rewrite app_nth1 by lia. reflexivity. }
  unfold get_proof. rewrite Hd, Hn, Hl. replace (k + 1 - 1) with k by lia.
  replace (2 * 2 ^ k - 1 - 2 ^ k) with (2 ^ k - 1) by lia.
  replace (2 * 2 ^ k - 1 - (2 ^ k - length items) - (2 ^ k - 1)) with (length items) by lia.
  destruct (find_leaf_ok (mt_array t) h (2 ^ k - 1) (length items) 0 ltac:(lia)) as (j & Hj & _ & Hj2).
  rewrite Hj. cbn [bind]. destruct (Hj2 Hpos) as (Hr & Hcase).
  pose proof (pow2_gt k).
  destruct (climb_ok (S j) (mt_array t) (repeat (repeat 0%N 32) (k + 1)) 0 k j) as (ret' & Hcl & Hret);
    [unfold at_depth; lia|lia|lia|rewrite repeat_length; lia|].
  rewrite Hcl. cbn [bind]. rewrite index_unchecked_nth by lia. cbn [bind].
  cbn [firstn app] in Hret. rewrite skipn_repeat in Hret.
  replace (k + 1 - (0 + k)) with 1 in Hret by lia. change (repeat (repeat 0%N 32) 1) with [repeat 0%N 32] in Hret. change (0 + k) with k.
  exists (j - (2 ^ k - 1)). split; [lia|].
  replace (2 ^ k - 1 + (j - (2 ^ k - 1))) with j by lia. split; [|split].
  - rewrite Hret, set_unchecked_ok by (rewrite app_length, path_length; cbn [length]; lia).
    rewrite replace_app by apply path_length. reflexivity.
  - rewrite <- (Hleaf (j - (2 ^ k - 1))) by lia. f_equal. lia.
  - destruct Hcase as [Hc1|(Hc1 & Hc2)].
    + left. rewrite <- Hleaf by lia. rewrite <- Hc1. f_equal. lia.
    + right. split; [lia|]. intros Hin. apply (In_nth (A := bytes) items h []) in Hin as (i & Hi & Hi').
      apply (Hc2 (2 ^ k - 1 + i)); [lia|]. rewrite Hleaf by lia. exact Hi'.
Qed.

Lemma height_pos n k : height_for n k -> 0 < n -> 0 < k.
Proof. intros [H _] Hn. destruct k; [cbn in H; lia|lia]. Qed.

Lemma get_proof_complete items t h : build_tree items = Ok t -> In h items ->
  exists proof root, get_proof t h = Ok (proof ++ [root]) /\ get_root t = Ok root /\
    length (proof ++ [root]) = mt_depth t /\ verify_proof h root proof = Ok true.
Proof.
  intros Hb Hin. destruct (build_tree_inv items) as (t' & k & Hb' & Hi).
  rewrite Hb in Hb'. injection Hb' as <-.
  assert (Hne : items <> []) by (intros ->; contradiction).
  assert (Hpos : 0 < length items) by (destruct items; [congruence|cbn; lia]).
  destruct (get_proof_eq items t k h Hi Hne) as (j & Hj & Hg & Hl & [He|(_ & Hno)]); [|contradiction].
  destruct Hi as [Hh Hd Hn Hlen Hc Hlv]. pose proof (pow2_pos k).
  exists (path (mt_array t) k (2 ^ k - 1 + j)), (nth 0 (mt_array t) []).
  split; [exact Hg|]. split; [apply index_unchecked_nth; lia|]. split.
  - rewrite app_length, path_length, Hd. reflexivity.
  - rewrite verify_proof_eq.
    2:{ intros E. apply (f_equal (@length _)) in E. rewrite path_length in E.
        pose proof (height_pos _ _ Hh Hpos). cbn in E. lia. }
    f_equal. apply bytes_eqb_eq. rewrite <- He, <- Hl. symmetry. apply fold_path with (L := 2 ^ k); auto.
    destruct Hh. unfold at_depth. lia.
Qed.

Lemma get_proof_safe items t h : build_tree items = Ok t -> exists proof, get_proof t h = Ok proof /\
  length proof = mt_depth t.
Proof.
  intros Hb. destruct items as [|x items].
  - injection Hb as <-. eexists. split; reflexivity.
  - destruct (build_tree_inv (x :: items)) as (t' & k & Hb' & Hi).
    rewrite Hb in Hb'. injection Hb' as <-.
    destruct (get_proof_eq (x :: items) t k h Hi ltac:(discriminate)) as (j & _ & Hg & _).
    eexists. split; [exact Hg|]. rewrite app_length, path_length, (ti_depth _ _ _ Hi). reflexivity.
Qed.

(** ** What a verified proof does imply *)

Lemma fold_proof_climb c proof : fold_proof c proof = climb_proof c proof.
Proof.
  revert c; induction proof as [|p proof IH]; intros c; [reflexivity|].
  unfold fold_proof, climb_proof. cbn [fold_left]. rewrite and_bytes_band. apply IH.
Qed.

Lemma climb_proof_inj c c' proof : c <> c' -> climb_proof c proof = climb_proof c' proof ->
  exists pre q suf, proof = pre ++ q :: suf /\
    let x := climb_proof c pre in let y := climb_proof c' pre in
    x <> y /\ (band x q = band y q \/ collision (band x q) (band y q)).
Proof.
  revert c c'; induction proof as [|p proof IH]; intros c c' Hne H; [contradiction|].
  unfold climb_proof in H. cbn [fold_left] in H.
  destruct (bytes_eq_dec (node c p) (node c' p)) as [E|E].
  - exists [], p, proof. split; [reflexivity|]. cbn. split; [exact Hne|].
    destruct (bytes_eq_dec (band c p) (band c' p)) as [E'|E']; [left; exact E'|right; split; assumption].
  - destruct (IH _ _ E H) as (pre & q & suf & -> & Hx). exists (p :: pre), q, suf.
    split; [reflexivity|]. exact Hx.
Qed.

Lemma and_tree_inj k L L' : length L = 2 ^ k -> length L' = 2 ^ k -> L <> L' ->
  and_tree k L = and_tree k L' ->
  exists l r l' r', In (l, r) (children k L) /\ In (l', r') (children k L') /\ (l, r) <> (l', r') /\
    (band l r = band l' r' \/ collision (band l r) (band l' r')).
Proof.
  revert L L'; induction k as [|k IH]; intros L L' Hl Hl' Hne H.
  - exfalso. cbn in Hl, Hl'. destruct L as [|x [|? ?]]; try discriminate.
    destruct L' as [|x' [|? ?]]; try discriminate. cbn in H. congruence.
  - cbn [Nat.pow] in Hl, Hl'. cbn [and_tree] in H. cbn [children].
    set (l := firstn (2 ^ k) L) in *. set (r := skipn (2 ^ k) L) in *.
    set (l' := firstn (2 ^ k) L') in *. set (r' := skipn (2 ^ k) L') in *.
    assert (length l = 2 ^ k) by (unfold l; rewrite firstn_length; lia).
    assert (length l' = 2 ^ k) by (unfold l'; rewrite firstn_length; lia).
    assert (length r = 2 ^ k) by (unfold r; rewrite skipn_length; lia).
    assert (length r' = 2 ^ k) by (unfold r'; rewrite skipn_length; lia).
    destruct (bytes_eq_dec (and_tree k l) (and_tree k l')) as [El|El].
    + destruct (bytes_eq_dec (and_tree k r) (and_tree k r')) as [Er|Er].
      * destruct (list_eq_dec bytes_eq_dec l l') as [Ell|Ell].
        -- destruct (list_eq_dec bytes_eq_dec r r') as [Err|Err].
           ++ exfalso. apply Hne. rewrite <- (firstn_skipn (2 ^ k) L), <- (firstn_skipn (2 ^ k) L').
              fold l r l' r'. congruence.
           ++ destruct (IH r r') as (a & b & c & d & Ha & Hb & Hc); auto.
              exists a, b, c, d. split; [right; apply in_or_app; right; exact Ha|].
              split; [right; apply in_or_app; right; exact Hb|exact Hc].
        -- destruct (IH l l') as (a & b & c & d & Ha & Hb & Hc); auto.
           exists a, b, c, d. split; [right; apply in_or_app; left; exact Ha|].
           split; [right; apply in_or_app; left; exact Hb|exact Hc].
      * exists (and_tree k l), (and_tree k r), (and_tree k l'), (and_tree k r').
        split; [left; reflexivity|]. split; [left; reflexivity|]. split; [congruence|].
        destruct (bytes_eq_dec (band (and_tree k l) (and_tree k r)) (band (and_tree k l') (and_tree k r')));
          [left; assumption|right; split; assumption].
    + exists (and_tree k l), (and_tree k r), (and_tree k l'), (and_tree k r').
      split; [left; reflexivity|]. split; [left; reflexivity|]. split; [congruence|].
      destruct (bytes_eq_dec (band (and_tree k l) (and_tree k r)) (band (and_tree k l') (and_tree k r')));
        [left; assumption|right; split; assumption].
Qed.

Lemma padded_length k items : length items < 2 ^ k -> length (padded k items) = 2 ^ k.
Proof. intros H. unfold padded. rewrite app_length, repeat_length. lia. Qed.

Lemma ff32_array : is_array 32 ff32.
Proof. split; [reflexivity|]. apply bytes_ok_repeat. lia. Qed.

Lemma mroot_array items : is_array 32 (mroot items).
Proof.
  destruct (mroot_spec items) as (k & [Hk _] & ->). destruct k as [|k].
  - cbn in Hk. destruct items; [|cbn in Hk; lia]. exact ff32_array.
  - cbn [and_tree]. apply sha256_array.
Qed.
