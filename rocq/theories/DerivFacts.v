(** Lemmas about derivative chains. *)
From Coq Require Import Lia ZifyBool ZifyNat ZifyN.
From Verif Require Import Base Sha256 Merkle Tools Transaction Block Sled Chain Tree Spec Reach.
From Verif Require Import BaseFacts ToolsFacts MerkleFacts DiffFacts CodecFacts SledFacts ChainFacts TreeFacts.

(** ** Association lists *)
Lemma assoc_get_set {A} k (v : A) l k' : assoc_get k' (assoc_set k v l) = if bytes_eqb k' k then Some v else assoc_get k' l.
Proof.
  induction l as [|[a x] l IH]; cbn [assoc_set assoc_get]; [reflexivity|].
  destruct (bytes_eqb k a) eqn:E; cbn [assoc_get].
  - apply bytes_eqb_eq in E as ->. destruct (bytes_eqb k' a); reflexivity.
  - rewrite IH. destruct (bytes_eqb k' a) eqn:E1; [|reflexivity].
    apply bytes_eqb_eq in E1 as ->. destruct (bytes_eqb a k) eqn:E2; [|reflexivity].
    apply bytes_eqb_eq in E2 as ->. rewrite bytes_eqb_refl in E. discriminate.
Qed.
Lemma assoc_get_in {A} k (v : A) l : assoc_get k l = Some v -> In (k, v) l.
Proof.
  induction l as [|[a x] l IH]; cbn [assoc_get]; [discriminate|].
  destruct (bytes_eqb k a) eqn:E; intros H; [injection H as ->; apply bytes_eqb_eq in E as ->; left; reflexivity|right; apply IH, H].
Qed.
Lemma assoc_set_in {A} k (v : A) l x : In x (assoc_set k v l) -> x = (k, v) \/ In x l.
Proof.
  induction l as [|[a y] l IH]; cbn [assoc_set]; [intros [<-|[]]; left; reflexivity|].
  destruct (bytes_eqb k a); intros [<-|H]; [left; reflexivity|right; right; exact H|right; left; reflexivity|].
  destruct (IH H); [left; assumption|right; right; assumption].
Qed.
Lemma assoc_set_keys {A} k (v : A) l x : In x (map fst (assoc_set k v l)) -> x = k \/ In x (map fst l).
Proof.
  intros H. apply in_map_iff in H as (y & <- & H). apply assoc_set_in in H as [->|H]; [left; reflexivity|right; apply in_map, H].
Qed.
Lemma assoc_set_nodup {A} k (v : A) l : NoDup (map fst l) -> NoDup (map fst (assoc_set k v l)).
Proof.
  induction l as [|[a y] l IH]; cbn [assoc_set map]; intros H; [constructor; [intros []|constructor]|].
  cbn [fst] in H. inversion H as [|? ? Hn Hd]; subst. destruct (bytes_eqb k a) eqn:E; cbn [map fst].
  - apply bytes_eqb_eq in E as ->. constructor; assumption.
  - constructor; [|apply IH, Hd]. intros Hi. apply assoc_set_keys in Hi as [->|Hi]; [rewrite bytes_eqb_refl in E; discriminate|contradiction].
Qed.
Lemma assoc_in_get {A} k (v : A) l : NoDup (map fst l) -> In (k, v) l -> assoc_get k l = Some v.
Proof.
  induction l as [|[a y] l IH]; cbn [assoc_get map fst]; intros Hd Hi; [destruct Hi|].
  inversion Hd as [|? ? Hn Hd']; subst. destruct Hi as [E|Hi].
  - apply pair_inv in E as [-> ->]. rewrite bytes_eqb_refl. reflexivity.
  - destruct (bytes_eqb k a) eqn:E; [|apply IH; assumption]. apply bytes_eqb_eq in E as ->.
    exfalso. apply Hn. apply (in_map fst) in Hi. exact Hi.
Qed.

(** ** Hexadecimal directory names *)
Lemma hex_digit_inj a b : a < 16 -> b < 16 -> hex_digit a = hex_digit b -> a = b.
Proof. intros Ha Hb. unfold hex_digit. destruct (N.ltb_spec a 10), (N.ltb_spec b 10); lia. Qed.
Lemma hex_encode_inj a : forall b, bytes_ok a -> bytes_ok b -> hex_encode a = hex_encode b -> a = b.
Proof.
  induction a as [|x a IH]; intros [|y b] Ha Hb E; cbn in E; try discriminate; [reflexivity|].
  apply Forall_cons_iff in Ha as [Hx Ha]. apply Forall_cons_iff in Hb as [Hy Hb].
  apply cons_inv in E as [E1 E]. apply cons_inv in E as [E2 E]. unfold byte_ok in *.
  apply hex_digit_inj in E1; [|apply N.div_lt_upper_bound; lia..].
  apply hex_digit_inj in E2; [|apply N.mod_lt; lia..].
  f_equal; [|apply IH; assumption].
  rewrite (N.div_mod x 16), (N.div_mod y 16) by lia. congruence.
Qed.

(** ** What a derivative chain stores *)

(** The database [bs] holds the blocks [B], oldest first; if [strict] they are a
    linked chain of [w] starting at a main-chain block with hash [g]. *)
Record chain_ok (p : profile) (strict : bool) (L : list block) (w : bytes) (bs : sled) (g : bytes)
    (B : list basic_info) : Prop := {
  co_blocks : forall i x, nthN B i = Some x -> sled_get (height_key i) bs = Some (block_dump (DerivBlock x));
  co_heights : forall i x, nthN B i = Some x -> bi_height x = i;
  co_wf : Forall info_wf B;
  co_strict : strict = true -> Forall (fun x => bi_founder x = w) B /\ chained (deriv_link p) B /\
    forall x, nth_error B 0 = Some x -> exists m, In m L /\ block_hash m = g /\ deriv_start p m x
}.
Definition refs_ok (rs : sled) : Prop := forall h v, sled_get h rs = Some v -> exists i, info_wf i /\ h = block_hash (DerivBlock i) /\ v = height_key (bi_height i).
(** The config file names height [h], some difficulty and genesis hash [g]. *)
Definition cfg_is (f : file) (h : N) (g : bytes) : Prop :=
  exists d, is_array 32 d /\ file_cur f = Some (height_key h ++ d ++ g).

Record deriv_inv (p : profile) (strict : bool) (L : list block) (w : bytes) (c : deriv_chain)
    (B : list basic_info) : Prop := {
  di_height : dc_height c = N.of_nat (length B);
  di_chain : chain_ok p strict L w (dc_blocks c) (dc_genesis c) B;
  di_genesis : is_array 32 (dc_genesis c) /\ (exists m, In m L /\ block_hash m = dc_genesis c);
  di_diff : is_array 32 (dc_difficulty c);
  di_refs : refs_ok (dc_refs c);
  di_cfg : file_cur (dc_cfg c) = None \/ exists h, h <= dc_height c /\ cfg_is (dc_cfg c) h (dc_genesis c)
}.
Definition disk_inv (p : profile) (strict : bool) (L : list block) (w : bytes) (n : nat) (d : deriv_disk) : Prop :=
  refs_ok (dd_refs d) /\
  (file_cur (dd_cfg d) = None \/
   exists g B, cfg_is (dd_cfg d) (N.of_nat (length B)) g /\ is_array 32 g /\ (length B <= n)%nat /\
     (exists m, In m L /\ block_hash m = g) /\ chain_ok p strict L w (dd_blocks d) g B).

Lemma chained_firstn {A} (R : A -> A -> Prop) l : chained R l -> forall n, chained R (firstn n l).
Proof.
  induction 1 as [|x|x y l H _ IH]; intros [|n]; cbn [firstn]; try constructor.
  - destruct n; constructor.
  - destruct n as [|n]; [constructor|]. specialize (IH (S n)). cbn [firstn] in *. constructor; assumption.
Qed.
Lemma nthN_firstn {A} (l : list A) n i x : nthN (firstn n l) i = Some x -> nthN l i = Some x.
Proof.
  unfold nthN. revert l. generalize (N.to_nat i). induction n as [|n IH]; intros m l; [cbn; destruct m; discriminate|].
  destruct l as [|y l]; [destruct m; discriminate|]. destruct m; [auto|]. cbn [firstn nth_error]. apply IH.
Qed.

Lemma chain_ok_firstn p s L w bs g B n : chain_ok p s L w bs g B -> chain_ok p s L w bs g (firstn n B).
Proof.
  intros [H1 H2 H3 H4]. split.
  - intros i x H. apply H1. eapply nthN_firstn, H.
  - intros i x H. apply H2. eapply nthN_firstn, H.
  - apply Forall_forall. intros x H. rewrite Forall_forall in H3. apply H3. rewrite <- (firstn_skipn n B). apply in_or_app. left. exact H.
  - intros E. destruct (H4 E) as (F1 & F2 & F3). split; [|split].
    + apply Forall_forall. intros x H. rewrite Forall_forall in F1. apply F1. rewrite <- (firstn_skipn n B). apply in_or_app. left. exact H.
    + apply chained_firstn, F2.
    + intros x H. apply F3. destruct n; [discriminate|]. destruct B; [discriminate|]. exact H.
Qed.
Lemma chain_ok_ext p s L L' w bs bs' g B : chain_ok p s L w bs g B -> (forall k, sled_get k bs' = sled_get k bs) ->
  (forall m, In m L -> In m L') -> chain_ok p s L' w bs' g B.
Proof.
  intros [H1 H2 H3 H4] E Hin. split; [intros i x; rewrite E; apply H1|exact H2|exact H3|].
  intros Es. destruct (H4 Es) as (F1 & F2 & F3). split; [exact F1|]. split; [exact F2|].
  intros x H. destruct (F3 x H) as (m & M1 & M2 & M3). exists m. auto.
Qed.
Lemma chain_ok_nil p s L w bs g : chain_ok p s L w bs g [].
Proof.
  split.
  - intros i x H. unfold nthN in H. destruct (N.to_nat i); discriminate.
  - intros i x H. unfold nthN in H. destruct (N.to_nat i); discriminate.
  - constructor.
  - intros _. split; [constructor|]. split; [constructor|]. discriminate.
Qed.

Lemma deriv_inv_mono p s L L' w c B : deriv_inv p s L w c B -> (forall m, In m L -> In m L') -> deriv_inv p s L' w c B.
Proof.
  intros [H1 H2 [H3 (m & H3a & H3b)] H4 H5 H6] Hin. split; try assumption.
  - eapply chain_ok_ext; [exact H2|reflexivity|exact Hin].
  - split; [exact H3|]. exists m. auto.
Qed.
Lemma disk_inv_mono p s L L' w n n' d : disk_inv p s L w n d -> (forall m, In m L -> In m L') -> (n <= n')%nat -> disk_inv p s L' w n' d.
Proof.
  intros [H1 [H|(g & B & H2 & H3 & H4 & (m & H5a & H5b) & H6)]] Hin Hn; (split; [exact H1|]); [left; exact H|right].
  exists g, B. split; [exact H2|]. split; [exact H3|]. split; [lia|]. split; [exists m; auto|]. eapply chain_ok_ext; [exact H6|reflexivity|exact Hin].
Qed.

(** Closing a chain. *)
Lemma deriv_close p s L w c B n : deriv_inv p s L w c B -> (length B <= n)%nat -> disk_inv p s L w n (dc_close c).
Proof.
  intros [H1 H2 H3 H4 H5 H6] Hn. split; [exact H5|]. destruct H6 as [H6|(h & Hh & d & Hd & Hc)]; [left; exact H6|right].
  exists (dc_genesis c), (firstn (N.to_nat h) B). rewrite firstn_length_le by lia. rewrite Nnat.N2Nat.id.
  split; [exists d; split; [exact Hd|exact Hc]|]. split; [apply H3|]. split; [lia|]. split; [apply H3|].
  apply chain_ok_firstn. eapply chain_ok_ext; [exact H2|reflexivity|auto].
Qed.

(** Opening a chain: from its config, or anew. *)
Lemma dc_new_absent d h : file_cur (dd_cfg d) = None ->
  dc_new d h = Ok (MkDeriv (dd_blocks d) (dd_refs d) 0 h BEGINNING_DIFFICULTY (dd_cfg d)).
Proof. intros E. unfold dc_new. rewrite E. reflexivity. Qed.
Lemma dc_new_cfg d h k df g : k < 2 ^ 256 -> is_array 32 df -> is_array 32 g ->
  file_cur (dd_cfg d) = Some (height_key k ++ df ++ g) ->
  dc_new d h = Ok (MkDeriv (dd_blocks d) (dd_refs d) k g df (dd_cfg d)).
Proof.
  intros Hk [Hd _] [Hg _] E. unfold dc_new. rewrite E.
  replace (height_key k ++ df ++ g) with (concat [height_key k; df; g]) by (cbn [concat]; rewrite app_nil_r; reflexivity).
  rewrite read_fields_concat; [|reflexivity|exact (Forall_cons _ (height_key_length k) (Forall_cons _ Hd (Forall_cons _ Hg (Forall_nil _))))].
  cbn [bind index nth_error]. rewrite from_height_key by exact Hk. reflexivity.
Qed.
Lemma deriv_open p s L w n d h c : disk_inv p s L w n d -> N.of_nat n < 2 ^ 256 ->
  is_array 32 h -> (exists m, In m L /\ block_hash m = h) -> dc_new d h = Ok c ->
  exists B, deriv_inv p s L w c B /\ (length B <= n)%nat.
Proof.
  intros [H1 [H|(g & B & (df & Hdf & Hf) & H3 & H4 & H5 & H6)]] Hn Hh Hm E.
  - rewrite dc_new_absent in E by exact H. injection E as <-. exists []. split; [|apply Nat.le_0_l].
    split; cbn; [reflexivity|apply chain_ok_nil|auto|split; [reflexivity|repeat constructor; reflexivity]|exact H1|left; exact H].
  - rewrite (dc_new_cfg d h (N.of_nat (length B)) df g) in E by (try assumption; lia). injection E as <-. exists B. split; [|exact H4].
    split; cbn; [reflexivity|exact H6|auto|exact Hdf|exact H1|right]. exists (N.of_nat (length B)). split; [lia|].
    exists df. auto.
Qed.
Lemma dc_new_ok p s L w n d h : disk_inv p s L w n d -> N.of_nat n < 2 ^ 256 -> exists c, dc_new d h = Ok c.
Proof.
  intros [H1 [H|(g & B & (df & Hdf & Hf) & H3 & H4 & H5 & H6)]] Hn.
  - eexists. apply dc_new_absent, H.
  - eexists. apply (dc_new_cfg d h (N.of_nat (length B)) df g); try assumption. lia.
Qed.

(** Adding a block. *)
Definition dc_appended (i : basic_info) (c : deriv_chain) : deriv_chain :=
  MkDeriv (sled_insert (height_key (dc_height c)) (block_dump (DerivBlock i)) (dc_blocks c))
    (sled_insert (block_hash (DerivBlock i)) (height_key (dc_height c)) (dc_refs c))
    (dc_height c + 1) (dc_genesis c) (dc_difficulty c) (dc_cfg c).
Lemma dc_add_block_wrong i c : bi_height i <> dc_height c -> dc_add_block i c = (c, Err EChainAddingBlock).
Proof. intros H. unfold dc_add_block. destruct (N.eqb_spec (bi_height i) (dc_height c)); [contradiction|reflexivity]. Qed.
Lemma dc_add_block_right i c : bi_height i = dc_height c -> dc_height c + 1 < 2 ^ 256 ->
  dc_add_block i c = (dc_appended i c, Ok tt).
Proof.
  intros H Hb. unfold dc_add_block, u256_add. rewrite H, N.eqb_refl. cbn [negb].
  destruct (N.ltb_spec (dc_height c + 1) (2 ^ 256)); [reflexivity|lia].
Qed.

Lemma chained_snoc {A} (R : A -> A -> Prop) l x d : chained R l -> l <> [] -> R (last l d) x -> chained R (l ++ [x]).
Proof.
  induction 1 as [|y|y z l H _ IH]; intros Hne Hx; [contradiction|constructor; [exact Hx|constructor]|].
  cbn [app]. constructor; [exact H|]. apply IH; [discriminate|exact Hx].
Qed.

(** [i] may follow [B] on the chain of [w] starting at [g]. *)
Definition may_follow (p : profile) (L : list block) (w g : bytes) (B : list basic_info) (i : basic_info) : Prop :=
  bi_founder i = w /\
  match B with
  | [] => exists m, In m L /\ block_hash m = g /\ deriv_start p m i
  | x :: _ => deriv_link p (last B x) i
  end.

Lemma deriv_append p s L w c B i : deriv_inv p s L w c B -> info_wf i -> bi_height i = dc_height c ->
  dc_height c + 1 < 2 ^ 256 -> (s = true -> may_follow p L w (dc_genesis c) B i) ->
  deriv_inv p s L w (dc_appended i c) (B ++ [i]).
Proof.
  intros [H1 [C1 C2 C3 C4] H3 H4 H5 H6] Hi Hh Hlt Hf.
  split; cbn [dc_appended dc_height dc_blocks dc_genesis dc_difficulty dc_refs dc_cfg].
  - rewrite app_length. cbn [length]. lia.
  - split.
    + intros k x Hx. pose proof (nthN_some _ _ _ Hx) as Hk. rewrite app_length in Hk. cbn [length] in Hk.
      rewrite sled_get_insert, height_key_eqb by lia. destruct (N.eqb_spec k (dc_height c)) as [->|Hne].
      * rewrite H1, nthN_snoc in Hx. injection Hx as ->. reflexivity.
      * apply C1. rewrite nthN_app1 in Hx by lia. exact Hx.
    + intros k x Hx. pose proof (nthN_some _ _ _ Hx) as Hk. rewrite app_length in Hk. cbn [length] in Hk.
      destruct (N.eqb_spec k (dc_height c)) as [->|Hne].
      * rewrite H1, nthN_snoc in Hx. injection Hx as <-. exact Hh.
      * apply C2. rewrite nthN_app1 in Hx by lia. exact Hx.
    + apply Forall_app. split; [exact C3|]. constructor; [exact Hi|constructor].
    + intros E. destruct (C4 E) as (F1 & F2 & F3). destruct (Hf E) as [G1 G2]. split; [|split].
      * apply Forall_app. split; [exact F1|]. constructor; [exact G1|constructor].
      * destruct B as [|x B]; [constructor|]. apply chained_snoc with (d := x); [exact F2|discriminate|exact G2].
      * intros x Hx. destruct B as [|y B]; [|apply F3, Hx]. cbn in Hx. injection Hx as <-. exact G2.
  - exact H3.
  - exact H4.
  - intros h v. rewrite sled_get_insert. destruct (bytes_eqb h _) eqn:Eb; [|apply H5]. intros E. injection E as <-. apply bytes_eqb_eq in Eb. exists i. split; [exact Hi|]. split; [exact Eb|rewrite Hh; reflexivity].
  - destruct H6 as [H6|(h & Hh' & Hc)]; [left; exact H6|right; exists h; split; [lia|exact Hc]].
Qed.

Lemma dc_cfg_flush c : file_cur (dc_cfg (dc_flush c)) = Some (height_key (dc_height c) ++ dc_difficulty c ++ dc_genesis c).
Proof.
  cbn [dc_flush dc_dump_config dc_cfg]. rewrite !file_cur_append, file_cur_truncate. cbn [app]. rewrite <- app_assoc. reflexivity.
Qed.
Lemma deriv_flush p s L w c B : deriv_inv p s L w c B -> deriv_inv p s L w (dc_flush c) B.
Proof.
  intros [H1 H2 H3 H4 H5 H6]. split; [exact H1|apply (chain_ok_ext p s L L w (dc_blocks c)); [exact H2|intros k; reflexivity|auto]|exact H3|exact H4|exact H5|].
  right. exists (dc_height c). split; [reflexivity|]. exists (dc_difficulty c). split; [exact H4|]. exact (dc_cfg_flush c).
Qed.

(** Lookups *)
Lemma deriv_find_raw p s L w c B i x : deriv_inv p s L w c B -> nthN B i = Some x ->
  dc_find_raw_by_height i c = Some (block_dump (DerivBlock x)).
Proof.
  intros [H1 H2 _ _ _ _] Hx. unfold dc_find_raw_by_height. pose proof (nthN_some _ _ _ Hx).
  destruct (N.ltb_spec (dc_height c) i); [lia|]. apply (co_blocks _ _ _ _ _ _ _ H2), Hx.
Qed.
Lemma dc_decode_dump i : info_wf i -> dc_decode (Some (block_dump (DerivBlock i))) = Ok (Some (DerivBlock i)).
Proof.
  intros H. unfold dc_decode. pose proof (deriv_roundtrip i H) as E.
  assert (Hs : slice_from (block_dump (DerivBlock i)) 1 = Ok (tl (block_dump (DerivBlock i)))).
  { rewrite block_dump_eq. reflexivity. }
  rewrite Hs. cbn [bind]. rewrite E. reflexivity.
Qed.
Lemma deriv_last p s L w c B : deriv_inv p s L w c B ->
  dc_get_last_block c = Ok (match B with [] => None | x :: _ => Some (DerivBlock (last B x)) end).
Proof.
  intros H. pose proof (di_height _ _ _ _ _ _ H) as Hh. unfold dc_get_last_block, dc_get_last_raw_block. rewrite Hh.
  destruct B as [|x B]; [reflexivity|]. set (l := x :: B) in *.
  assert (Hl : 0 < N.of_nat (length l)) by (cbn; lia).
  destruct (N.eqb_spec (N.of_nat (length l)) 0); [lia|]. unfold u256_sub.
  destruct (N.leb_spec 1 (N.of_nat (length l))); [|lia]. cbn [bind].
  assert (Hn : nthN l (N.of_nat (length l) - 1) = Some (last l x)) by (apply nthN_last; discriminate).
  rewrite (deriv_find_raw _ _ _ _ _ _ _ _ H Hn). apply dc_decode_dump.
  pose proof (co_wf _ _ _ _ _ _ _ (di_chain _ _ _ _ _ _ H)) as W. rewrite Forall_forall in W. apply W. eapply nthN_in, Hn.
Qed.

(** ** Derivative chains of a tree *)
Definition derivs_inv (p : profile) (s : bool) (L : list block) (n : nat) (t : bct) : Prop :=
  NoDup (map fst (t_derivs t)) /\
  (forall w c, In (w, c) (t_derivs t) -> is_array 33 w /\ exists B, deriv_inv p s L w c B /\ (length B <= n)%nat) /\
  (forall w d, is_array 33 w -> assoc_get (hex_encode w) (t_closed t) = Some d -> disk_inv p s L w n d).

Lemma derivs_inv_get p s L n t w c : derivs_inv p s L n t -> assoc_get w (t_derivs t) = Some c ->
  is_array 33 w /\ exists B, deriv_inv p s L w c B /\ (length B <= n)%nat.
Proof. intros (_ & H & _) E. apply H, assoc_get_in, E. Qed.

Lemma derivs_inv_same p s L L' n n' t t' : derivs_inv p s L n t -> (forall m, In m L -> In m L') -> (n <= n')%nat ->
  t_derivs t' = t_derivs t -> t_closed t' = t_closed t -> derivs_inv p s L' n' t'.
Proof.
  intros (H1 & H2 & H3) Hin Hn E1 E2. unfold derivs_inv. rewrite E1, E2. split; [exact H1|]. split.
  - intros w c H. destruct (H2 w c H) as (Hw & B & HB & Hl). split; [exact Hw|]. exists B. split; [eapply deriv_inv_mono; eassumption|lia].
  - intros w d Hw H. eapply disk_inv_mono; [apply H3; eassumption|exact Hin|exact Hn].
Qed.

Lemma derivs_inv_set p s L n t w c B : derivs_inv p s L n t -> is_array 33 w -> deriv_inv p s L w c B -> (length B <= n)%nat ->
  derivs_inv p s L n (with_derivs t (assoc_set w c (t_derivs t))).
Proof.
  intros (H1 & H2 & H3) Hw HB Hl. split; [|split]; cbn [with_derivs t_derivs t_closed].
  - apply assoc_set_nodup, H1.
  - intros w' c' H. apply assoc_set_in in H as [E|H]; [|apply H2, H]. apply pair_inv in E as [-> ->]. eauto.
  - exact H3.
Qed.

(** The disk a chain is opened from. *)
Definition disk_of (w : bytes) (t : bct) : deriv_disk :=
  match assoc_get (hex_encode w) (t_closed t) with Some d => d | None => deriv_disk_empty end.
Lemma disk_of_inv p s L n t w : derivs_inv p s L n t -> is_array 33 w -> disk_inv p s L w n (disk_of w t).
Proof.
  intros (_ & _ & H) Hw. unfold disk_of. destruct (assoc_get _ _) as [d|] eqn:E; [apply H; assumption|].
  split; [intros h v Hv; discriminate Hv|left; reflexivity].
Qed.

Lemma get_deriv_spec p s L n t w : tree_inv t L -> N.of_nat (length L) < 2 ^ 256 -> derivs_inv p s L n t -> N.of_nat n < 2 ^ 256 -> is_array 33 w ->
  (exists c, assoc_get w (t_derivs t) = Some c /\ t_get_derivative_chain w t = (t, Ok c)) \/
  (assoc_get w (t_derivs t) = None /\ (exists i, last L genesis = DerivBlock i) /\
   t_get_derivative_chain w t = (t, Err EChainFindByHeight)) \/
  (assoc_get w (t_derivs t) = None /\ readable (last L genesis) /\
   exists c, dc_new (disk_of w t) (block_hash (last L genesis)) = Ok c /\
     t_get_derivative_chain w t = (with_derivs t (assoc_set w c (t_derivs t)), Ok c)).
Proof.
  intros HL Hlen HD Hn Hw. unfold t_get_derivative_chain. destruct (assoc_get w (t_derivs t)) as [c|] eqn:E; [left; eauto|right].
  destruct (tree_last t L HL Hlen) as [[Hr Hl]|[Hi Hl]]; [right|left].
  - split; [reflexivity|]. split; [exact Hr|]. rewrite Hl. cbn [bind unwrap_opt].
    destruct (dc_new_ok p s L w n _ (block_hash (last L genesis)) (disk_of_inv p s L n t w HD Hw) Hn) as (c & Hc).
    fold (disk_of w t). exists c. split; [exact Hc|]. rewrite Hc. reflexivity.
  - split; [reflexivity|]. split; [exact Hi|]. rewrite Hl. reflexivity.
Qed.

Lemma get_deriv_inv p s L n t w : tree_inv t L -> N.of_nat (length L) < 2 ^ 256 -> derivs_inv p s L n t -> N.of_nat n < 2 ^ 256 -> is_array 33 w ->
  derivs_inv p s L n (fst (t_get_derivative_chain w t)) /\
  match snd (t_get_derivative_chain w t) with
  | Ok c => assoc_get w (t_derivs (fst (t_get_derivative_chain w t))) = Some c
  | Err e => e = EChainFindByHeight /\ fst (t_get_derivative_chain w t) = t
  | _ => False
  end.
Proof.
  intros HL Hlen HD Hn Hw. destruct (get_deriv_spec p s L n t w HL Hlen HD Hn Hw) as [(c & E & G)|[(E & _ & G)|(E & _ & c & Hc & G)]]; rewrite G; cbn [fst snd].
  - split; [exact HD|exact E].
  - split; [exact HD|]. split; reflexivity.
  - pose proof (tree_inv_ne _ _ HL) as Hne.
    destruct (deriv_open p s L w n _ _ c (disk_of_inv p s L n t w HD Hw) Hn (sha_ok _) (ex_intro _ _ (conj (last_in L genesis Hne) eq_refl)) Hc) as (B & HB & Hl).
    split; [eapply derivs_inv_set; eassumption|]. cbn [with_derivs t_derivs]. rewrite assoc_get_set, bytes_eqb_refl. reflexivity.
Qed.

Lemma emit_deriv_spec p s L n t pow founder ts t1 t' r :
  tree_inv t L -> N.of_nat (length L) < 2 ^ 256 -> derivs_inv p s L n t -> N.of_nat n + 1 < 2 ^ 256 ->
  is_array 32 pow -> is_array 33 founder -> u64_ok ts ->
  t1 = fst (t_get_derivative_chain founder t) ->
  t_emmit_new_derivative_block p pow founder ts t = (t', r) ->
  match r with
  | Ok b => exists i c B, b = DerivBlock i /\ t_get_derivative_chain founder t = (t1, Ok c) /\ assoc_get founder (t_derivs t1) = Some c /\ deriv_inv p s L founder c B /\ (length B <= n)%nat /\
      may_follow p L founder (dc_genesis c) B i /\ info_wf i /\ bi_height i = dc_height c /\
      bi_timestamp i = ts /\ bi_pow i = pow /\
      t' = with_derivs t1 (assoc_set founder (dc_appended i c) (t_derivs t1))
  | _ => t' = t1
  end.
Proof.
  intros HL Hlen HD Hn Hpow Hf Hts Et1 E. destruct (get_deriv_inv p s L n t founder HL Hlen HD ltac:(lia) Hf) as [HD1 Hg].
  unfold t_emmit_new_derivative_block in E. pose proof (get_deriv_main founder t) as Hm. rewrite <- Et1 in HD1, Hm.
  destruct (t_get_derivative_chain founder t) as [t1' rc] eqn:EG. cbn [fst snd] in *. subst t1'.
  destruct rc as [c|e| |]; [set (c00 := c) in |- *|apply pair_inv in E as [<- <-]; reflexivity|contradiction|contradiction].
  destruct (derivs_inv_get _ _ _ _ _ _ _ HD1 Hg) as (_ & B & HB & HlB).
  assert (Hadd : forall prev_hash difficulty prev_ts height,
    is_array 32 prev_hash -> is_array 32 difficulty -> height = dc_height c ->
    (forall i, bi_founder i = founder -> header_follows p prev_hash difficulty prev_ts height ff32 i -> may_follow p L founder (dc_genesis c) B i) ->
    forall r1, r1 = (let! ok := check_pow prev_hash difficulty [] pow in
        if negb ok then Err ETreeWrongPow
        else let! d := recalculate_difficulty p prev_ts ts difficulty in Ok (MkInfo ts pow prev_hash height d founder)) ->
    match r1 with
    | Ok i => may_follow p L founder (dc_genesis c) B i /\ info_wf i /\ bi_height i = dc_height c /\ bi_timestamp i = ts /\ bi_pow i = pow
    | _ => True
    end).
  { intros ph df pts h Hph Hdf Hh Hmf r1 ->. rewrite check_pow_eq. cbn [bind].
    destruct (N.leb_spec (count_leading_zeros df) (count_leading_zeros (sha256 (ph ++ mroot [] ++ pow)))) as [Hw|Hw]; cbn [negb]; [|exact I].
    rewrite mroot_nil in Hw. rewrite !clz_spec in Hw by (try apply Hdf; apply sha256_array).
    destruct (recalculate_difficulty p pts ts df) as [d|e| |] eqn:Ed; cbn [bind]; try exact I.
    pose proof (recalc_wf _ _ _ _ _ Hdf Ed) as Hd. split; [|split; [|auto]].
    - apply Hmf; [reflexivity|]. split; [reflexivity|]. split; [reflexivity|]. split; [exact Ed|exact Hw].
    - pose proof (di_height _ _ _ _ _ _ HB). assert (u256_ok h) by (unfold u256_ok; lia).
      refine (conj _ (conj _ (conj _ (conj _ (conj _ _))))); cbn; assumption. }
  assert (Hend : forall r1 : out basic_info,
    match r1 with
    | Ok i => may_follow p L founder (dc_genesis c) B i /\ info_wf i /\ bi_height i = dc_height c /\ bi_timestamp i = ts /\ bi_pow i = pow
    | _ => True
    end ->
    match r1 with
    | Ok info => let '(dc', ra) := dc_add_block info c in
        (with_derivs t1 (assoc_set founder dc' (t_derivs t1)),
         match ra with Ok _ => Ok (DerivBlock info) | Err e => Err e | Panic => Panic | UB => UB end)
    | Err e => (t1, Err e) | Panic => (t1, Panic) | UB => (t1, UB)
    end = (t', r) ->
    match r with
    | Ok b => exists i c B, b = DerivBlock i /\ (t1, Ok c00) = (t1, Ok c) /\ assoc_get founder (t_derivs t1) = Some c /\ deriv_inv p s L founder c B /\ (length B <= n)%nat /\
        may_follow p L founder (dc_genesis c) B i /\ info_wf i /\ bi_height i = dc_height c /\
        bi_timestamp i = ts /\ bi_pow i = pow /\
        t' = with_derivs t1 (assoc_set founder (dc_appended i c) (t_derivs t1))
    | _ => t' = t1
    end).
  { intros r1 Hr E1. destruct r1 as [i|e| |]; try (apply pair_inv in E1 as [<- <-]; reflexivity).
    destruct Hr as (R1 & R2 & R3 & R4 & R5). pose proof (di_height _ _ _ _ _ _ HB) as Hh.
    rewrite dc_add_block_right in E1 by (try exact R3; lia). apply pair_inv in E1 as [<- <-].
    exists i, c, B. exact (conj eq_refl (conj eq_refl (conj Hg (conj HB (conj HlB (conj R1 (conj R2 (conj R3 (conj R4 (conj R5 eq_refl)))))))))). }
  rewrite (deriv_last _ _ _ _ _ _ HB) in E. cbn [bind] in E. pose proof (di_height _ _ _ _ _ _ HB) as Hh.
  destruct B as [|x B].
  - destruct (di_genesis _ _ _ _ _ _ HB) as [Hga (m & Hm1 & Hm2)].
    assert (HLt1 : tree_inv t1 L) by (eapply tree_inv_main; eassumption).
    pose proof (main_find_raw_hash _ L (dc_genesis c) (ti_main _ _ HLt1) Hlen) as Hfh. unfold mc_find_by_hash in E.
    destruct (mc_find_raw_by_hash (dc_genesis c) (t_main t1)) as [[d|]|e| |]; try contradiction.
    2:{ contradiction (Hfh m Hm1 Hm2). }
    destruct Hfh as (k & b & Hk & -> & Hbh). cbn [bind] in E.
    destruct (tree_readable t1 L k b HLt1 Hlen Hk) as [Hrb|(info & ->)].
    + rewrite (readable_decode b Hrb) in E. cbn [bind] in E. eapply Hend; [|exact E].
      eapply Hadd; [| | |intros i Hi1 Hi2|reflexivity].
      * apply sha_ok.
      * split; [reflexivity|repeat constructor; reflexivity].
      * symmetry. exact Hh.
      * split; [exact Hi1|]. exists b. split; [eapply nthN_in, Hk|]. split; [exact Hbh|exact Hi2].
    + unfold mc_decode in E. rewrite deserialize_deriv in E. cbn [change_context bind] in E. apply pair_inv in E as [<- <-]. reflexivity.
  - set (l := x :: B) in *. assert (Hn1 : nthN l (N.of_nat (length l) - 1) = Some (last l x)) by (apply nthN_last; discriminate).
    pose proof (di_chain _ _ _ _ _ _ HB) as [_ C2 C3 _]. pose proof (C2 _ _ Hn1) as Hhl.
    rewrite Forall_forall in C3. pose proof (C3 _ (nthN_in _ _ _ Hn1)) as (_ & _ & _ & _ & Hdl & _).
    assert (Hl0 : 0 < N.of_nat (length l)) by (cbn; lia).
    cbn [get_info] in E. rewrite Hhl in E. unfold u256_add in E at 1.
    destruct (N.ltb_spec (N.of_nat (length l) - 1 + 1) (2 ^ 256)) as [_|]; [|lia]. cbn [bind] in E.
    eapply Hend; [|exact E]. eapply Hadd; [| | |intros i Hi1 Hi2|reflexivity].
    + apply sha_ok.
    + exact Hdl.
    + rewrite Hh. lia.
    + split; [exact Hi1|]. unfold l at 1. unfold deriv_link. rewrite Hhl. exact Hi2.
Qed.

Lemma emit_deriv_inv p s L n t pow founder ts :
  tree_inv t L -> N.of_nat (length L) < 2 ^ 256 -> derivs_inv p s L n t -> N.of_nat n + 1 < 2 ^ 256 ->
  is_array 32 pow -> is_array 33 founder -> u64_ok ts ->
  derivs_inv p s L (S n) (fst (t_emmit_new_derivative_block p pow founder ts t)).
Proof.
  intros HL Hlen HD Hn Hpow Hf Hts. destruct (t_emmit_new_derivative_block p pow founder ts t) as [t' r] eqn:E. cbn [fst].
  destruct (get_deriv_inv p s L n t founder HL Hlen HD ltac:(lia) Hf) as [HD1 _].
  assert (HD2 : derivs_inv p s L (S n) (fst (t_get_derivative_chain founder t))) by (eapply derivs_inv_same; [exact HD1|auto|lia|reflexivity..]).
  pose proof (emit_deriv_spec p s L n t pow founder ts _ t' r HL Hlen HD Hn Hpow Hf Hts eq_refl E) as S.
  destruct r as [b|e| |]; try (subst t'; exact HD2).
  destruct S as (i & c & B & -> & _ & Hc & HB & Hl & Hmf & Hi & Hh & _ & _ & ->).
  pose proof (di_height _ _ _ _ _ _ HB) as Hd.
  apply derivs_inv_set with (B := B ++ [i]); [exact HD2|exact Hf| |rewrite app_length; cbn; lia].
  apply deriv_append; [exact HB|exact Hi|exact Hh|lia|intros _; exact Hmf].
Qed.

(** Closing all chains. *)
Lemma close_derivs_get {A} (f : bytes -> A -> deriv_disk) k l : forall init,
  assoc_get k (fold_left (fun l oc => assoc_set (hex_encode (fst oc)) (f (fst oc) (snd oc)) l) l init) = assoc_get k init \/
  exists w c, In (w, c) l /\ hex_encode w = k /\
    assoc_get k (fold_left (fun l oc => assoc_set (hex_encode (fst oc)) (f (fst oc) (snd oc)) l) l init) = Some (f w c).
Proof.
  induction l as [|[w c] l IH]; intros init; cbn [fold_left]; [left; reflexivity|].
  destruct (IH (assoc_set (hex_encode w) (f w c) init)) as [E|(w' & c' & Hi & Hk & E)].
  - cbn [fst snd] in *. rewrite E, assoc_get_set. destruct (bytes_eqb k (hex_encode w)) eqn:Ek; [right|left; reflexivity].
    apply bytes_eqb_eq in Ek as ->. exists w, c. split; [left; reflexivity|]. split; reflexivity.
  - right. exists w', c'. split; [right; exact Hi|]. split; [exact Hk|exact E].
Qed.
Lemma close_derivs_open {A} (f : bytes -> A -> deriv_disk) w c l : NoDup (map fst l) -> (forall w' c', In (w', c') l -> bytes_ok w') ->
  In (w, c) l -> forall init,
  assoc_get (hex_encode w) (fold_left (fun l oc => assoc_set (hex_encode (fst oc)) (f (fst oc) (snd oc)) l) l init) = Some (f w c).
Proof.
  intros Hd Hb Hi init.
  assert (Hex : forall init, In (w, c) l -> exists w' c', In (w', c') l /\ hex_encode w' = hex_encode w /\
     assoc_get (hex_encode w) (fold_left (fun l oc => assoc_set (hex_encode (fst oc)) (f (fst oc) (snd oc)) l) l init) = Some (f w' c')).
  { clear Hd Hb Hi init. induction l as [|[a x] l IH]; intros init Hi; [destruct Hi|]. cbn [fold_left]. destruct Hi as [E|Hi].
    - apply pair_inv in E as [-> ->]. destruct (close_derivs_get f (hex_encode w) l (assoc_set (hex_encode w) (f w c) init)) as [E|(w' & c' & Hi & Hk & E)].
      + exists w, c. cbn [fst snd]. rewrite E, assoc_get_set, bytes_eqb_refl. split; [left; reflexivity|]. split; reflexivity.
      + exists w', c'. split; [right; exact Hi|]. split; [exact Hk|exact E].
    - destruct (IH (assoc_set (hex_encode a) (f a x) init) Hi) as (w' & c' & H1 & H2 & H3). exists w', c'. split; [right; exact H1|]. split; [exact H2|exact H3]. }
  destruct (Hex init Hi) as (w' & c' & H1 & H2 & H3). apply hex_encode_inj in H2; [|eapply Hb; eassumption..]. subst w'.
  rewrite H3. pose proof (assoc_in_get _ _ _ Hd H1) as G1. pose proof (assoc_in_get _ _ _ Hd Hi) as G2. congruence.
Qed.

Lemma derivs_inv_closed p s L n t : derivs_inv p s L n t -> forall w d, is_array 33 w ->
  assoc_get (hex_encode w) (close_derivs (fun _ => dc_close) t) = Some d -> disk_inv p s L w n d.
Proof.
  intros (H1 & H2 & H3) w d Hw E. unfold close_derivs in E.
  destruct (close_derivs_get (fun _ : bytes => dc_close) (hex_encode w) (t_derivs t) (t_closed t)) as [G|(w' & c & Hi & Hk & G)].
  - rewrite G in E. apply H3; assumption.
  - rewrite G in E. injection E as <-. destruct (H2 _ _ Hi) as (Hw' & B & HB & Hl).
    apply hex_encode_inj in Hk; [|apply Hw'|apply Hw]. subst w'. eapply deriv_close; eassumption.
Qed.

(** Every call. *)
Definition strict_ok (s : bool) (o : op) : Prop := s = true -> no_raw_deriv o.

Lemma on_summary_derivs f t : t_derivs (fst (t_on_summary f t)) = t_derivs t /\ t_closed (fst (t_on_summary f t)) = t_closed t.
Proof. unfold t_on_summary. destruct (f (t_summary t)). split; reflexivity. Qed.
Lemma on_gas_derivs f t : t_derivs (fst (t_on_gas f t)) = t_derivs t /\ t_closed (fst (t_on_gas f t)) = t_closed t.
Proof. unfold t_on_gas. destruct (f (t_gas t)). split; reflexivity. Qed.
Lemma send_amount_derivs x y a t : t_derivs (fst (t_send_amount x y a t)) = t_derivs t /\ t_closed (fst (t_send_amount x y a t)) = t_closed t.
Proof. unfold t_send_amount. destruct (bytes_eqb x y); [split; reflexivity|apply on_summary_derivs]. Qed.
Lemma send_tx_derivs tx t : t_derivs (fst (t_send_transaction tx t)) = t_derivs t /\ t_closed (fst (t_send_transaction tx t)) = t_closed t.
Proof.
  unfold t_send_transaction. match goal with |- context [match ?x with Ok _ => _ | Err _ => _ | Panic => _ | UB => _ end] => destruct x as [g|e| |] end;
    [|split; reflexivity..].
  set (t1 := with_main t _). pose proof (send_amount_derivs (tx_sender tx) (tx_receiver tx) (tx_amount tx) t1) as H.
  destruct (t_send_amount _ _ _ t1) as [t2 r]. cbn [fst] in H.
  destruct r as [u|e| |]; try exact H. unfold t_sub_gas. destruct (on_gas_derivs (led_sub (tx_sender tx) g) t2) as [E1 E2]. rewrite E1, E2. exact H.
Qed.
Lemma emit_main_derivs p pow founder txs ts t : t_derivs (fst (t_emmit_new_main_block p pow founder txs ts t)) = t_derivs t /\
  t_closed (fst (t_emmit_new_main_block p pow founder txs ts t)) = t_closed t.
Proof.
  unfold t_emmit_new_main_block. match goal with |- context [match ?x with Ok _ => _ | Err _ => _ | Panic => _ | UB => _ end] => destruct x as [[fee info]|e| |] end;
    [|split; reflexivity..].
  assert (Hb : forall t1 rb, t_derivs t1 = t_derivs t /\ t_closed t1 = t_closed t ->
    let x := (let '(t1, rb) := (t1, rb) in match rb with
      | Ok b => let '(m, ra) := mc_add_block b (t_main t1) in
          (with_main t1 m, match ra with Ok _ => Ok b | Err e => Err e | Panic => Panic | UB => UB end)
      | e => (t1, e) end : bct * out block) in t_derivs (fst x) = t_derivs t /\ t_closed (fst x) = t_closed t).
  { intros t1 [b|e| |] H; cbn; try exact H. destruct (mc_add_block b (t_main t1)). exact H. }
  destruct (_ =? 0).
  - destruct txs; [|apply (Hb t (Err ETreeSummarizeWrongTxAmount)); split; reflexivity].
    destruct (t_summarize t) as [root|e| |]; [|split; reflexivity..].
    change (t_set_amount ROOT_PUBLIC_ADDRESS COINS_PER_CYCLE (t_rotate_dbs t)) with (rotated t, @Ok unit tt).
    apply (Hb (rotated t) (Ok (SummBlock info root))). split; reflexivity.
  - destruct txs; [split; reflexivity|]. destruct (let! tree := _ in _) as [root|e| |]; [|split; reflexivity..].
    apply (Hb t (Ok (TxBlock fee root info (b :: txs)))). split; reflexivity.
Qed.

Lemma step_derivs p s L n t o : tree_inv t L -> N.of_nat (length L) + 1 < 2 ^ 256 -> derivs_inv p s L n t -> N.of_nat n + 1 < 2 ^ 256 ->
  op_wf o -> strict_ok s o -> derivs_inv p s L (S n) (fst (step p t o)).
Proof.
  intros HL Hlen HD Hn Hwf Hs.
  assert (Hsame : forall t', t_derivs t' = t_derivs t /\ t_closed t' = t_closed t -> derivs_inv p s L (S n) t').
  { intros t' [E1 E2]. eapply derivs_inv_same; [exact HD|auto|lia|exact E1|exact E2]. }
  assert (HDS : derivs_inv p s L (S n) t) by (apply Hsame; split; reflexivity).
  destruct o; cbn [step ret_unit ret_block fst].
  - apply Hsame, on_summary_derivs.
  - apply Hsame, on_summary_derivs.
  - apply Hsame, on_summary_derivs.
  - apply Hsame, send_amount_derivs.
  - apply Hsame, on_gas_derivs.
  - apply Hsame, on_gas_derivs.
  - apply Hsame, on_gas_derivs.
  - apply Hsame, send_tx_derivs.
  - apply Hsame, emit_main_derivs.
  - destruct Hwf as (W1 & W2 & W3). apply emit_deriv_inv; try assumption. lia.
  - destruct (get_deriv_inv p s L (S n) t owner HL ltac:(lia) HDS ltac:(lia) Hwf) as [H _].
    destruct (t_get_derivative_chain owner t). exact H.
  - apply Hsame. unfold t_add_new_block. destruct (mc_add_block b (t_main t)) as [m [u|e| |]]; split; reflexivity.
  - apply Hsame. split; reflexivity.
  - destruct (assoc_get owner (t_derivs t)) as [c|] eqn:E; [|exact HDS]. destruct Hwf as [W1 W2].
    destruct (derivs_inv_get _ _ _ _ _ _ _ HD E) as (_ & B & HB & Hl). pose proof (di_height _ _ _ _ _ _ HB) as Hd.
    destruct (N.eq_dec (bi_height i) (dc_height c)) as [Eh|Eh].
    + rewrite dc_add_block_right by (try exact Eh; lia). cbn [fst].
      apply derivs_inv_set with (B := B ++ [i]); [exact HDS|exact W1| |rewrite app_length; cbn; lia].
      apply deriv_append; [exact HB|exact W2|exact Eh|lia|]. intros Es. destruct (Hs Es).
    + rewrite dc_add_block_wrong by exact Eh. cbn [fst]. eapply derivs_inv_set; [exact HDS|exact W1|exact HB|lia].
  - apply Hsame. split; reflexivity.
  - apply Hsame. split; reflexivity.
  - destruct (assoc_get owner (t_derivs t)) as [c|] eqn:E; [|exact HDS].
    destruct (derivs_inv_get _ _ _ _ _ _ _ HD E) as (_ & B & HB & Hl). cbn [fst].
    eapply derivs_inv_set; [exact HDS|exact Hwf|apply deriv_flush, HB|lia].
Qed.

Lemma reachable_derivs s ok p n t : reachable ok p n t -> (forall o, ok o -> strict_ok s o) -> few n ->
  exists L, tree_inv t L /\ (length L <= n + 1)%nat /\ derivs_inv p s L n t.
Proof.
  intros Hr Hok. unfold few. induction Hr as [t E|n t o Hr IH Hwf Ho|n t t' Hr IH E]; intros Hn.
  - exists [genesis]. split; [apply open_main, E|]. split; [cbn; lia|].
    unfold t_new in E. destruct (mc_new (k_main disk_empty)); cbn [bind] in E; try discriminate E. injection E as <-.
    split; [constructor|]. split; [intros w c []|]. intros w d _ H. discriminate H.
  - destruct IH as (L & HL & Hlen & HD); [lia|]. destruct (step_main p t o L HL Hwf) as (L' & HL' & Hg); [lia|].
    exists L'. split; [exact HL'|].
    pose proof (step_derivs p s L n t o HL ltac:(lia) HD ltac:(lia) Hwf (Hok o Ho)) as HD'.
    destruct Hg as [->|(b & -> & _)]; [split; [lia|exact HD']|]. rewrite app_length. cbn [length]. split; [lia|].
    eapply derivs_inv_same; [exact HD'| |apply Nat.le_refl|reflexivity|reflexivity]. intros m Hm. apply in_or_app. left. exact Hm.
  - destruct IH as (L & HL & Hlen & HD); [lia|].
    destruct (reopen_main t L HL) as (t1 & E1 & H1 & _ & _ & _ & _ & _ & _ & _ & _ & Hd & Hc); [lia|].
    rewrite E in E1. injection E1 as <-. exists L. split; [exact H1|]. split; [exact Hlen|].
    unfold derivs_inv. rewrite Hd, Hc. split; [constructor|]. split; [intros w c []|]. apply derivs_inv_closed, HD.
Qed.
