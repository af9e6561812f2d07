(** Lemmas about Chain.v: the main chain as a list of blocks. *)
From Coq Require Import Lia ZifyBool ZifyNat ZifyN.
From Verif Require Import Base Sha256 Merkle Tools Transaction Block Sled Chain Spec.
From Verif Require Import BaseFacts ToolsFacts MerkleFacts DiffFacts CodecFacts SledFacts.

Lemma height_key_inj i j : i < 2 ^ 256 -> j < 2 ^ 256 -> height_key i = height_key j -> i = j.
Proof. intros Hi Hj. apply to_be_inj; assumption. Qed.

Lemma height_key_eqb i j : i < 2 ^ 256 -> j < 2 ^ 256 -> bytes_eqb (height_key i) (height_key j) = (i =? j).
Proof.
  intros Hi Hj. destruct (N.eqb_spec i j) as [->|H]; [apply bytes_eqb_refl|].
  apply bytes_eqb_neq. intros E. apply H. apply height_key_inj; assumption.
Qed.

Lemma height_key_length i : length (height_key i) = 32%nat.
Proof. apply to_be_length. Qed.

Lemma from_height_key i : i < 2 ^ 256 -> from_be (height_key i) = i.
Proof. intros H. apply from_to_be_small, H. Qed.

(** [nth_error] with an [N] index. *)
Definition nthN {A} (l : list A) (i : N) : option A := nth_error l (N.to_nat i).

Lemma nthN_some {A} (l : list A) i x : nthN l i = Some x -> i < N.of_nat (length l).
Proof. unfold nthN. intros H. assert (nth_error l (N.to_nat i) <> None) as H1 by congruence. apply nth_error_Some in H1. lia. Qed.
Lemma nthN_none {A} (l : list A) i : N.of_nat (length l) <= i -> nthN l i = None.
Proof. intros H. apply nth_error_None. lia. Qed.
Lemma nthN_ex {A} (l : list A) i : i < N.of_nat (length l) -> exists x, nthN l i = Some x.
Proof.
  intros H. unfold nthN. destruct (nth_error l (N.to_nat i)) eqn:E; [eauto|]. apply nth_error_None in E. lia.
Qed.
Lemma nthN_app1 {A} (l m : list A) i : i < N.of_nat (length l) -> nthN (l ++ m) i = nthN l i.
Proof. intros H. apply nth_error_app1. lia. Qed.
Lemma nthN_snoc {A} (l : list A) x : nthN (l ++ [x]) (N.of_nat (length l)) = Some x.
Proof. unfold nthN. rewrite Nnat.Nat2N.id, nth_error_app2, Nat.sub_diag by lia. reflexivity. Qed.
Lemma nthN_snoc_gt {A} (l : list A) x i : N.of_nat (length l) < i -> nthN (l ++ [x]) i = None.
Proof. intros H. apply nthN_none. rewrite app_length. cbn. lia. Qed.
Lemma nthN_in {A} (l : list A) i x : nthN l i = Some x -> In x l.
Proof. apply nth_error_In. Qed.

(** ** Main chain *)

(** The chain stores exactly the blocks [L], oldest first. *)
Record main_inv (mc : main_chain) (L : list block) : Prop := {
  mi_height : mc_height mc = N.of_nat (length L);
  mi_blocks : forall i, i < 2 ^ 256 ->
    sled_get (height_key i) (mc_blocks mc) = option_map block_dump (nthN L i);
  mi_heights : forall i b, nthN L i = Some b -> bi_height (get_info b) = i;
  mi_refs_sound : forall h v, sled_get h (mc_refs mc) = Some v ->
    exists i b, nthN L i = Some b /\ block_hash b = h /\ v = height_key i;
  mi_refs_complete : forall i b, nthN L i = Some b -> sled_get (block_hash b) (mc_refs mc) <> None
}.

Lemma mc_add_block_wrong b mc : bi_height (get_info b) <> mc_height mc ->
  mc_add_block b mc = (mc, Err EChainAddingBlock).
Proof. intros H. unfold mc_add_block. destruct (N.eqb_spec (bi_height (get_info b)) (mc_height mc)); [contradiction|reflexivity]. Qed.

Definition mc_appended (b : block) (mc : main_chain) : main_chain :=
  MkMain (sled_insert (height_key (mc_height mc)) (block_dump b) (mc_blocks mc))
    (sled_insert (block_hash b) (height_key (mc_height mc)) (mc_refs mc)) (mc_txs mc)
    (mc_height mc + 1) (mc_difficulty mc) (mc_cfg mc).

Lemma mc_add_block_right b mc : bi_height (get_info b) = mc_height mc -> mc_height mc + 1 < 2 ^ 256 ->
  mc_add_block b mc = (mc_appended b mc, Ok tt).
Proof.
  intros H Hb. unfold mc_add_block, u256_add. rewrite H, N.eqb_refl. cbn [negb].
  destruct (N.ltb_spec (mc_height mc + 1) (2 ^ 256)); [reflexivity|lia].
Qed.

Lemma main_inv_append mc L b : main_inv mc L -> bi_height (get_info b) = mc_height mc ->
  mc_height mc + 1 < 2 ^ 256 -> main_inv (mc_appended b mc) (L ++ [b]).
Proof.
  intros [Hh Hb Hhs Hrs Hrc] Heq Hlt. split; cbn [mc_appended mc_height mc_blocks mc_refs].
  - rewrite app_length. cbn [length]. lia.
  - intros i Hi. rewrite sled_get_insert, height_key_eqb by lia.
    destruct (N.eqb_spec i (mc_height mc)) as [->|Hne].
    + rewrite Hh, nthN_snoc. reflexivity.
    + rewrite Hb by exact Hi. destruct (N.lt_ge_cases i (N.of_nat (length L))) as [Hc|Hc].
      * rewrite nthN_app1 by exact Hc. reflexivity.
      * rewrite nthN_none, nthN_snoc_gt by lia. reflexivity.
  - intros i x Hx. destruct (N.lt_trichotomy i (N.of_nat (length L))) as [Hc|[Hc|Hc]].
    + rewrite nthN_app1 in Hx by exact Hc. apply Hhs, Hx.
    + subst i. rewrite nthN_snoc in Hx. injection Hx as <-. lia.
    + rewrite nthN_snoc_gt in Hx by exact Hc. discriminate.
  - intros h v. rewrite sled_get_insert. destruct (bytes_eqb h (block_hash b)) eqn:E.
    + intros Hv. injection Hv as <-. apply bytes_eqb_eq in E as ->.
      exists (N.of_nat (length L)), b. rewrite nthN_snoc, Hh. auto.
    + intros Hv. destruct (Hrs h v Hv) as (i & x & Hx & Hxh & ->). exists i, x.
      rewrite nthN_app1 by (eapply nthN_some; exact Hx). auto.
  - intros i x Hx. rewrite sled_get_insert. destruct (bytes_eqb (block_hash x) (block_hash b)) eqn:E; [discriminate|].
    destruct (N.lt_trichotomy i (N.of_nat (length L))) as [Hc|[Hc|Hc]].
    + rewrite nthN_app1 in Hx by exact Hc. apply (Hrc i), Hx.
    + subst i. rewrite nthN_snoc in Hx. injection Hx as <-. rewrite bytes_eqb_refl in E. discriminate.
    + rewrite nthN_snoc_gt in Hx by exact Hc. discriminate.
Qed.

(** The invariant only reads the contents of two databases and the height. *)
Lemma main_inv_ext mc mc' L : main_inv mc L -> mc_height mc' = mc_height mc ->
  (forall k, sled_get k (mc_blocks mc') = sled_get k (mc_blocks mc)) ->
  (forall k, sled_get k (mc_refs mc') = sled_get k (mc_refs mc)) -> main_inv mc' L.
Proof.
  intros [Hh Hb Hhs Hrs Hrc] E1 E2 E3. split.
  - congruence.
  - intros i Hi. rewrite E2. apply Hb, Hi.
  - exact Hhs.
  - intros h v. rewrite E3. apply Hrs.
  - intros i b. rewrite E3. apply Hrc.
Qed.

Lemma main_inv_add_transaction tx mc L : main_inv mc L -> main_inv (mc_add_transaction tx mc) L.
Proof. intros H. apply (main_inv_ext mc); [exact H|reflexivity..]. Qed.
Lemma main_inv_add_transactions txs mc L : main_inv mc L -> main_inv (mc_add_transactions txs mc) L.
Proof.
  revert mc; induction txs as [|tx txs IH]; intros mc H; [exact H|].
  apply (IH (mc_add_transaction tx mc)), main_inv_add_transaction, H.
Qed.
Lemma main_inv_flush mc L : main_inv mc L -> main_inv (mc_flush mc) L.
Proof. intros H. apply (main_inv_ext mc); [exact H|reflexivity..]. Qed.

(** Lookups *)
Lemma main_find_raw mc L i : main_inv mc L -> N.of_nat (length L) < 2 ^ 256 ->
  mc_find_raw_by_height i mc = option_map block_dump (nthN L i).
Proof.
  intros H Hlen. unfold mc_find_raw_by_height. rewrite (mi_height _ _ H).
  destruct (N.ltb_spec (N.of_nat (length L)) i).
  - rewrite nthN_none by lia. reflexivity.
  - apply (mi_blocks _ _ H). lia.
Qed.

Lemma main_last_raw mc L : main_inv mc L -> L <> [] -> N.of_nat (length L) < 2 ^ 256 ->
  mc_get_last_raw_block mc = Ok (option_map block_dump (nthN L (N.of_nat (length L) - 1))).
Proof.
  intros H Hne Hlen. unfold mc_get_last_raw_block, u256_sub. rewrite (mi_height _ _ H).
  destruct (N.leb_spec 1 (N.of_nat (length L))) as [_|Hc].
  - cbn [bind]. rewrite main_find_raw with (L := L) by assumption. reflexivity.
  - destruct L; [contradiction|cbn [length] in Hc; lia].
Qed.

Lemma nthN_last {A} (l : list A) d : l <> [] -> nthN l (N.of_nat (length l) - 1) = Some (last l d).
Proof.
  intros H. destruct (exists_last H) as (l' & x & ->). rewrite app_length. cbn [length].
  replace (N.of_nat (length l' + 1) - 1) with (N.of_nat (length l')) by lia.
  rewrite nthN_snoc, last_last. reflexivity.
Qed.

Lemma main_last_raw' mc L d : main_inv mc L -> L <> [] -> N.of_nat (length L) < 2 ^ 256 ->
  mc_get_last_raw_block mc = Ok (Some (block_dump (last L d))).
Proof. intros H Hne Hlen. rewrite (main_last_raw mc L) by assumption. rewrite (nthN_last L d Hne). reflexivity. Qed.

(** Blocks the main chain can read back. *)
Definition readable (b : block) : Prop :=
  block_wf b /\ match b with
                | TxBlock _ _ i _ => bi_height i <> 0
                | DerivBlock _ => False
                | SummBlock _ _ => True
                end.
Lemma readable_decode b : readable b -> mc_decode (Some (block_dump b)) = Ok (Some b).
Proof.
  intros [Hwf Hk]. unfold mc_decode. destruct b as [fee root info txs|info|info root].
  - rewrite deserialize_tx by assumption. reflexivity.
  - contradiction.
  - rewrite deserialize_summ by assumption. reflexivity.
Qed.

Lemma main_last_block mc L d : main_inv mc L -> L <> [] -> N.of_nat (length L) < 2 ^ 256 ->
  readable (last L d) -> mc_get_last_block mc = Ok (Some (last L d)).
Proof.
  intros H Hne Hlen Hr. unfold mc_get_last_block. rewrite (main_last_raw' mc L d) by assumption. cbn [bind].
  apply readable_decode, Hr.
Qed.

Lemma main_find_height mc L i b : main_inv mc L -> N.of_nat (length L) < 2 ^ 256 ->
  nthN L i = Some b -> readable b -> mc_find_by_height i mc = Ok (Some b).
Proof.
  intros H Hlen Hn Hr. unfold mc_find_by_height. rewrite (main_find_raw mc L) by assumption.
  rewrite Hn. apply readable_decode, Hr.
Qed.

Lemma main_find_raw_hash mc L h : main_inv mc L -> N.of_nat (length L) < 2 ^ 256 ->
  match mc_find_raw_by_hash h mc with
  | Ok (Some d) => exists i b, nthN L i = Some b /\ d = block_dump b /\ block_hash b = h
  | Ok None => forall b, In b L -> block_hash b <> h
  | _ => False
  end.
Proof.
  intros H Hlen. unfold mc_find_raw_by_hash. destruct (sled_get h (mc_refs mc)) as [v|] eqn:E.
  - destruct (mi_refs_sound _ _ H _ _ E) as (i & b & Hn & Hh & ->).
    rewrite height_key_length. cbn [Nat.ltb Nat.leb].
    pose proof (nthN_some _ _ _ Hn) as Hi. rewrite from_height_key by lia.
    rewrite (main_find_raw mc L) by assumption. rewrite Hn. cbn [option_map]. exists i, b. auto.
  - intros b Hin Hb. apply In_nth_error in Hin as (n & Hn).
    assert (nthN L (N.of_nat n) = Some b) as Hn' by (unfold nthN; rewrite Nnat.Nat2N.id; exact Hn).
    apply (mi_refs_complete _ _ H) in Hn'. congruence.
Qed.

(** ** Opening *)
Lemma genesis_root : exists root, genesis_block = Ok (SummBlock genesis_info root) /\ is_array 32 root.
Proof.
  exists (mroot [genesis_leaf]). split; [|apply mroot_array].
  unfold genesis_block. pose proof (mroot_ok [genesis_leaf]) as H.
  destruct (build_tree [genesis_leaf]) as [t|e| |]; cbn [bind] in *; try discriminate. rewrite H. reflexivity.
Qed.
Definition genesis : block := SummBlock genesis_info (mroot [genesis_leaf]).
Lemma genesis_eq : genesis_block = Ok genesis.
Proof.
  unfold genesis_block, genesis. pose proof (mroot_ok [genesis_leaf]) as H.
  destruct (build_tree [genesis_leaf]) as [t|e| |]; cbn [bind] in *; try discriminate. rewrite H. reflexivity.
Qed.
Lemma genesis_info_wf : info_wf genesis_info.
Proof. repeat split; try reflexivity; repeat constructor; reflexivity. Qed.
Lemma genesis_readable : readable genesis.
Proof. split; [|exact I]. split; [exact genesis_info_wf|apply mroot_array]. Qed.

Definition mc_fresh : main_chain :=
  mc_appended genesis (MkMain sled_empty sled_empty sled_empty 0 BEGINNING_DIFFICULTY file_absent).

Lemma mc_new_empty : mc_new (MkMainDisk sled_empty sled_empty sled_empty file_absent) = Ok mc_fresh.
Proof.
  unfold mc_new, mc_read_config. cbn [md_cfg file_cur file_absent f_pend f_dur last bind].
  cbn [N.eqb]. rewrite genesis_eq. cbn [bind md_blocks md_refs md_txs].
  rewrite mc_add_block_right by reflexivity. cbn [change_context bind]. reflexivity.
Qed.
Lemma mc_fresh_inv : main_inv mc_fresh [genesis].
Proof.
  apply (main_inv_append _ [] genesis); [|reflexivity|reflexivity].
  split; cbn.
  - reflexivity.
  - intros i Hi. rewrite nthN_none by (cbn; lia). reflexivity.
  - intros i b H. rewrite nthN_none in H by (cbn; lia). discriminate.
  - discriminate.
  - intros i b H. rewrite nthN_none in H by (cbn; lia). discriminate.
Qed.

(** Config file *)
Lemma file_cur_append d f : file_cur (file_append d f) = Some (match file_cur f with Some c => c | None => [] end ++ d).
Proof. unfold file_cur at 1, file_append. cbn [f_pend f_dur]. rewrite last_last. reflexivity. Qed.
Lemma file_cur_truncate f : file_cur (file_truncate f) = Some [].
Proof. unfold file_cur, file_truncate. cbn [f_pend f_dur]. rewrite last_last. reflexivity. Qed.
Lemma file_cur_settle f : file_cur (file_settle f) = file_cur f.
Proof. reflexivity. Qed.

Lemma read_fields_concat n : forall l, length l = n -> Forall (fun x : bytes => length x = 32%nat) l ->
  read_fields n (concat l) = Ok l.
Proof.
  induction n as [|n IH]; intros [|x l] Hn Hl; try discriminate; [reflexivity|].
  inversion Hl as [|? ? Hx Hl']; subst. cbn [concat read_fields].
  destruct (Nat.ltb_spec (length (x ++ concat l)) 32) as [Hc|_]; [rewrite app_length in Hc; lia|].
  rewrite skipn_app_exact, firstn_app_exact by exact Hx. cbn in Hn. rewrite IH by (try lia; exact Hl'). reflexivity.
Qed.

(** Flush, close, open: the same chain. *)
Lemma mc_cfg_flush mc : file_cur (mc_cfg (mc_flush mc)) = Some (height_key (mc_height mc) ++ mc_difficulty mc).
Proof.
  cbn [mc_flush mc_flush_txs mc_flush_refs mc_flush_blocks mc_dump_config mc_cfg].
  rewrite !file_cur_append, file_cur_truncate. reflexivity.
Qed.

Definition mc_close0 (m : main_chain) : main_disk :=
  MkMainDisk (sled_flush (mc_blocks m)) (sled_flush (mc_refs m)) (sled_flush (mc_txs m)) (file_settle (mc_cfg m)).

Lemma mc_reopen mc : length (mc_difficulty mc) = 32%nat -> 0 < mc_height mc < 2 ^ 256 ->
  exists mc', mc_new (mc_close0 (mc_flush mc)) = Ok mc' /\ mc_height mc' = mc_height mc /\
    mc_difficulty mc' = mc_difficulty mc /\
    mc_blocks mc' = sled_flush (mc_blocks mc) /\ mc_refs mc' = sled_flush (mc_refs mc) /\
    mc_txs mc' = sled_flush (mc_txs mc).
Proof.
  intros Hd Hh. unfold mc_new, mc_read_config. cbn [mc_close0 md_cfg]. rewrite file_cur_settle, mc_cfg_flush.
  replace (height_key (mc_height mc) ++ mc_difficulty mc) with (concat [height_key (mc_height mc); mc_difficulty mc])
    by (cbn [concat]; rewrite app_nil_r; reflexivity).
  rewrite read_fields_concat by first [reflexivity | constructor; [apply height_key_length|constructor; [exact Hd|constructor]]].
  cbn [bind index nth_error]. rewrite from_height_key by lia.
  destruct (N.eqb_spec (mc_height mc) 0); [lia|]. eexists. split; [reflexivity|]. cbn. auto.
Qed.
