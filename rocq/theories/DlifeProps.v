(** Derivative chains in histories in which I/O operations fail, processes are killed and openings fail. *)
From Coq Require Import Lia ZifyBool ZifyNat ZifyN.
From Verif Require Import Base Sha256 Merkle Tools Transaction Block Sled Chain Tree Spec Reach QuietSpec Conc ConcTree ConcFlush ConcEmit Cancel ConcDeriv CrashSpec DcrashSpec HistSpec Io IoSpec LifeSpec DlifeSpec Demo.
From Verif Require Import BaseFacts ToolsFacts MerkleFacts DiffFacts CodecFacts SledFacts ChainFacts TreeFacts LedgerFacts CrashFacts ConcFacts EmitFacts DerivFacts IoFacts IoSure CodecProps MainProps DcrashProps HistProps DhistProps LifeFacts DlifeFacts.

Local Strategy 1000 [u256_mul u256_add u256_sub BYTE_GAS_PRICE t_get_amount t_get_gas mc_decode dc_decode recalculate_fee recalculate_difficulty t_send_amount t_sub_gas sled_get check_pow emit_block next_info dc_new mc_read_config genesis_block].

Lemma BD_ok : is_array 32 BEGINNING_DIFFICULTY. Proof. split; [reflexivity|repeat constructor; reflexivity]. Qed.
Lemma short_dcfg x : (length x < 96)%nat -> exists e, read_fields 3 x = Err e.
Proof.
  intros H. cbn [read_fields]. destruct (Nat.ltb_spec (length x) 32); [eexists; reflexivity|]. rewrite !skipn_length.
  destruct (Nat.ltb_spec (length x - 32) 32); [cbn [bind]; eexists; reflexivity|].
  destruct (Nat.ltb_spec (length x - 32 - 32) 32); [|lia]. cbn [bind]. eexists; reflexivity.
Qed.
Lemma made_wf p pow w ts c i (HE : forall v, sled_get (height_key (dc_height c - 1)) (dc_blocks c) = Some v -> exists x, info_wf x /\ v = block_dump (DerivBlock x)) :
  is_array 33 w -> is_array 32 pow -> u64_ok ts -> made p pow w ts c i -> info_wf i /\ bi_founder i = w.
Proof.
  intros Hw Hp Ht Hm.
  assert (G : forall ph df pts h, is_array 32 ph -> is_array 32 df -> h < 2 ^ 256 -> next_info p w pow ts ph df pts h = Ok i -> info_wf i /\ bi_founder i = w).
  { intros ph df pts h Hph Hdf Hh E. unfold next_info in E. destruct (check_pow ph df [] pow) as [ok|e| |]; cbn [bind] in E; try discriminate E. destruct ok; cbn [negb] in E; [|discriminate E].
    destruct (recalculate_difficulty p pts ts df) as [d|e| |] eqn:Ed; cbn [bind] in E; try discriminate E. apply ok_inv in E. subst i. pose proof (recalc_wf _ _ _ _ _ Hdf Ed) as Hd. split; [|reflexivity].
    assert (u256_ok h) by (unfold u256_ok; lia). refine (conj _ (conj _ (conj _ (conj _ (conj _ _))))); cbn; assumption. }
  destruct Hm as [(b & h & _ & Ed & Eh & En)|(b & En)].
  - destruct (sled_get _ _) as [v|]; [|discriminate Ed]. destruct (HE v eq_refl) as (x & Hx & ->). rewrite (dc_decode_dump x Hx) in Ed. apply ok_inv in Ed. injection Ed as <-.
    apply (G _ _ _ _ (sha_ok _)) in En; [exact En|apply Hx|]. unfold u256_add in Eh. destruct (N.ltb_spec (bi_height (get_info (DerivBlock x)) + 1) (2 ^ 256)); [|discriminate Eh]. apply ok_inv in Eh. lia.
  - apply (G _ _ _ _ (sha_ok _)) in En; [exact En|exact BD_ok|lia].
Qed.

(** ** Blocks that stay *)
Definition gen_is (o : option bytes) (g : bytes) : Prop := match o with None => True | Some g0 => g = g0 end.
Definition dlow (H : N) (G : option bytes) (c : option bytes) : Prop :=
  match c with
  | None => H = 0 /\ G = None
  | Some x => (length x < 96)%nat \/ exists k d g, H <= k < 2 ^ 256 /\ is_array 32 d /\ is_array 32 g /\ gen_is G g /\ x = height_key k ++ d ++ g
  end.
Record dkp (P : smap -> Prop) (H : N) (G : option bytes) (c : deriv_chain) : Prop := {
  dkp_blocks : alw P (dc_blocks c);
  dkp_low : H <= dc_height c < 2 ^ 256;
  dkp_diff : is_array 32 (dc_difficulty c);
  dkp_gen : is_array 32 (dc_genesis c);
  dkp_is : gen_is G (dc_genesis c);
  dkp_cfg : fcand (dlow H G) (dc_cfg c)
}.
Definition ddkp (P : smap -> Prop) (H : N) (G : option bytes) (d : deriv_disk) : Prop := alw P (dd_blocks d) /\ fcand (dlow H G) (dd_cfg d).
Definition dstored (A : basic_info -> Prop) (x : smap) : Prop :=
  forall k v, sm_get k x = Some v -> exists i, info_wf i /\ A i /\ k = height_key (bi_height i) /\ v = block_dump (DerivBlock i).

Section Keep.
Variables (ok : host -> op -> list fault -> Prop) (p : profile).
Variables (P : bytes -> smap -> Prop) (A : bytes -> basic_info -> Prop) (H : bytes -> N) (G : bytes -> option bytes).
Hypothesis HPe : forall w x, P w x -> dstored (A w) x.
Hypothesis HPi : forall w x i, P w x -> info_wf i -> A w i -> H w <= bi_height i -> P w (sm_insert (height_key (bi_height i)) (block_dump (DerivBlock i)) x).
Hypothesis HA : forall w i, bi_founder i = w -> A w i.
Hypothesis HAr : forall h w i fs, ok h (ODerivAddBlock w i) fs -> A w i.
Hypothesis HL : (forall w, H w = 0 /\ G w = None) \/ (forall h o fs, ok h o fs -> derivs_open h o fs).
Let X (n : nat) (w : bytes) (c : deriv_chain) : Prop := dkp (P w) (H w) (G w) c.
Let Y (n : nat) (w : bytes) (d : deriv_disk) : Prop := ddkp (P w) (H w) (G w) d.

Lemma k_lost n w d g : Y n w d -> is_array 32 g -> H w = 0 -> G w = None -> X n w (lost_config d g).
Proof.
  intros [Y1 Y2] Hg H0 G0. split; cbn [lost_config dc_blocks dc_height dc_difficulty dc_genesis dc_cfg]; try assumption; [lia|exact BD_ok|rewrite G0; exact Logic.I].
Qed.
Lemma k_open n w d g c : Y n w d -> is_array 33 w -> is_array 32 g -> dc_new d g = Ok c -> X n w c.
Proof.
  intros [Y1 Y2] _ Hg E. pose proof (fc_cur _ _ Y2) as Hc. destruct (file_cur (dd_cfg d)) as [x|] eqn:Ef.
  - destruct Hc as [Hc|(k & df & g0 & Hk & Hd & Hg0 & Hi & ->)].
    + exfalso. unfold dc_new in E. rewrite Ef in E. destruct (short_dcfg x Hc) as (e & Er). rewrite Er in E. discriminate E.
    + rewrite (dc_new_cfg d g k df g0) in E by (try assumption; lia). apply ok_inv in E. subst c. split; cbn [dc_blocks dc_height dc_difficulty dc_genesis dc_cfg]; assumption.
  - rewrite dc_new_absent in E by exact Ef. apply ok_inv in E. subst c. destruct Hc as [H0 G0]. apply k_lost; try assumption. split; assumption.
Qed.
Lemma k_add n w c i c' : X n w c -> info_wf i -> A w i -> add_ends c i c' -> X (S n) w c'.
Proof.
  intros [X1 X2 X3 X4 X5 X6] Hi Ha [->|[Eh Hc]]; [split; assumption|].
  assert (B : alw (P w) (sled_insert (height_key (dc_height c)) (block_dump (DerivBlock i)) (dc_blocks c))).
  { apply alw_insert; [exact X1|]. rewrite <- Eh. apply HPi; try assumption; [exact (alw_cur _ _ X1)|lia]. }
  destruct Hc as [->|[->|[Hb ->]]]; split; try assumption. cbn [put_dheight dc_height]. lia.
Qed.
Lemma k_cfg_part w c f : dkp (P w) (H w) (G w) c -> cfg_part c f -> fcand (dlow (H w) (G w)) f.
Proof.
  intros [X1 X2 [D1 D2] X4 X5 X6] Hf. set (f1 := file_truncate (dc_cfg c)) in *.
  assert (F1 : fcand (dlow (H w) (G w)) f1) by (apply fc_truncate; [exact X6|left; cbn [length]; lia]).
  destruct Hf as [->|[->|[(k & ->)|(k & ->)]]]; try assumption.
  - eapply fc_append; [exact F1|apply file_cur_truncate|left; cbn [app]; rewrite firstn_length, height_key_length; lia].
  - eapply fc_append; [|rewrite file_cur_append; unfold f1; rewrite file_cur_truncate; reflexivity|left; cbn [app]; rewrite app_length, firstn_length, height_key_length, D1; lia].
    eapply fc_append; [exact F1|apply file_cur_truncate|left; cbn [app]; rewrite height_key_length; lia].
Qed.
Lemma k_cfg_whole w c f : dkp (P w) (H w) (G w) c -> cfg_whole c f -> fcand (dlow (H w) (G w)) f.
Proof.
  intros Hk (k & ->). destruct (k_cfg_part w c (file_append (dc_difficulty c) (file_append (height_key (dc_height c)) (file_truncate (dc_cfg c)))) Hk) as [F1 F2].
  { right; right; right. exists 32%nat. rewrite firstn_all2; [reflexivity|]. destruct (dkp_diff _ _ _ _ Hk) as [-> _]. lia. }
  destruct Hk as [X1 X2 [D1 D2] [G1 G2] X5 X6].
  eapply fc_append; [split; [exact F1|exact F2]|rewrite !file_cur_append, file_cur_truncate; reflexivity|]. cbn [app].
  destruct (Nat.leb_spec 32 k).
  - right. exists (dc_height c), (dc_difficulty c), (dc_genesis c). rewrite firstn_all2 by (rewrite G1; lia). split; [exact X2|]. repeat (split; [first [assumption|split; assumption]|]). rewrite <- app_assoc. reflexivity.
  - left. rewrite !app_length, firstn_length, height_key_length, D1. lia.
Qed.
Lemma k_flush n w c c' a : X n w c -> flush_ends c a c' -> X (S n) w c'.
Proof.
  intros HX (f & [[Hf ->]|[Hf Hc]]).
  - pose proof (k_cfg_part w c f HX Hf). destruct HX as [X1 X2 X3 X4 X5 X6]. split; assumption.
  - pose proof (k_cfg_whole w c f HX Hf). destruct HX as [X1 X2 X3 X4 X5 X6].
    destruct Hc as [[_ ->]|[->| ->]]; split; try assumption; apply alw_flush; exact X1.
Qed.
Lemma k_life a m n b : life ok p a n b -> dmach X Y m a -> dmach X Y (m + n) b.
Proof.
  apply all_life.
  - auto.
  - auto.
  - exact k_open.
  - intros k h o fs w g Hok Ho En N Hy Hg. destruct HL as [L|L]; [destruct (L w); apply k_lost; assumption|].
    exfalso. apply N. specialize (L h o fs Hok). destruct Ho as [->|(pow & ts & ->)]; exact (L En).
  - intros k h pow w ts fs c c' i Hok HX Hw Hp Ht Hm Ha. destruct (made_wf p pow w ts c i) as [W1 W2]; try assumption.
    + intros v Ev. destruct (HPe w _ (alw_cur _ _ (dkp_blocks _ _ _ _ HX)) _ _ Ev) as (x & Hx & _ & _ & Hv). eauto.
    + eapply k_add; eauto.
  - intros k h w i fs c c' Hok HX Hw Hi Ha. eapply k_add; eauto.
  - intros k h w fs c c' Hok HX Hw Hf. eapply k_flush; eauto.
  - intros k w c [X1 X2 X3 X4 X5 X6]. split; [apply alw_flush, X1|apply fc_settle, X6].
  - intros k w c [[b0 r] f] [X1 X2 X3 X4 X5 X6]. split; [apply alw_crash, X1|apply fc_crash, X6].
Qed.
End Keep.
Lemma dstored_insert A x i : dstored A x -> info_wf i -> A i -> dstored A (sm_insert (height_key (bi_height i)) (block_dump (DerivBlock i)) x).
Proof.
  intros Hx Hi Ha k v. rewrite sm_get_insert. destruct (bytes_eqb k (height_key (bi_height i))) eqn:Ek; [|apply Hx].
  intros E. injection E as <-. apply bytes_eqb_eq in Ek as ->. exists i. auto.
Qed.
Lemma dstored_nil A : dstored A []. Proof. intros k v E. discriminate E. Qed.
Lemma dmach_empty X (Y : nat -> bytes -> deriv_disk -> Prop) : (forall w, Y 0%nat w deriv_disk_empty) -> dmach X Y 0 (Down disk_empty). Proof. intros E w _. exact (E w). Qed.
Lemma ddkp_empty (P : smap -> Prop) : P [] -> ddkp P 0 None deriv_disk_empty.
Proof. intros HP. split; [apply (alw_flat P []), HP|]. split; [split; reflexivity|constructor]. Qed.
(** Every derivative chain of a tree that came about, when [A] holds of the headers given. *)
Lemma life_dstored (ok : host -> op -> list fault -> Prop) p n h (A : bytes -> basic_info -> Prop) : (forall w i, bi_founder i = w -> A w i) -> (forall h w i fs, ok h (ODerivAddBlock w i) fs -> A w i) ->
  life ok p (Down disk_empty) n (Up h) -> dmach (fun _ w c => dkp (dstored (A w)) 0 None c) (fun _ w d => ddkp (dstored (A w)) 0 None d) n (Up h).
Proof.
  intros H1 H2 L. change n with (0 + n)%nat. eapply (k_life ok p (fun w => dstored (A w)) A (fun _ => 0) (fun _ => None)); try eassumption.
  - auto.
  - intros w0 x i Hx Hi Ha _. apply dstored_insert; assumption.
  - left. auto.
  - apply dmach_empty. intros w0. apply ddkp_empty, dstored_nil.
Qed.
Lemma dkp_found (P : smap -> Prop) A H G c i d : (forall x, P x -> dstored A x) -> dkp P H G c -> dc_find_raw_by_height i c = Some d ->
  exists x, info_wf x /\ A x /\ bi_height x = i /\ d = block_dump (DerivBlock x) /\ dc_find_by_height i c = Ok (Some (DerivBlock x)).
Proof.
  intros HP Hc E. unfold dc_find_by_height. rewrite E. unfold dc_find_raw_by_height in E. destruct (N.ltb_spec (dc_height c) i) as [|Hi]; [discriminate E|].
  destruct (HP _ (alw_cur _ _ (dkp_blocks _ _ _ _ Hc)) _ _ E) as (x & Hx & Ha & Ek & ->). pose proof (dkp_low _ _ _ _ Hc) as Hl.
  apply height_key_inj in Ek; [|lia|apply Hx]. exists x. split; [exact Hx|]. split; [exact Ha|]. split; [congruence|]. split; [reflexivity|]. apply dc_decode_dump, Hx.
Qed.
(*@T C109: whatever fails and whenever the process is killed, everything found at a height of a derivative chain is the dump of a header of that height given to the
   node or made by it, and can be read. *)
Lemma p_C109_nothing_else_is_found : forall p n h w c, life any_faults p (Down disk_empty) n (Up h) -> assoc_get w (t_derivs (h_tree h)) = Some c ->
  dc_get_height c < 2 ^ 256 /\
  forall i d, dc_find_raw_by_height i c = Some d ->
    exists x, info_wf x /\ bi_height x = i /\ d = block_dump (DerivBlock x) /\ dc_find_by_height i c = Ok (Some (DerivBlock x)).
Proof.
  intros p n h w c L Hc. apply (life_dstored any_faults p n h (fun _ _ => True)) in L; auto. destruct (all_get _ _ _ _ _ _ L Hc) as [_ K]. split; [apply K|].
  intros i d E. destruct (dkp_found _ _ _ _ _ _ _ (fun x Hx => Hx) K E) as (x & H1 & _ & H2). eauto.
Qed.
(*@T C109: if nothing is added through a handle, every block found in the derivative chain of an owner has that owner as founder. *)
Lemma p_C109_founder : forall p n h w c, life demitted p (Down disk_empty) n (Up h) -> assoc_get w (t_derivs (h_tree h)) = Some c ->
  forall i d, dc_find_raw_by_height i c = Some d -> exists x, bi_founder x = w /\ bi_height x = i /\ d = block_dump (DerivBlock x).
Proof.
  intros p n h w c L Hc. apply (life_dstored demitted p n h (fun w i => bi_founder i = w)) in L; [|auto|intros ? ? ? ? []]. destruct (all_get _ _ _ _ _ _ L Hc) as [_ K].
  intros i d E. destruct (dkp_found _ _ _ _ _ _ _ (fun x Hx => Hx) K E) as (x & H1 & H2 & H3 & H4 & _). eauto.
Qed.
(** ** Flushed blocks *)
Definition same_low (H : N) (x0 x : smap) : Prop := forall i, i < H -> sm_get (height_key i) x = sm_get (height_key i) x0.
Lemma same_low_insert H x0 x i : same_low H x0 x -> H <= bi_height i -> bi_height i < 2 ^ 256 -> same_low H x0 (sm_insert (height_key (bi_height i)) (block_dump (DerivBlock i)) x).
Proof. intros Hx Hh Hb j Hj. rewrite sm_get_insert, height_key_eqb by lia. destruct (N.eqb_spec j (bi_height i)); [lia|]. apply Hx, Hj. Qed.
Lemma saved_eq p w c h : assoc_get w (t_derivs (h_tree h)) = Some c ->
  deriv_saved p w h = dset w (deriv_with_cfg (file_settle (dc_cfg (dc_flush c))) (dc_flush c)) h.
Proof.
  intros E. unfold deriv_saved. cbn [step]. rewrite E. cbn [fst]. unfold deriv_settle. cbn [with_derivs t_derivs]. rewrite IoFacts.assoc_get_set. unfold dset, with_derivs. cbn [t_derivs t_main t_summary t_old_summary t_gas t_old_gas t_closed].
  rewrite IoFacts.assoc_set_set. reflexivity.
Qed.
(*@T C109: a block of a derivative chain that was once flushed through its handle, with the config file on disk, is found ever after, through any calls, failing operations,
   closings, crashes and openings, successful or not; the chain is never shorter than then and keeps its genesis hash.  The config file of a derivative chain, once
   it exists, can be opened; otherwise see [C109_config_refuted]. *)
Lemma p_C109_flushed_is_never_lost : forall p n m h w c h' c', life any_faults p (Down disk_empty) n (Up h) -> assoc_get w (t_derivs (h_tree h)) = Some c ->
  life derivs_open p (Up (deriv_saved p w h)) m (Up h') -> assoc_get w (t_derivs (h_tree h')) = Some c' ->
  dc_get_height c <= dc_get_height c' /\ dc_genesis c' = dc_genesis c /\
  forall i, i < dc_get_height c -> dc_find_raw_by_height i c' = dc_find_raw_by_height i c.
Proof.
  intros p n m h w c h' c' L1 Hc L2 Hc'. apply (life_dstored any_faults p n h (fun _ _ => True)) in L1; auto.
  destruct (all_get _ _ _ _ _ _ L1 Hc) as [Hw K]. rewrite (saved_eq p w c h Hc) in L2.
  set (Hh := dc_height c). set (x0 := cur (dc_blocks c)). set (g0 := dc_genesis c).
  set (P := fun w' : bytes => if bytes_eqb w' w then (fun x => dstored (fun _ => True) x /\ same_low Hh x0 x) else dstored (fun _ => True)).
  set (HH := fun w' : bytes => if bytes_eqb w' w then Hh else 0). set (GG := fun w' : bytes => if bytes_eqb w' w then Some g0 else None).
  apply (k_life derivs_open p P (fun _ _ => True) HH GG) with (m := n) in L2; auto.
  - destruct (all_get _ _ _ _ _ _ L2 Hc') as [_ [X1 X2 X3 X4 X5 X6]]. unfold P, HH, GG in *. rewrite bytes_eqb_refl in *. split; [apply X2|]. split; [exact X5|].
    intros i Hi. unfold dc_get_height in Hi. destruct (alw_cur _ _ X1) as [_ S]. unfold dc_find_raw_by_height. fold Hh in Hi |- *. destruct (N.ltb_spec Hh i); [lia|]. destruct (N.ltb_spec (dc_height c') i); [lia|].
    apply S, Hi.
  - intros w0 x. unfold P. destruct (bytes_eqb w0 w); [intros [S _]; exact S|auto].
  - intros w0 x i. unfold P, HH. destruct (bytes_eqb w0 w); [|intros Hx Hi _ _; apply dstored_insert; auto].
    intros [S1 S2] Hi _ Hb. split; [apply dstored_insert; auto|]. apply same_low_insert; [exact S2|exact Hb|apply Hi].
  - assert (Hs : dkp (fun x => dstored (fun _ => True) x /\ same_low Hh x0 x) Hh (Some g0) (deriv_with_cfg (file_settle (dc_cfg (dc_flush c))) (dc_flush c))).
    { destruct K as [X1 X2 X3 X4 X5 X6]. split; cbn [deriv_with_cfg dc_flush dc_dump_config dc_blocks dc_height dc_difficulty dc_genesis dc_cfg]; try assumption; [|unfold Hh; lia|reflexivity|].
      - apply alw_flat. split; [exact (alw_cur _ _ X1)|]. intros i Hi. reflexivity.
      - split; [|constructor]. cbn [file_settle f_dur]. rewrite !file_cur_append, file_cur_truncate. cbn [app]. right. exists (dc_height c), (dc_difficulty c), (dc_genesis c).
        split; [unfold Hh; lia|]. split; [exact X3|]. split; [exact X4|]. split; [reflexivity|]. rewrite <- app_assoc. reflexivity. }
    destruct L1 as (A1 & A2 & A3). unfold dmach, dall, dset. cbn [with_host with_derivs h_tree t_derivs t_closed]. split; [apply assoc_set_nodup, A1|]. split.
    + intros w' c1 Hi. apply assoc_in_get in Hi; [|apply assoc_set_nodup, A1]. rewrite DerivFacts.assoc_get_set in Hi. unfold P, HH, GG. destruct (bytes_eqb w' w) eqn:E.
      * apply bytes_eqb_eq in E as ->. injection Hi as <-. split; [exact Hw|exact Hs].
      * apply A2, assoc_get_in, Hi.
    + intros w' Hw' E. rewrite DerivFacts.assoc_get_set in E. unfold P, HH, GG. destruct (bytes_eqb w' w); [discriminate E|]. apply A3; assumption.
Qed.

(** ** Linked rows *)
Section Rows.
Variable p : profile.
Notation D := (dh p true None).
Lemma dh_put_block w n c B i : D w n c B -> bi_height i = dc_height c -> dc_height c < 2 ^ 256 -> D w n (put_dblock i c) B.
Proof.
  intros [R H2 H3 H4 H5 HK H6 H7] Hi Hb. pose proof (br_len _ _ _ _ _ R). split; cbn [put_dblock dc_height dc_blocks dc_genesis dc_difficulty dc_cfg]; try assumption.
  - intros j x Hx. pose proof (nthN_some _ _ _ Hx) as Hj. rewrite sled_get_insert, height_key_eqb by lia. destruct (N.eqb_spec j (dc_height c)); [lia|]. apply H3, Hx.
  - apply log_commit, H6.
  - intros x Hx. specialize (H7 x Hx). destruct x as [x|]; [|exact H7]. destruct H7 as [H7|(h & df & g & Hh' & Hk & Hdf & Hg & -> & H7)]; [left; exact H7|right].
    exists h, df, g. repeat (split; [first [assumption|reflexivity]|]). intros m j y Hy. pose proof (nthN_some _ _ _ Hy) as Hj. rewrite firstn_length in Hj.
    unfold sled_insert. destruct (log_crash_commit m [(height_key (dc_height c), block_dump (DerivBlock i))] _ H6) as [E|E]; rewrite E; [apply H7, Hy|].
    rewrite sled_get_commit1, height_key_eqb by lia. destruct (N.eqb_spec j (dc_height c)); [lia|]. apply H3. eapply DerivFacts.nthN_firstn, Hy.
Qed.
Lemma dh_put_ref w n c B i : D w n c B -> D w n (put_dref i c) B. Proof. intros [R H2 H3 H4 H5 HK H6 H7]. split; assumption. Qed.
Lemma dh_add w n c B i c' : D w n c B -> N.of_nat (S n) + 1 < 2 ^ 256 -> info_wf i -> (bi_height i = dc_height c -> may_come p w B i) -> add_ends c i c' -> exists B', D w (S n) c' B'.
Proof.
  intros H Hn Hi Hm Ha. pose proof (dh_height _ _ _ _ _ _ _ H) as Hh. pose proof (br_len _ _ _ _ _ (dh_row _ _ _ _ _ _ _ H)) as Hl.
  destruct Ha as [->|[Eh [->|[->|[_ ->]]]]].
  - exists B. eapply dh_mono; [exact H|lia].
  - exists B. eapply dh_mono; [|apply Nat.le_succ_diag_r]. apply dh_put_block; [exact H|exact Eh|lia].
  - exists B. eapply dh_mono; [|apply Nat.le_succ_diag_r]. apply dh_put_ref, dh_put_block; [exact H|exact Eh|lia].
  - exists (B ++ [i]). apply (dh_append p true None w n c B i); [exact H|lia|exact Hi|exact Eh|intros _; apply Hm, Eh].
Qed.
(** Other config files with the same blocks. *)
Lemma dh_cands w n c B f : D w n c B -> fcand (fun x => x = f_dur (dc_cfg c) \/ In x (f_pend (dc_cfg c)) \/ exists y, x = Some y /\ (length y < 96)%nat) f -> D w n (deriv_with_cfg f c) B.
Proof.
  intros [R H2 H3 H4 H5 HK H6 H7] [F1 F2]. split; cbn [deriv_with_cfg dc_height dc_blocks dc_genesis dc_difficulty dc_cfg]; try assumption.
  assert (Hc : forall x, x = f_dur (dc_cfg c) \/ In x (f_pend (dc_cfg c)) \/ (exists y, x = Some y /\ (length y < 96)%nat) -> dcand (dc_blocks c) None B x).
  { intros x [Hx|[Hx|(y & -> & Hy)]]; [apply H7; left; exact Hx|apply H7; right; exact Hx|left; exact Hy]. }
  rewrite Forall_forall in F2. intros x [->|Hx]; apply Hc; [exact F1|apply F2, Hx].
Qed.
Lemma part_cands c f : cfg_part c f -> length (dc_difficulty c) = 32%nat -> fcand (fun x => x = f_dur (dc_cfg c) \/ In x (f_pend (dc_cfg c)) \/ exists y, x = Some y /\ (length y < 96)%nat) f.
Proof.
  intros Hf D1. set (C := fun x => _). assert (F0 : fcand C (dc_cfg c)) by (split; [left; reflexivity|rewrite Forall_forall; intros x Hx; right; left; exact Hx]).
  assert (Cs : forall y, (length y < 96)%nat -> C (Some y)) by (intros y Hy; right; right; eauto).
  assert (F1 : fcand C (file_truncate (dc_cfg c))) by (apply fc_truncate; [exact F0|apply Cs; cbn [length]; lia]).
  destruct Hf as [->|[->|[(k & ->)|(k & ->)]]]; try assumption.
  - eapply fc_append; [exact F1|apply file_cur_truncate|apply Cs; cbn [app]; rewrite firstn_length, height_key_length; lia].
  - eapply fc_append; [|rewrite file_cur_append, file_cur_truncate; reflexivity|apply Cs; cbn [app]; rewrite app_length, firstn_length, height_key_length, D1; lia].
    eapply fc_append; [exact F1|apply file_cur_truncate|apply Cs; cbn [app]; rewrite height_key_length; lia].
Qed.
Lemma dh_whole w n c B f : D w n c B -> cfg_whole c f -> D w n (dc_flush_blocks (deriv_with_cfg f c)) B.
Proof.
  intros H (k & ->). pose proof (dh_height _ _ _ _ _ _ _ H) as Hh. destruct (dh_diff _ _ _ _ _ _ _ H) as [D1 D2]. destruct (dh_gen _ _ _ _ _ _ _ H) as [G1 G2].
  set (f3 := file_append (dc_difficulty c) (file_append (height_key (dc_height c)) (file_truncate (dc_cfg c)))).
  assert (F3 : cfg_part c f3) by (right; right; right; exists 32%nat; rewrite firstn_all2 by (rewrite D1; lia); reflexivity).
  apply part_cands in F3; [|exact D1]. destruct (Nat.leb_spec 32 k) as [Hk|Hk].
  - rewrite firstn_all2 by (rewrite G1; lia). eapply dh_flushed; [exact H|reflexivity..].
  - assert (HF : D w n (deriv_with_cfg (file_append (firstn k (dc_genesis c)) f3) c) B).
    { apply dh_cands; [exact H|]. eapply fc_append; [exact F3|unfold f3; rewrite !file_cur_append, file_cur_truncate; reflexivity|]. right; right. eexists. split; [reflexivity|].
      cbn [app]. rewrite !app_length, firstn_length, height_key_length, D1. lia. }
    destruct HF as [R H2 H3 H4 H5 HK H6 H7]. split; try assumption; [reflexivity|].
    cbn [dc_flush_blocks dc_cfg dc_blocks] in *. intros x Hx. specialize (H7 x Hx). destruct x as [x|]; [|exact H7]. destruct H7 as [H7|(h & df & g & E1 & E2 & E3 & E4 & -> & _)]; [left; exact H7|right].
    exists h, df, g. repeat (split; [first [assumption|reflexivity]|]). intros m i y Hy. rewrite crash_flush. apply H3. eapply DerivFacts.nthN_firstn, Hy.
Qed.
Lemma dh_flush w n c B c' a : D w n c B -> a <> Fails 0 -> flush_ends c a c' -> D w n c' B.
Proof.
  intros H Ha (f & [[Hf ->]|[Hf Hc]]).
  - apply dh_cands; [exact H|]. apply part_cands; [exact Hf|apply (dh_diff _ _ _ _ _ _ _ H)].
  - destruct Hc as [[E _]|[->| ->]]; [congruence| |]; pose proof (dh_whole _ _ _ _ _ H Hf) as W; [exact W|]. destruct W as [R H2 H3 H4 H5 HK H6 H7]. split; assumption.
Qed.
Lemma dh_made w n c B pow ts i : D w n c B -> N.of_nat n + 1 < 2 ^ 256 -> is_array 33 w -> is_array 32 pow -> u64_ok ts -> made p pow w ts c i ->
  info_wf i /\ (bi_height i = dc_height c -> may_come p w B i).
Proof.
  intros H Hn Hw Hp Ht Hm. pose proof (dh_height _ _ _ _ _ _ _ H) as Hh. pose proof (br_len _ _ _ _ _ (dh_row _ _ _ _ _ _ _ H)) as Hl.
  assert (Hadd : forall ph df pts h, is_array 32 ph -> is_array 32 df -> h < 2 ^ 256 -> next_info p w pow ts ph df pts h = Ok i ->
    info_wf i /\ bi_height i = h /\ bi_founder i = w /\ header_follows p ph df pts h ff32 i).
  { intros ph df pts h Hph Hdf Eh E1. unfold next_info in E1. rewrite check_pow_eq in E1. cbn [bind] in E1.
    destruct (N.leb_spec (count_leading_zeros df) (count_leading_zeros (sha256 (ph ++ mroot [] ++ pow)))) as [Hwk|Hwk]; cbn [negb] in E1; [|discriminate E1].
    rewrite mroot_nil in Hwk. rewrite !clz_spec in Hwk by (try apply Hdf; apply sha256_array).
    destruct (recalculate_difficulty p pts ts df) as [d|e| |] eqn:Ed; cbn [bind] in E1; try discriminate E1. apply ok_inv in E1. subst i.
    pose proof (recalc_wf _ _ _ _ _ Hdf Ed) as Hd. split; [|split; [reflexivity|split; [reflexivity|]]].
    - assert (u256_ok h) by (unfold u256_ok; lia). refine (conj _ (conj _ (conj _ (conj _ (conj _ _))))); cbn; assumption.
    - split; [reflexivity|]. split; [reflexivity|]. split; [exact Ed|exact Hwk]. }
  destruct Hm as [(b & h & H0 & Ed & Eh & En)|(b & En)].
  - destruct B as [|x B]; [cbn in Hh; lia|]. set (l := x :: B) in *. assert (Hn1 : nthN l (N.of_nat (length l) - 1) = Some (last l x)) by (apply nthN_last; discriminate).
    pose proof (br_heights _ _ _ _ _ (dh_row _ _ _ _ _ _ _ H) _ _ Hn1) as Hhl. pose proof (br_wf _ _ _ _ _ (dh_row _ _ _ _ _ _ _ H)) as W. rewrite Forall_forall in W. specialize (W _ (nthN_in _ _ _ Hn1)).
    rewrite Hh, (dh_blocks _ _ _ _ _ _ _ H _ _ Hn1), (dc_decode_dump _ W) in Ed. assert (Eb : b = DerivBlock (last l x)) by congruence. rewrite Eb in *. clear b Eb Ed. cbn [get_info] in Eh, En. rewrite Hhl in Eh.
    assert (Hl0 : 0 < N.of_nat (length l)) by (cbn; lia). unfold u256_add in Eh. destruct (N.ltb_spec (N.of_nat (length l) - 1 + 1) (2 ^ 256)) as [Hlt|]; [|discriminate Eh]. apply ok_inv in Eh. subst h.
    destruct (Hadd _ _ _ _ (sha_ok _) ltac:(apply W) Hlt En) as (A1 & A2 & A3 & A4). split; [exact A1|]. intros _. split; [exact A3|]. unfold l at 1. unfold deriv_link. rewrite Hhl. exact A4.
  - destruct (Hadd (block_hash b) BEGINNING_DIFFICULTY (bi_timestamp (get_info b)) 0 (sha_ok _) BD_ok eq_refl En) as (A1 & A2 & A3 & _). split; [exact A1|]. intros E. split; [exact A3|]. destruct B; [exact Logic.I|]. rewrite A2, Hh in E. cbn in E. lia.
Qed.
Lemma rows_life (ok : host -> op -> list fault -> Prop) n h : (forall h o fs, ok h o fs -> demitted_only h o fs) -> life ok p (Down disk_empty) n (Up h) -> few n ->
  forall w c, assoc_get w (t_derivs (h_tree h)) = Some c -> exists B, D w n c B.
Proof.
  intros Hok L Hn w c Ec. unfold few in Hn.
  set (X := fun n w c => N.of_nat n + 1 < 2 ^ 256 -> exists B, D w n c B). set (Y := fun n w d => N.of_nat n + 1 < 2 ^ 256 -> ddh p true None w n d).
  assert (HM : dmach X Y (0 + n) (Up h)).
  { eapply (all_life ok p X Y); [| | | | | | | | |exact L|].
    - intros k w0 c0 HX Hk. destruct HX as (B & HB); [lia|]. exists B. eapply dh_mono; [exact HB|lia].
    - intros k w0 d HY Hk. eapply ddh_mono; [apply HY; lia|lia].
    - intros k w0 d g c0 HY Hw Hg E Hk. eapply dh_open; [exact (HY Hk)|lia|exact Hg|exact E].
    - intros k h0 o fs w0 g H1 Ho En N _ _. exfalso. apply N. destruct (Hok _ _ _ H1) as (_ & L1 & _). destruct Ho as [->|(pow & ts & ->)]; exact (L1 En).
    - intros k h0 pow w0 ts fs c0 c' i H1 HX Hw Hp Ht Hm Ha Hk. destruct HX as (B & HB); [lia|]. destruct (dh_made w0 k c0 B pow ts i HB ltac:(lia) Hw Hp Ht Hm) as [W1 W2]. eapply dh_add; eassumption.
    - intros k h0 w0 i fs c0 c' H1. destruct (Hok _ _ _ H1) as ([] & _).
    - intros k h0 w0 fs c0 c' H1 HX Hw Hf Hk. destruct HX as (B & HB); [lia|]. exists B. eapply dh_mono; [|apply Nat.le_succ_diag_r]. eapply dh_flush; [exact HB| |exact Hf]. destruct (Hok _ _ _ H1) as (_ & _ & F). exact F.
    - intros k w0 c0 HX Hk. destruct (HX Hk) as (B & HB). eapply dh_close, HB.
    - intros k w0 c0 v HX Hk. destruct (HX Hk) as (B & HB). eapply dh_crash, HB.
    - apply dmach_empty. intros w0 _. apply ddh_empty. }
  cbn [Nat.add] in HM. destruct (all_get _ _ _ _ _ _ HM Ec) as [_ HX]. apply HX. lia.
Qed.
End Rows.
(*@T C109: if the blocks of derivative chains only come from emission, every open derivative chain is a row of readable blocks of its owner, each linked to the one before it
   (hash, height, difficulty, work), whatever failed and whenever the process was killed or an opening failed.
   Missing: calls that fail to open the config file of a derivative chain, see [C109_config_refuted]; flushes of a derivative chain in which the flush of its blocks fails without
   effect, or that are killed before it, after the config has been written, see [C109_window_refuted]. *)
Lemma p_C109_linked_partial : forall p n h w c, life demitted_only p (Down disk_empty) n (Up h) -> few n -> assoc_get w (t_derivs (h_tree h)) = Some c ->
  exists B,
    dc_get_height c = N.of_nat (length B) /\
    (forall i x, nth_error B i = Some x -> dc_find_by_height (N.of_nat i) c = Ok (Some (DerivBlock x)) /\ bi_height x = N.of_nat i /\ bi_founder x = w) /\
    dc_get_last_block c = Ok (match B with [] => None | x :: _ => Some (DerivBlock (last B x)) end) /\
    chained (deriv_link p) B.
Proof.
  intros p n h w c L Hn Hc. destruct (rows_life p demitted_only n h (fun _ _ _ H => H) L Hn w c Hc) as (B & HB). exists B. pose proof (dh_row _ _ _ _ _ _ _ HB) as [R1 R2 R3 R4]. destruct (R3 eq_refl) as [F1 F2].
  split; [apply (dh_height _ _ _ _ _ _ _ HB)|]. split; [|split; [eapply dh_last, HB|exact F2]].
  intros i x Hx. assert (Hx' : nthN B (N.of_nat i) = Some x) by (unfold nthN; rewrite Nnat.Nat2N.id; exact Hx).
  pose proof (nthN_in _ _ _ Hx') as Hin. rewrite Forall_forall in R2, F1. split; [|split; [apply R1, Hx'|apply F1, Hin]].
  unfold dc_find_by_height. rewrite (dh_find_raw _ _ _ _ _ _ _ _ _ HB Hx'). apply dc_decode_dump, R2, Hin.
Qed.

(** ** What is left out *)
Definition dafter (o : op) (fs : list fault) (h : host) : host := io_after (io_step Debug o) fs h.
Definition dagain (d : disk) : bct := match io_result t_new_io [] d with Ok t => t | _ => fresh end.
Definition deriv_other : op := OEmitDeriv (repeat 1 32) addrA 1597925001.
Definition y1 : host := opened (dagain disk_empty).
Definition y3 : host := dafter deriv_2 [] (dafter deriv_1 [] y1).
Definition y4 : host := opened (dagain (t_close (h_tree (deriv_saved Debug addrA y3)))).
Definition y5 : host := dafter deriv_other [Fine; Fine; Fine; Fails 0] y4.
Definition y6 : host := dafter (OGetDeriv addrA) [] (opened (dagain (t_close (h_tree y5)))).
Definition z1 : host := dafter (ODerivFlush addrA) [Fine; Fine; Fine; Fine; Fails 0] (dafter deriv_1 [] y1).
Definition z_surv : survivors := MkSurv 5 5 5 5 0 0 0 0 (fun _ => (0, 0, 5)%nat).
Definition z2 : host := dafter (OGetDeriv addrA) [] (opened (dagain (t_crash z_surv (h_tree z1)))).
Lemma deriv_wf o : In o [deriv_1; deriv_2; deriv_other; OGetDeriv addrA; ODerivFlush addrA] -> op_wf o.
Proof. intros Hi. repeat destruct Hi as [<-|Hi]; [..|destruct Hi]; repeat split; try (repeat constructor; fail); vm_compute; repeat constructor. Qed.
Lemma y_empty : io_result t_new_io [] disk_empty = Ok (dagain disk_empty). Proof. vm_compute. reflexivity. Qed.
(*@T C109 fails when the config file of a derivative chain that exists cannot be opened: a chain of two blocks was flushed and the config is on disk; after a restart the file
   cannot be opened once, the chain counts as empty, and a block is emitted in the place of the first one.  After the next restart the chain has two blocks again: the first is not
   the flushed one, and the second has a previous hash that is not the hash of the first. *)
Lemma p_C109_config_refuted : exists n m h c h' c' b0 b1,
  life demitted Debug (Down disk_empty) n (Up h) /\ assoc_get addrA (t_derivs (h_tree h)) = Some c /\
  life demitted Debug (Up (deriv_saved Debug addrA h)) m (Up h') /\ assoc_get addrA (t_derivs (h_tree h')) = Some c' /\
  dc_get_height c = 2 /\ dc_get_height c' = 2 /\ dc_find_raw_by_height 0 c' <> dc_find_raw_by_height 0 c /\
  dc_find_by_height 0 c' = Ok (Some b0) /\ dc_find_by_height 1 c' = Ok (Some b1) /\ bi_previous_hash (get_info b1) <> block_hash b0.
Proof.
  assert (O2 : io_result t_new_io [] (t_close (h_tree (deriv_saved Debug addrA y3))) = Ok (dagain (t_close (h_tree (deriv_saved Debug addrA y3))))) by (vm_compute; reflexivity).
  assert (O3 : io_result t_new_io [] (t_close (h_tree y5)) = Ok (dagain (t_close (h_tree y5)))) by (vm_compute; reflexivity).
  exists 2%nat, 2%nat, y3. eexists. exists y6. do 3 eexists. split; [|split; [vm_compute; reflexivity|split]].
  - apply (life_call _ _ _ 1 _ deriv_2); [|apply deriv_wf; cbn; auto 9|exact Logic.I]. apply (life_call _ _ _ 0 _ deriv_1); [|apply deriv_wf; cbn; auto 9|exact Logic.I].
    eapply (life_open _ _ _ 0 _ []); [apply life_start|reflexivity|exact y_empty].
  - apply (life_call _ _ _ 1 _ (OGetDeriv addrA)); [|apply deriv_wf; cbn; auto 9|exact Logic.I]. eapply (life_open _ _ _ 1 _ []); [|reflexivity|exact O3]. apply life_close.
    apply (life_call _ _ _ 0 _ deriv_other); [|apply deriv_wf; cbn; auto 9|exact Logic.I]. eapply (life_open _ _ _ 0 _ []); [|reflexivity|exact O2]. apply life_close, life_start.
  - split; [vm_compute; reflexivity|]. split; [vm_compute; reflexivity|]. split; [vm_compute; reflexivity|]. split; [vm_compute; discriminate|]. split; [vm_compute; reflexivity|]. split; [vm_compute; reflexivity|]. vm_compute. discriminate.
Qed.
(*@T C109 fails when a flush of a derivative chain is killed after the config was written and before the blocks are flushed: the chain opened then has height 1 and no block. *)
Lemma p_C109_window_refuted : exists n m h s h' c,
  life (fun h o fs => no_raw_deriv o /\ derivs_open h o fs) Debug (Down disk_empty) n (Up h) /\
  life (fun h o fs => no_raw_deriv o /\ derivs_open h o fs) Debug (Down (t_crash s (h_tree h))) m (Up h') /\ assoc_get addrA (t_derivs (h_tree h')) = Some c /\
  dc_get_height c = 1 /\ dc_find_by_height 0 c = Ok None /\ dc_get_last_block c = Ok None.
Proof.
  assert (O2 : io_result t_new_io [] (t_crash z_surv (h_tree z1)) = Ok (dagain (t_crash z_surv (h_tree z1)))) by (vm_compute; reflexivity).
  exists 2%nat, 1%nat, z1, z_surv, z2. eexists. split; [|split; [|split; [vm_compute; reflexivity|]]].
  - apply (life_call _ _ _ 1 _ (ODerivFlush addrA)); [|apply deriv_wf; cbn; auto 9|split; exact Logic.I]. apply (life_call _ _ _ 0 _ deriv_1 []); [|apply deriv_wf; cbn; auto 9|split; [exact Logic.I|intros _; reflexivity]].
    eapply (life_open _ _ _ 0 _ []); [apply life_start|reflexivity|exact y_empty].
  - apply (life_call _ _ _ 0 _ (OGetDeriv addrA) []); [|apply deriv_wf; cbn; auto 9|split; [exact Logic.I|intros _; reflexivity]]. eapply (life_open _ _ _ 0 _ []); [apply life_start|reflexivity|exact O2].
  - split; [vm_compute; reflexivity|]. split; vm_compute; reflexivity.
Qed.
(*@E
(* one block flushed, a second one emitted and a flush that fails, crash, an opening that fails, an opening: the first block is there; a block is emitted again *)
Example C109_ex :
  let call o fs h := io_after (io_step Debug o) fs h in
  let reopened fs d h := match io_result t_new_io fs d with Ok t => opened t | _ => h end in
  let h0 := opened fresh in
  let h1 := deriv_saved Debug addrA (call deriv_1 [] h0) in
  let h2 := call (ODerivFlush addrA) [Fine; Fine; Fails 7] (call deriv_2 [] h1) in
  let d2 := t_crash (MkSurv 0 0 0 0 0 0 0 0 (fun _ => (1, 0, 0)%nat)) (h_tree h2) in
  let d3 := disk_settle (io_after t_new_io [Fine; Fails 0] d2) in
  let h3 := call (OGetDeriv addrA) [] (reopened [] d3 h0) in
  let h4 := call deriv_2 [Fails 1] h3 in
  let h5 := call deriv_2 [] h4 in
  map (fun h => match assoc_get addrA (t_derivs (h_tree h)) with Some c => (dc_get_height c, match dc_get_last_block c with Ok (Some b) => hd 0 (bi_pow (get_info b)) | _ => 0 end) | None => (9, 9) end) [h1; h2; h3; h4; h5] =
    [(1, 1); (2, 4); (1, 1); (1, 1); (2, 4)].
Proof. vm_compute. reflexivity. Qed.
@*)
