(** Lemmas about calls on the handles of a derivative chain. *)
From Coq Require Import Lia ZifyBool ZifyNat ZifyN Permutation.
From Verif Require Import Base Sha256 Tools Transaction Block Sled Chain Tree Spec Reach ConcSpec Conc ConcFlush Cancel ConcDeriv ConcDerivSpec.
From Verif Require Import BaseFacts ToolsFacts MerkleFacts DiffFacts CodecFacts SledFacts ChainFacts TreeFacts DerivFacts ConcFacts.
Local Strategy 1000 [u256_add u256_sub sled_get check_pow sha256 block_dump height_key recalculate_difficulty].

Definition held_at (ch : deriv_chain) (i : basic_info) : Prop :=
  info_wf i /\ sled_get (height_key (bi_height i)) (dc_blocks ch) = Some (block_dump (DerivBlock i)).
Definition full (ch : deriv_chain) : Prop := forall j, j < dc_height ch -> exists i, bi_height i = j /\ held_at ch i.

Lemma add1_inv a h : u256_add a 1 = Ok h -> u256_ok h /\ h = a + 1.
Proof. unfold u256_add, u256_ok. destruct (N.ltb_spec (a + 1) (2 ^ 256)); intros E; try discriminate E. apply ok_inv in E. subst h. split; [exact H|reflexivity]. Qed.
Lemma sub1_inv a j : u256_sub a 1 = Ok j -> j + 1 = a.
Proof. unfold u256_sub. destruct (N.leb_spec 1 a); intros E; try discriminate E. apply ok_inv in E. lia. Qed.

Section Handles.
Variables (p : profile) (founder : bytes) (m : main_chain).
Hypothesis Hfounder : is_array 33 founder.

Definition src (ch : deriv_chain) (w : bytes) (ts : N) (i : basic_info) : Prop :=
  info_wf i /\
  (bi_height i = 0 /\ info_after_genesis p founder w ts m (dc_genesis ch) = Ok i \/
   exists pi, bi_height pi + 1 = bi_height i /\ bi_height pi < dc_height ch /\ held_at ch pi /\
     info_after p founder w ts m (dc_genesis ch) (Some (block_dump (DerivBlock pi))) = Ok i).
Definition adds (ch : deriv_chain) (c : dcall) (i : basic_info) : Prop :=
  match c with DAdd i' => i = i' /\ info_wf i | DEmit w ts => src ch w ts i | _ => False end.
Definition th_ok (ch : deriv_chain) (th : dthread) : Prop :=
  match th with
  | QStart c => dcall_wf c
  | QBorrowed w ts | QGenesis w ts => dcall_wf (DEmit w ts)
  | QIdx c j | QGet c j => dcall_wf c /\ match c with DLast | DEmit _ _ => j < dc_height ch | DByHeight _ | DByHash _ => True | _ => False end
  | QLock c i => adds ch c i
  | QWrite c i => adds ch c i /\ bi_height i = dc_height ch
  | QRef c i | QBump c i => adds ch c i /\ bi_height i = dc_height ch /\ held_at ch i
  | QDone (DAdd i) (Ok _) => bi_height i < dc_height ch /\ held_at ch i
  | QDone (DEmit w ts) (Ok r) => exists i, r = DMade (DerivBlock i) /\ bi_height i < dc_height ch /\ held_at ch i
  | _ => True
  end.
Definition holding (th : dthread) : N := if inside_add th then 1 else 0.
Definition bit (b : bool) : N := if b then 1 else 0.
Definition emitting (th : dthread) : N :=
  match th with
  | QBorrowed _ _ | QGenesis _ _ => 1
  | QIdx (DEmit _ _) _ | QGet (DEmit _ _) _ | QLock (DEmit _ _) _ | QWrite (DEmit _ _) _ | QRef (DEmit _ _) _ | QBump (DEmit _ _) _ => 1
  | _ => 0
  end.
(** Nothing below the height changes. *)
Definition dkeeps (ch ch' : deriv_chain) : Prop :=
  dc_height ch <= dc_height ch' /\ dc_genesis ch' = dc_genesis ch /\ dc_difficulty ch' = dc_difficulty ch /\
  forall j, j < dc_height ch -> sled_get (height_key j) (dc_blocks ch') = sled_get (height_key j) (dc_blocks ch).
Lemma dkeeps_refl ch : dkeeps ch ch.
Proof. repeat split; auto. lia. Qed.
Lemma dkeeps_trans a b c : dkeeps a b -> dkeeps b c -> dkeeps a c.
Proof. intros (A1 & A2 & A3 & A4) (B1 & B2 & B3 & B4). repeat split; [lia|congruence..|]. intros j Hj. rewrite B4 by lia. apply A4, Hj. Qed.
Lemma held_keeps ch ch' i : dkeeps ch ch' -> bi_height i < dc_height ch -> held_at ch i -> held_at ch' i.
Proof. intros (_ & _ & _ & K) Hh [W S]. split; [exact W|]. rewrite K by exact Hh. exact S. Qed.
Lemma src_keeps ch ch' w ts i : dkeeps ch ch' -> src ch w ts i -> src ch' w ts i.
Proof.
  intros K [W [[H1 H2]|(pi & H1 & H2 & H3 & H4)]]; destruct K as (K1 & K2 & K3 & K4); (split; [exact W|]).
  - left. rewrite K2. auto.
  - right. exists pi. rewrite K2. split; [exact H1|]. split; [lia|]. split; [|exact H4]. eapply held_keeps; [|exact H2|exact H3]. repeat split; assumption.
Qed.
Lemma adds_keeps ch ch' c i : dkeeps ch ch' -> adds ch c i -> adds ch' c i.
Proof. intros K. destruct c; cbn [adds]; auto. apply src_keeps, K. Qed.
Lemma adds_wf ch c i : adds ch c i -> info_wf i.
Proof. destruct c; cbn [adds]; try contradiction; intros H; apply H. Qed.
Lemma ok_keeps ch ch' th : dkeeps ch ch' -> inside_add th = false -> th_ok ch th -> th_ok ch' th.
Proof.
  intros K Hi H. pose proof K as (K1 & _). destruct th as [c|w ts|w ts|c j|c j|c i|c i|c i|c i| |h| | | | |c r]; cbn [th_ok inside_add] in *; try exact H; try discriminate Hi.
  - destruct H as [H1 H2]. split; [exact H1|]. destruct c; try exact H2; try exact I; lia.
  - destruct H as [H1 H2]. split; [exact H1|]. destruct c; try exact H2; try exact I; lia.
  - eapply adds_keeps; eassumption.
  - destruct c as [i| | | | |w ts]; try exact I; destruct r as [r| | |]; try exact I.
    + destruct H as [H1 H2]. split; [lia|]. eapply held_keeps; eassumption.
    + destruct H as (i & E & H1 & H2). exists i. split; [exact E|]. split; [lia|]. eapply held_keeps; eassumption.
Qed.
Definition like (ch ch' : deriv_chain) : Prop := same_contents ch ch' /\ dc_genesis ch' = dc_genesis ch /\ dc_difficulty ch' = dc_difficulty ch.
Lemma like_refl ch : like ch ch. Proof. repeat split. Qed.
Lemma like_get ch ch' k : like ch ch' -> sled_get k (dc_blocks ch') = sled_get k (dc_blocks ch).
Proof. intros ((_ & E & _) & _). unfold sled_get. rewrite E. reflexivity. Qed.
Lemma like_keeps ch ch' : like ch ch' -> dkeeps ch ch'.
Proof. intros H. pose proof H as ((H1 & H2 & H3) & H4 & H5). repeat split; [lia|assumption..|]. intros j _. apply like_get, H. Qed.
Lemma like_held ch ch' i : like ch ch' -> held_at ch i -> held_at ch' i.
Proof. intros H [W S]. split; [exact W|]. rewrite (like_get _ _ _ H). exact S. Qed.
Lemma ok_like ch ch' th : like ch ch' -> th_ok ch th -> th_ok ch' th.
Proof.
  intros H O. pose proof (like_keeps _ _ H) as K. destruct (inside_add th) eqn:Ei; [|eapply ok_keeps; eassumption].
  destruct H as ((H1 & H2) & H3). destruct th as [c|w ts|w ts|c j|c j|c i|c i|c i|c i| |h| | | | |c r]; try discriminate Ei; cbn [th_ok] in *.
  - destruct O as [O1 O2]. split; [eapply adds_keeps; eassumption|congruence].
  - destruct O as (O1 & O2 & O3). split; [eapply adds_keeps; eassumption|]. split; [congruence|]. eapply like_held; [split; [split|]|]; eassumption.
  - destruct O as (O1 & O2 & O3). split; [eapply adds_keeps; eassumption|]. split; [congruence|]. eapply like_held; [split; [split|]|]; eassumption.
Qed.

Lemma next_info_wf w ts h d prev_ts j i : is_array 32 w -> u64_ok ts -> is_array 32 h -> is_array 32 d -> u256_ok j ->
  next_info p founder w ts h d prev_ts j = Ok i -> info_wf i /\ bi_height i = j.
Proof.
  intros W1 W2 W3 W4 W5 E. unfold next_info in E. destruct (check_pow h d [] w) as [ok| | |]; cbn [bind] in E; try discriminate E.
  destruct ok; cbn [negb] in E; [|discriminate E]. destruct (recalculate_difficulty p prev_ts ts d) as [d'| | |] eqn:Ed; cbn [bind] in E; try discriminate E.
  apply ok_inv in E. subst i. pose proof (recalc_wf _ _ _ _ _ W4 Ed) as W6. repeat split; cbn; try assumption; try apply W1; try apply W3; try apply W6; apply Hfounder.
Qed.
Lemma genesis_wf w ts g i : dcall_wf (DEmit w ts) -> info_after_genesis p founder w ts m g = Ok i -> info_wf i /\ bi_height i = 0.
Proof.
  intros [W1 W2] E. unfold info_after_genesis in E. destruct (mc_find_by_hash g m) as [[b|]| | |]; cbn [bind] in E; try discriminate E.
  eapply next_info_wf; [exact W1|exact W2|apply sha256_array| | |exact E]; [split; [reflexivity|repeat constructor]|unfold u256_ok; lia].
Qed.
Lemma after_wf w ts g pi i : dcall_wf (DEmit w ts) -> info_wf pi -> info_after p founder w ts m g (Some (block_dump (DerivBlock pi))) = Ok i ->
  info_wf i /\ bi_height i = bi_height pi + 1.
Proof.
  intros [W1 W2] W E. unfold info_after in E. rewrite dc_decode_dump in E by exact W. cbn [bind get_info] in E.
  destruct (u256_add (bi_height pi) 1) as [h| | |] eqn:Eh; cbn [bind] in E; try discriminate E.
  destruct (add1_inv _ _ Eh) as [Hu ->].
  eapply next_info_wf; [exact W1|exact W2|apply sha256_array|apply W|exact Hu|exact E].
Qed.

Record dinv (s : dstate) (ts : list dthread) : Prop := {
  dv_height : dc_height (ds_chain s) < 2 ^ 256;
  dv_full : full (ds_chain s);
  dv_lock : total holding ts = bit (ds_locked s);
  dv_busy : total emitting ts = bit (ds_busy s);
  dv_ok : forall th, In th ts -> th_ok (ds_chain s) th
}.

Lemma ends_inv s c r s' th' : call_ends s c r = Some (s', th') -> th' = QDone c r /\ ds_chain s' = ds_chain s /\ ds_locked s' = ds_locked s /\
  ds_busy s' = match c with DEmit _ _ => false | _ => ds_busy s end.
Proof. unfold call_ends. intros E. apply some_inv in E as [<- <-]. auto. Qed.
Lemma goes_inv s c x s' th' : goes_on s c x = Some (s', th') ->
  (exists i, x = Ok i /\ s' = s /\ th' = QLock c i) \/
  (exists r, th' = QDone c r /\ (forall v, r <> Ok v) /\ ds_chain s' = ds_chain s /\ ds_locked s' = ds_locked s /\ ds_busy s' = match c with DEmit _ _ => false | _ => ds_busy s end).
Proof.
  unfold goes_on. destruct x as [i|e| |]; intros E.
  - left. apply some_inv in E as [<- <-]. eauto.
  - right. apply ends_inv in E as (-> & E1 & E2 & E3). exists (Err e). repeat split; try assumption. discriminate.
  - right. apply ends_inv in E as (-> & E1 & E2 & E3). exists Panic. repeat split; try assumption. discriminate.
  - right. apply ends_inv in E as (-> & E1 & E2 & E3). exists UB. repeat split; try assumption. discriminate.
Qed.

(** What a step does to chain, lock and borrow. *)
Inductive effect (s : dstate) (th : dthread) (s' : dstate) (th' : dthread) : Prop :=
| eff_like : inside_add th = false -> like (ds_chain s) (ds_chain s') ->
    (inside_add th' = true -> exists c i, th = QLock c i /\ th' = QWrite c i /\ bi_height i = dc_height (ds_chain s) /\ ds_locked s = false /\ ds_chain s' = ds_chain s) -> effect s th s' th'
| eff_block : forall c i, th = QWrite c i -> th' = QRef c i -> ds_chain s' = put_dblock i (ds_chain s) -> effect s th s' th'
| eff_ref : forall c i, th = QRef c i -> th' = QBump c i -> ds_chain s' = put_dref i (ds_chain s) -> effect s th s' th'
| eff_bump : forall c i, th = QBump c i -> th' = QDone c (Ok (added_result c i)) -> dc_height (ds_chain s) + 1 < 2 ^ 256 ->
    ds_chain s' = put_dheight (dc_height (ds_chain s) + 1) (ds_chain s) -> effect s th s' th'
| eff_over : forall c i, th = QBump c i -> th' = QDone c Panic -> dc_height (ds_chain s) + 1 >= 2 ^ 256 -> ds_chain s' = ds_chain s -> effect s th s' th'.
Definition books (s : dstate) (th : dthread) (s' : dstate) (th' : dthread) : Prop :=
  (inside_add th = true -> ds_locked s = true) -> (emitting th = 1 -> ds_busy s = true) ->
  holding th' + bit (ds_locked s) = holding th + bit (ds_locked s') /\ emitting th' + bit (ds_busy s) = emitting th + bit (ds_busy s').

Ltac endcase E := apply ends_inv in E as (-> & ?E1 & ?E2 & ?E3).
Ltac fin := try (intros X; discriminate X).
Ltac quietly := apply eff_like; [reflexivity|first [apply like_refl|match goal with E : ds_chain ?x = ds_chain ?y |- _ => rewrite E; apply like_refl end|repeat split]|fin].
Lemma step_effect s th s' th' : deriv_step p founder m s th = Some (s', th') -> effect s th s' th'.
Proof.
  intros E. destruct th as [[i| |h|h| |w ts]|w ts|w ts|c j|c j|c i|c i|c i|c i| |h| | | | |c r]; cbn [deriv_step] in E.
  - apply some_inv in E as [<- <-]. quietly.
  - destruct (ds_locked s); [discriminate E|]. destruct (dc_height (ds_chain s) =? 0); [endcase E; quietly|].
    destruct (u256_sub _ 1); try (endcase E; quietly). apply some_inv in E as [<- <-]. quietly.
  - destruct (ds_locked s); [discriminate E|]. destruct (_ <? h); [endcase E; quietly|]. apply some_inv in E as [<- <-]. quietly.
  - destruct (sled_get h _) as [hb|]; [|endcase E; quietly]. destruct (Nat.ltb 32 (length hb)); [endcase E; quietly|]. apply some_inv in E as [<- <-]. quietly.
  - apply some_inv in E as [<- <-]. quietly.
  - destruct (ds_busy s); [discriminate E|]. apply some_inv in E as [<- <-]. quietly.
  - destruct (ds_locked s); [discriminate E|]. destruct (dc_height (ds_chain s) =? 0); [apply some_inv in E as [<- <-]; quietly|].
    destruct (u256_sub _ 1); try (endcase E; quietly). apply some_inv in E as [<- <-]. quietly.
  - apply goes_inv in E as [(i & _ & -> & ->)|(r & -> & _ & E1 & _)]; quietly.
  - destruct (ds_locked s); [discriminate E|]. destruct (_ <? j); [|apply some_inv in E as [<- <-]; quietly].
    destruct c; try (endcase E; quietly). apply some_inv in E as [<- <-]. quietly.
  - destruct c; try (endcase E; quietly). apply goes_inv in E as [(i & _ & -> & ->)|(r & -> & _ & E1 & _)]; quietly.
  - destruct (ds_locked s) eqn:El; [discriminate E|]. destruct (bi_height i =? dc_height (ds_chain s)) eqn:Eh; cbn [negb] in E; [|endcase E; quietly].
    apply some_inv in E as [<- <-]. apply eff_like; [reflexivity|apply like_refl|]. intros _. exists c, i. apply N.eqb_eq in Eh. auto.
  - apply some_inv in E as [<- <-]. eapply eff_block; reflexivity.
  - apply some_inv in E as [<- <-]. eapply eff_ref; reflexivity.
  - destruct (u256_add (dc_height (ds_chain s)) 1) as [h| | |] eqn:Eh.
    + destruct (add1_inv _ _ Eh) as [Hu ->]. endcase E. eapply eff_bump; try reflexivity; [exact Hu|exact E1].
    + unfold u256_add in Eh. destruct (_ <? _); discriminate Eh.
    + endcase E. eapply eff_over; try reflexivity; [|exact E1]. unfold u256_add in Eh. destruct (N.ltb_spec (dc_height (ds_chain s) + 1) (2 ^ 256)); [discriminate Eh|]. apply N.le_ge. exact H.
    + unfold u256_add in Eh. destruct (_ <? _); discriminate Eh.
  - destruct (ds_locked s); [discriminate E|]. apply some_inv in E as [<- <-]. quietly.
  - apply some_inv in E as [<- <-]. quietly.
  - apply some_inv in E as [<- <-]. quietly.
  - apply some_inv in E as [<- <-]. quietly.
  - apply some_inv in E as [<- <-]. quietly.
  - apply some_inv in E as [<- <-]. quietly.
  - discriminate E.
Qed.

Ltac acc := cbn [holding inside_add emitting bit ds_locked ds_busy with_chain]; try match goal with E : ds_locked _ = ds_locked _ |- _ => rewrite E end;
  try match goal with E : ds_busy _ = _ |- _ => rewrite E end; repeat match goal with E : ds_locked _ = false |- _ => rewrite E end; try (split; reflexivity).
Lemma step_books s th s' th' : deriv_step p founder m s th = Some (s', th') -> books s th s' th'.
Proof.
  intros E HL HB. destruct th as [[i| |h|h| |w ts]|w ts|w ts|c j|c j|c i|c i|c i|c i| |h| | | | |c r]; cbn [deriv_step] in E.
  - apply some_inv in E as [<- <-]. acc.
  - destruct (ds_locked s) eqn:El; [discriminate E|]. destruct (dc_height (ds_chain s) =? 0); [endcase E; acc|].
    destruct (u256_sub _ 1); try (endcase E; acc). apply some_inv in E as [<- <-]. acc.
  - destruct (ds_locked s) eqn:El; [discriminate E|]. destruct (_ <? h); [endcase E; acc|]. apply some_inv in E as [<- <-]. acc.
  - destruct (sled_get h _) as [hb|]; [|endcase E; acc]. destruct (Nat.ltb 32 (length hb)); [endcase E; acc|]. apply some_inv in E as [<- <-]. acc.
  - apply some_inv in E as [<- <-]. acc.
  - destruct (ds_busy s) eqn:Eb; [discriminate E|]. apply some_inv in E as [<- <-]. acc.
  - specialize (HB eq_refl). destruct (ds_locked s) eqn:El; [discriminate E|]. destruct (dc_height (ds_chain s) =? 0); [apply some_inv in E as [<- <-]; acc|].
    destruct (u256_sub _ 1); try (endcase E; rewrite HB; acc). apply some_inv in E as [<- <-]. acc.
  - specialize (HB eq_refl). apply goes_inv in E as [(i & _ & -> & ->)|(r & -> & _ & E1 & E2 & E3)]; [acc|]. rewrite HB. acc.
  - destruct (ds_locked s) eqn:El; [discriminate E|]. destruct (_ <? j); [|apply some_inv in E as [<- <-]; destruct c; acc].
    destruct c; try (endcase E; acc). apply some_inv in E as [<- <-]. acc.
  - destruct c; try (endcase E; acc). specialize (HB eq_refl). apply goes_inv in E as [(i & _ & -> & ->)|(r & -> & _ & E1 & E2 & E3)]; [acc|]. rewrite HB. acc.
  - destruct (ds_locked s) eqn:El; [discriminate E|]. destruct (bi_height i =? dc_height (ds_chain s)) eqn:Eh; cbn [negb] in E.
    + apply some_inv in E as [<- <-]. destruct c; acc.
    + endcase E. destruct c; acc. specialize (HB eq_refl). rewrite HB. split; reflexivity.
  - apply some_inv in E as [<- <-]. destruct c; acc.
  - apply some_inv in E as [<- <-]. destruct c; acc.
  - specialize (HL eq_refl). destruct (u256_add (dc_height (ds_chain s)) 1) as [h| | |] eqn:Eh;
      endcase E; cbn [ds_locked ds_busy] in E2, E3; rewrite HL, E2, E3; (destruct c; try (split; reflexivity); specialize (HB eq_refl); rewrite HB; split; reflexivity).
  - destruct (ds_locked s) eqn:El; [discriminate E|]. apply some_inv in E as [<- <-]. acc.
  - apply some_inv in E as [<- <-]. acc.
  - apply some_inv in E as [<- <-]. acc.
  - apply some_inv in E as [<- <-]. acc.
  - apply some_inv in E as [<- <-]. acc.
  - apply some_inv in E as [<- <-]. acc.
  - discriminate E.
Qed.

Lemma put_block_get i ch k : sled_get k (dc_blocks (put_dblock i ch)) = if bytes_eqb k (height_key (dc_height ch)) then Some (block_dump (DerivBlock i)) else sled_get k (dc_blocks ch).
Proof. unfold put_dblock. cbn [dc_blocks]. apply sled_get_insert. Qed.
Lemma effect_keeps s th s' th' : dc_height (ds_chain s) < 2 ^ 256 -> effect s th s' th' -> dkeeps (ds_chain s) (ds_chain s') /\ dc_height (ds_chain s') < 2 ^ 256.
Proof.
  intros Hh [E1 E2 E3|c i E1 E2 E3|c i E1 E2 E3|c i E1 E2 E3 E4|c i E1 E2 E3 E4].
  - split; [apply like_keeps, E2|]. destruct E2 as ((E2 & _) & _). rewrite E2. exact Hh.
  - rewrite E3. split; [|exact Hh]. repeat split; [cbn; lia|]. intros j Hj. rewrite put_block_get, height_key_eqb by lia.
    destruct (N.eqb_spec j (dc_height (ds_chain s))); [lia|reflexivity].
  - rewrite E3. split; [|exact Hh]. repeat split. cbn; lia.
  - rewrite E4. split; [|exact E3]. repeat split. cbn. lia.
  - rewrite E4. split; [apply dkeeps_refl|exact Hh].
Qed.
Lemma step_own s th s' th' : dc_height (ds_chain s) < 2 ^ 256 -> full (ds_chain s) -> th_ok (ds_chain s) th ->
  deriv_step p founder m s th = Some (s', th') -> th_ok (ds_chain s') th'.
Proof.
  intros Hh HF O E. destruct th as [[i| |h|h| |w ts]|w ts|w ts|c j|c j|c i|c i|c i|c i| |h| | | | |c r]; cbn [deriv_step th_ok dcall_wf] in *.
  - apply some_inv in E as [<- <-]. split; [reflexivity|exact O].
  - destruct (ds_locked s); [discriminate E|]. destruct (dc_height (ds_chain s) =? 0); [endcase E; exact I|].
    destruct (u256_sub _ 1) as [j| | |] eqn:Ej; try (endcase E; exact I). apply some_inv in E as [<- <-]. apply sub1_inv in Ej. split; [exact I|lia].
  - destruct (ds_locked s); [discriminate E|]. destruct (_ <? h); [endcase E; exact I|]. apply some_inv in E as [<- <-]. split; exact I.
  - destruct (sled_get h _) as [hb|]; [|endcase E; exact I]. destruct (Nat.ltb 32 (length hb)); [endcase E; exact I|]. apply some_inv in E as [<- <-]. split; exact I.
  - apply some_inv in E as [<- <-]. exact I.
  - destruct (ds_busy s) eqn:Eb; [discriminate E|]. apply some_inv in E as [<- <-]. exact O.
  - destruct (ds_locked s); [discriminate E|]. destruct (dc_height (ds_chain s) =? 0); [apply some_inv in E as [<- <-]; exact O|].
    destruct (u256_sub _ 1) as [j| | |] eqn:Ej; try (endcase E; exact I). apply some_inv in E as [<- <-]. apply sub1_inv in Ej. split; [exact O|lia].
  - apply goes_inv in E as [(i & Ei & -> & ->)|(r & -> & N1 & E1 & E2 & E3)].
    + destruct (genesis_wf w ts _ i O Ei) as [W1 W2]. split; [exact W1|]. left. auto.
    + destruct r; try exact I. exfalso. eapply N1. reflexivity.
  - destruct (ds_locked s); [discriminate E|]. destruct (N.ltb_spec (dc_height (ds_chain s)) j) as [Hl|Hl]; [|apply some_inv in E as [<- <-]; exact O].
    destruct O as [O1 O2]. destruct c; try (exfalso; lia); try (destruct O2; fail); endcase E; exact I.
  - destruct O as [O1 O2]. destruct c as [i| |h|h| |w ts]; try (destruct O2; fail); try (endcase E; exact I).
    + destruct (HF j O2) as (pi & P1 & P2). pose proof P2 as [P3 P4]. rewrite P1 in P4. rewrite P4 in E.
      apply goes_inv in E as [(i & Ei & -> & ->)|(r & -> & N1 & E1 & E2 & E3)].
      * destruct (after_wf w ts _ pi i O1 P3 Ei) as [W1 W2]. split; [exact W1|]. right. exists pi. split; [lia|]. split; [lia|]. auto.
      * destruct r; try exact I. exfalso. eapply N1. reflexivity.
  - destruct (ds_locked s); [discriminate E|]. destruct (N.eqb_spec (bi_height i) (dc_height (ds_chain s))) as [Eh|Eh]; cbn [negb] in E.
    + apply some_inv in E as [<- <-]. split; assumption.
    + endcase E. destruct c; exact I.
  - destruct O as [O1 O2]. apply some_inv in E as [<- <-]. cbn [ds_chain with_chain].
    pose proof (adds_wf _ _ _ O1) as W.
    split; [|split; [exact O2|split; [exact W|]]].
    + eapply adds_keeps; [|exact O1]. repeat split; [cbn; lia|]. intros j Hj. rewrite put_block_get, height_key_eqb by lia. destruct (N.eqb_spec j (dc_height (ds_chain s))); [lia|reflexivity].
    + rewrite put_block_get, O2, bytes_eqb_refl. reflexivity.
  - apply some_inv in E as [<- <-]. exact O.
  - destruct O as (O1 & O2 & O3). destruct (u256_add (dc_height (ds_chain s)) 1) as [h| | |] eqn:Eh; try (endcase E; destruct c; exact I).
    destruct (add1_inv _ _ Eh) as [Hu ->]. endcase E. rewrite E1. cbn [ds_chain].
    destruct c as [i'| |h|h| |w ts]; try exact I; cbn [added_result].
    + destruct O1 as [<- _]. split; [cbn; lia|exact O3].
    + exists i. split; [reflexivity|]. split; [cbn; lia|exact O3].
  - destruct (ds_locked s); [discriminate E|]. apply some_inv in E as [<- <-]. exact I.
  - apply some_inv in E as [<- <-]. exact I.
  - apply some_inv in E as [<- <-]. exact I.
  - apply some_inv in E as [<- <-]. exact I.
  - apply some_inv in E as [<- <-]. exact I.
  - apply some_inv in E as [<- <-]. exact I.
  - discriminate E.
Qed.

Lemma full_like ch ch' : like ch ch' -> full ch -> full ch'.
Proof. intros L F j Hj. pose proof L as ((Hh & _) & _). rewrite Hh in Hj. destruct (F j Hj) as (i & A & B). exists i. split; [exact A|]. eapply like_held; eassumption. Qed.
Lemma full_keeps ch ch' : dkeeps ch ch' -> dc_height ch' = dc_height ch -> full ch -> full ch'.
Proof. intros K Hh F j Hj. rewrite Hh in Hj. destruct (F j Hj) as (i & A & B). exists i. split; [exact A|]. eapply held_keeps; [exact K|lia|exact B]. Qed.
Lemma effect_full s th s' th' : dc_height (ds_chain s) < 2 ^ 256 -> th_ok (ds_chain s) th -> effect s th s' th' -> full (ds_chain s) -> full (ds_chain s').
Proof.
  intros Hh O Ef F. destruct (effect_keeps _ _ _ _ Hh Ef) as [K _]. destruct Ef as [E1 E2 E3|c i E1 E2 E3|c i E1 E2 E3|c i E1 E2 E3 E4|c i E1 E2 E3 E4].
  - eapply full_like; eassumption.
  - eapply full_keeps; [exact K|rewrite E3; reflexivity|exact F].
  - eapply full_keeps; [exact K|rewrite E3; reflexivity|exact F].
  - subst th. destruct O as (O1 & O2 & O3). rewrite E4. intros j Hj. cbn in Hj. destruct (N.eq_dec j (dc_height (ds_chain s))) as [->|Hne].
    + exists i. split; [exact O2|exact O3].
    + destruct (F j ltac:(lia)) as (x & A & B). exists x. split; [exact A|exact B].
  - rewrite E4. exact F.
Qed.
(** Nobody else is inside when a thread is. *)
Lemma alone_inside ts k th j th' : total holding ts <= 1 -> nth_error ts k = Some th -> inside_add th = true -> nth_error ts j = Some th' -> j <> k -> inside_add th' = false.
Proof.
  intros HT Hk Hi Hj Hne. destruct (inside_add th') eqn:Ei'; [|reflexivity]. exfalso.
  pose proof (total_replace holding ts k th (QStart DLast) Hk) as R. assert (In th' (replace ts k (QStart DLast))) as Hin.
  { eapply nth_error_In. rewrite replace_other by (intros Q; apply Hne; symmetry; exact Q). exact Hj. }
  apply (total_in holding) in Hin. assert (holding th' = 1) by (unfold holding; rewrite Ei'; reflexivity). assert (holding th = 1) by (unfold holding; rewrite Hi; reflexivity).
  change (holding (QStart DLast)) with 0 in R. lia.
Qed.
Lemma held_bit b : bit b <= 1. Proof. destruct b; cbn; lia. Qed.
Lemma lock_of s ts th : dinv s ts -> In th ts -> inside_add th = true -> ds_locked s = true.
Proof. intros D Hin Hi. apply (total_in holding) in Hin. rewrite (dv_lock _ _ D) in Hin. unfold holding in Hin. rewrite Hi in Hin. destruct (ds_locked s); [reflexivity|cbn in Hin; lia]. Qed.
Lemma busy_of s ts th : dinv s ts -> In th ts -> emitting th = 1 -> ds_busy s = true.
Proof. intros D Hin Hi. apply (total_in emitting) in Hin. rewrite (dv_busy _ _ D), Hi in Hin. destruct (ds_busy s); [reflexivity|cbn in Hin; lia]. Qed.
Lemma effect_like s th s' th' : effect s th s' th' -> inside_add th = false -> like (ds_chain s) (ds_chain s').
Proof. intros [E1 E2 E3|c i E1 E2 E3|c i E1 E2 E3|c i E1 E2 E3 E4|c i E1 E2 E3 E4] Hi; [exact E2| | | |]; subst th; discriminate Hi. Qed.
Lemma dinv_step s ts k th s' th' : dinv s ts -> nth_error ts k = Some th -> deriv_step p founder m s th = Some (s', th') -> dinv s' (replace ts k th').
Proof.
  intros D Hk E. pose proof (nth_error_In _ _ Hk) as Hin. pose proof (step_effect _ _ _ _ E) as Ef. destruct (effect_keeps _ _ _ _ (dv_height _ _ D) Ef) as [K Hh'].
  destruct (step_books _ _ _ _ E (lock_of _ _ _ D Hin) (busy_of _ _ _ D Hin)) as [B1 B2]. constructor.
  - exact Hh'.
  - eapply effect_full; [apply D|apply D, Hin|exact Ef|apply D].
  - pose proof (total_replace holding ts k th th' Hk). pose proof (dv_lock _ _ D). lia.
  - pose proof (total_replace emitting ts k th th' Hk). pose proof (dv_busy _ _ D). lia.
  - intros x Hx. apply In_nth_error in Hx as (j & Hj). destruct (Nat.eq_dec k j) as [<-|Hne].
    + rewrite (replace_same _ _ _ _ Hk) in Hj. injection Hj as <-. eapply step_own; [apply D|apply D|apply D, Hin|exact E].
    + rewrite replace_other in Hj by exact Hne. pose proof (nth_error_In _ _ Hj) as Hjn. pose proof (dv_ok _ _ D _ Hjn) as O.
      destruct (inside_add th) eqn:Ei.
      * eapply ok_keeps; [exact K| |exact O]. eapply alone_inside; [|exact Hk|exact Ei|exact Hj|intros Q; apply Hne; symmetry; exact Q]. rewrite (dv_lock _ _ D). apply held_bit.
      * eapply ok_like; [|exact O]. eapply effect_like; eassumption.
Qed.
Lemma total_start f calls : (forall c, f (QStart c) = 0) -> total f (map QStart calls) = 0.
Proof. intros H. unfold total. induction calls as [|c l IH]; [reflexivity|]. cbn [map fold_right]. rewrite H. exact IH. Qed.
Lemma dinv_init ch calls : dc_height ch < 2 ^ 256 -> full ch -> Forall dcall_wf calls -> dinv (MkDs ch false false) (map QStart calls).
Proof.
  intros H1 H2 H3. constructor; cbn [ds_chain ds_locked ds_busy bit]; try assumption.
  - apply total_start. reflexivity.
  - apply total_start. reflexivity.
  - intros th Hin. apply in_map_iff in Hin as (c & <- & Hc). rewrite Forall_forall in H3. apply H3, Hc.
Qed.

(** ** The blocks added so far *)
Definition stage (th : dthread) (base ch : deriv_chain) : Prop :=
  match th with
  | QWrite _ _ => same_contents base ch
  | QRef _ i => same_contents (put_dblock i base) ch
  | QBump _ i => same_contents (put_dref i (put_dblock i base)) ch
  | _ => True
  end.
Record ainv (ch0 : deriv_chain) (s : dstate) (ts : list dthread) (acc : list basic_info) : Prop := {
  av_perm : Permutation acc (flat_map dadded ts);
  av_height : dc_height (ds_chain s) = dc_height ch0 + N.of_nat (length acc);
  av_nth : forall k i, nth_error acc k = Some i -> bi_height i = dc_height ch0 + N.of_nat k /\ held_at (ds_chain s) i;
  av_old : forall j, j < dc_height ch0 -> sled_get (height_key j) (dc_blocks (ds_chain s)) = sled_get (height_key j) (dc_blocks ch0);
  av_free : ds_locked s = false -> same_contents (add_infos acc ch0) (ds_chain s);
  av_in : forall th, In th ts -> inside_add th = true -> stage th (add_infos acc ch0) (ds_chain s)
}.
Lemma same_trans a b c : same_contents a b -> same_contents b c -> same_contents a c.
Proof. intros (A1 & A2 & A3) (B1 & B2 & B3). repeat split; congruence. Qed.
Lemma insert_cur k v a b : cur b = cur a -> cur (sled_insert k v b) = cur (sled_insert k v a).
Proof. intros E. cbn [sled_insert sled_commit cur]. rewrite E. reflexivity. Qed.
Lemma same_block i a b : same_contents a b -> same_contents (put_dblock i a) (put_dblock i b).
Proof. intros (A1 & A2 & A3). unfold put_dblock. repeat split; cbn [dc_height dc_blocks dc_refs]; [exact A1| |exact A3]. rewrite A1. apply insert_cur, A2. Qed.
Lemma same_ref i a b : same_contents a b -> same_contents (put_dref i a) (put_dref i b).
Proof. intros (A1 & A2 & A3). unfold put_dref. repeat split; cbn [dc_height dc_blocks dc_refs]; [exact A1|exact A2|]. rewrite A1. apply insert_cur, A3. Qed.
Lemma stage_like th a b c : like b c -> stage th a b -> stage th a c.
Proof. intros [L _]. destruct th; cbn [stage]; auto; intros H; eapply same_trans; eassumption. Qed.
Lemma dadded_done ts : (length (flat_map dadded ts) <= length ts)%nat.
Proof. induction ts as [|th ts IH]; [exact (le_n 0)|]. cbn [flat_map]. rewrite app_length. cbn [length]. assert (length (dadded th) <= 1)%nat by (destruct th as [| | | | | | | | | | | | | | |[] [[| |[]]| | |]]; cbn; lia). lia. Qed.
Lemma dadded_less ts k th : nth_error ts k = Some th -> inside_add th = true -> (length (flat_map dadded ts) < length ts)%nat.
Proof.
  intros Hk Hi. apply nth_error_split in Hk as (l1 & l2 & -> & _). rewrite flat_map_app, !app_length. cbn [flat_map length]. rewrite app_length.
  pose proof (dadded_done l1). pose proof (dadded_done l2). assert (length (dadded th) = 0)%nat by (destruct th as [| | | | | | | | | | | | | | |[] [[| |[]]| | |]]; try discriminate Hi; reflexivity). lia.
Qed.
Lemma add_infos_snoc acc i ch : add_infos (acc ++ [i]) ch = fst (dc_add_block i (add_infos acc ch)).
Proof. unfold add_infos. rewrite fold_left_app. reflexivity. Qed.
Lemma add_block_parts i ch : bi_height i = dc_height ch -> dc_height ch + 1 < 2 ^ 256 ->
  dc_add_block i ch = (put_dheight (dc_height ch + 1) (put_dref i (put_dblock i ch)), Ok tt).
Proof.
  intros E H. unfold dc_add_block. rewrite E, N.eqb_refl. cbn [negb]. unfold u256_add.
  destruct (N.ltb_spec (dc_height ch + 1) (2 ^ 256)); [|lia]. reflexivity.
Qed.
Lemma quiet_added s th s' th' : th_ok (ds_chain s) th -> deriv_step p founder m s th = Some (s', th') -> inside_add th = false -> dadded th' = dadded th.
Proof.
  intros O E Hi. assert (H : forall c r, th' = QDone c r -> match c with DAdd _ | DEmit _ _ => forall v, r <> Ok v | _ => True end).
  { intros c r ->. destruct th as [[i| |h|h| |w ts]|w ts|w ts|c0 j|c0 j|c0 i|c0 i|c0 i|c0 i| |h| | | | |c0 r0]; cbn [deriv_step] in E; try discriminate E; try discriminate Hi.
    all: repeat first [match type of E with context [if ?b then _ else _] => destruct b end | match type of E with context [match ?x with _ => _ end] => destruct x end]; try discriminate E.
    all: try (apply ends_inv in E as (E & _); injection E as -> ->; try exact I; discriminate).
    all: try (apply goes_inv in E as [(? & _ & _ & E)|(? & E & N1 & _)]; [discriminate E|injection E as -> ->; exact N1]).
    all: try (apply some_inv in E as [_ E]; injection E as <- <-; exact I).
    all: try (destruct O as [_ []]; fail). 
    all: apply ends_inv in E as (E & _); injection E as -> ->; destruct c0; try exact I; discriminate. }
  assert (H' : dadded th' = []).
  { destruct th' as [| | | | | | | | | | | | | | |c r]; try reflexivity. specialize (H c r eq_refl). destruct c; try reflexivity; destruct r; try reflexivity; exfalso; eapply H; reflexivity. }
  rewrite H'. destruct th; try reflexivity. discriminate E.
Qed.

Lemma added_ref c i : dadded (QRef c i) = [] /\ dadded (QBump c i) = [] /\ dadded (QWrite c i) = [].
Proof. auto. Qed.
Lemma ainv_step ch0 s ts k th s' th' acc : dc_height ch0 + N.of_nat (length ts) < 2 ^ 256 ->
  dinv s ts -> ainv ch0 s ts acc -> nth_error ts k = Some th -> deriv_step p founder m s th = Some (s', th') ->
  exists more, ainv ch0 s' (replace ts k th') (acc ++ more).
Proof.
  intros HB D A Hk E. pose proof (nth_error_In _ _ Hk) as Hin. pose proof (dv_ok _ _ D _ Hin) as O. pose proof (step_effect _ _ _ _ E) as Ef.
  destruct (effect_keeps _ _ _ _ (dv_height _ _ D) Ef) as [K _]. pose proof (dinv_step _ _ _ _ _ _ D Hk E) as D'.
  pose proof (flat_map_replace dadded ts k th th' Hk) as FM.
  assert (HB1 : total holding ts <= 1) by (rewrite (dv_lock _ _ D); apply held_bit).
  assert (Hlt : forall j, j < dc_height ch0 -> sled_get (height_key j) (dc_blocks (ds_chain s')) = sled_get (height_key j) (dc_blocks ch0)).
  { intros j Hj. destruct K as (_ & _ & _ & K4). rewrite K4 by (rewrite (av_height _ _ _ _ A); lia). exact (av_old _ _ _ _ A j Hj). }
  assert (Hold : forall j x, nth_error acc j = Some x -> bi_height x = dc_height ch0 + N.of_nat j /\ held_at (ds_chain s') x).
  { intros j x Hx. destruct (av_nth _ _ _ _ A _ _ Hx) as [Q1 Q2]. split; [exact Q1|]. eapply held_keeps; [exact K| |exact Q2].
    assert (j < length acc)%nat by (apply nth_error_Some; congruence). rewrite Q1, (av_height _ _ _ _ A). lia. }
  assert (Hoth : inside_add th = true -> forall x, In x (replace ts k th') -> inside_add x = true -> x = th').
  { intros Hi x Hx Hxi. apply In_nth_error in Hx as (j & Hj). destruct (Nat.eq_dec k j) as [<-|Hne].
    - rewrite (replace_same _ _ _ _ Hk) in Hj. injection Hj as <-. reflexivity.
    - rewrite replace_other in Hj by exact Hne. rewrite (alone_inside ts k th j x HB1 Hk Hi Hj) in Hxi; [discriminate Hxi|]. intros Q; apply Hne; symmetry; exact Q. }
  assert (Hlk : inside_add th' = true -> ds_locked s' = true).
  { intros Hi. eapply lock_of; [exact D'| |exact Hi]. eapply nth_error_In, replace_same, Hk. }
  destruct Ef as [E1 E2 E3|c i E1 E2 E3|c i E1 E2 E3|c i E1 E2 E3 E4|c i E1 E2 E3 E4].
  - exists []. rewrite app_nil_r. pose proof (quiet_added _ _ _ _ O E E1) as QA. rewrite QA in FM.
    assert (Hfree : ds_locked s = false -> same_contents (add_infos acc ch0) (ds_chain s')).
    { intros L0. eapply same_trans; [exact (av_free _ _ _ _ A L0)|apply E2]. }
    constructor.
    + eapply Permutation_trans; [exact (av_perm _ _ _ _ A)|]. apply Permutation_sym, Permutation_app_inv_l in FM. exact FM.
    + destruct E2 as ((E2 & _) & _). rewrite E2. exact (av_height _ _ _ _ A).
    + exact Hold.
    + exact Hlt.
    + intros L'. destruct (ds_locked s) eqn:El; [|apply Hfree; reflexivity]. exfalso.
      destruct (step_books _ _ _ _ E) as [B1 _]; [intros _; exact El|eapply busy_of; eassumption|].
      assert (holding th = 0) by (unfold holding; rewrite E1; reflexivity). rewrite El, L' in B1. cbn [bit] in B1. lia.
    + intros x Hx Hxi. apply in_replace in Hx as [->|Hx].
      * destruct (E3 Hxi) as (c & i & -> & -> & Q1 & Q2 & Q3). cbn [stage]. rewrite Q3. exact (av_free _ _ _ _ A Q2).
      * eapply stage_like; [exact E2|]. exact (av_in _ _ _ _ A _ Hx Hxi).
  - exists []. rewrite app_nil_r. subst th th'. cbn [dadded app] in FM. specialize (Hoth eq_refl). constructor.
    + eapply Permutation_trans; [exact (av_perm _ _ _ _ A)|]. apply Permutation_sym. exact FM.
    + rewrite E3. exact (av_height _ _ _ _ A).
    + exact Hold.
    + exact Hlt.
    + intros L'. rewrite Hlk in L' by reflexivity. discriminate L'.
    + intros x Hx Hxi. rewrite (Hoth x Hx Hxi), E3. cbn [stage]. apply same_block. exact (av_in _ _ _ _ A _ Hin eq_refl).
  - exists []. rewrite app_nil_r. subst th th'. cbn [dadded app] in FM. specialize (Hoth eq_refl). constructor.
    + eapply Permutation_trans; [exact (av_perm _ _ _ _ A)|]. apply Permutation_sym. exact FM.
    + rewrite E3. exact (av_height _ _ _ _ A).
    + exact Hold.
    + exact Hlt.
    + intros L'. rewrite Hlk in L' by reflexivity. discriminate L'.
    + intros x Hx Hxi. rewrite (Hoth x Hx Hxi), E3. cbn [stage]. apply same_ref. exact (av_in _ _ _ _ A _ Hin eq_refl).
  - exists [i]. subst th. destruct O as (O1 & O2 & O3). specialize (Hoth eq_refl).
    assert (Ha : dadded th' = [i]). { subst th'. destruct c as [i'| |h|h| |w ts0]; try contradiction; cbn; [|reflexivity]. destruct O1 as [<- _]. reflexivity. }
    assert (Hh : dc_height (ds_chain s') = dc_height (ds_chain s) + 1) by (rewrite E4; reflexivity).
    assert (Hbase : same_contents (add_infos (acc ++ [i]) ch0) (ds_chain s')).
    { pose proof (av_in _ _ _ _ A _ Hin eq_refl) as S. cbn [stage] in S. rewrite add_infos_snoc. pose proof S as (S1 & S2 & S3). cbn [put_dref put_dblock dc_height] in S1.
      rewrite add_block_parts by (rewrite <- S1; assumption). cbn [fst]. rewrite E4. repeat split; [cbn; lia|exact S2|exact S3]. }
    constructor.
    + rewrite Ha in FM. cbn [dadded app] in FM. eapply Permutation_trans; [apply Permutation_sym, Permutation_cons_append|]. apply Permutation_sym. eapply Permutation_trans; [exact FM|].
      apply perm_skip. apply Permutation_sym, (av_perm _ _ _ _ A).
    + rewrite Hh, (av_height _ _ _ _ A), app_length. cbn [length]. lia.
    + intros j x Hx. destruct (Nat.lt_ge_cases j (length acc)) as [Hj|Hj].
      * rewrite nth_error_app1 in Hx by exact Hj. apply Hold, Hx.
      * rewrite nth_error_app2 in Hx by exact Hj. destruct (j - length acc)%nat eqn:Ej; [|destruct n; discriminate Hx]. injection Hx as <-.
        split; [rewrite O2, (av_height _ _ _ _ A); lia|]. rewrite E4. exact O3.
    + exact Hlt.
    + intros _. exact Hbase.
    + intros x Hx Hxi. pose proof (Hoth x Hx Hxi). subst x th'. discriminate Hxi.
  - exfalso. pose proof (av_height _ _ _ _ A) as Q. pose proof (Permutation_length (av_perm _ _ _ _ A)) as Q2. subst th. pose proof (dadded_less ts k _ Hk eq_refl). lia.
Qed.
Lemma ainv_init ch0 calls : ainv ch0 (MkDs ch0 false false) (map QStart calls) [].
Proof.
  constructor; cbn [ds_chain ds_locked].
  - induction calls; [constructor|assumption].
  - cbn. lia.
  - intros [|k] i H; discriminate H.
  - reflexivity.
  - intros _. repeat split.
  - intros th Hin Hi. apply in_map_iff in Hin as (c & <- & _). discriminate Hi.
Qed.

Lemma run_inv ch0 calls sch : dc_height ch0 + N.of_nat (length calls) < 2 ^ 256 -> full ch0 -> Forall dcall_wf calls ->
  let '(s, ts) := deriv_exec p founder m sch ch0 calls in dinv s ts /\ length ts = length calls /\ exists acc, ainv ch0 s ts acc.
Proof.
  intros HB F W. unfold deriv_exec.
  apply (exec_ind (deriv_step p founder m) (fun s ts => dinv s ts /\ length ts = length calls /\ exists acc, ainv ch0 s ts acc)).
  - intros s ts k th s' th' (D & L & acc & A) Hk E. split; [eapply dinv_step; eassumption|]. split; [rewrite replace_length; exact L|].
    destruct (ainv_step ch0 s ts k th s' th' acc ltac:(rewrite L; exact HB) D A Hk E) as (more & A'). eauto.
  - split; [apply dinv_init; [lia|assumption..]|]. split; [apply map_length|]. exists []. apply ainv_init.
Qed.
End Handles.
