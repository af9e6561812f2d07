(** Proofs of the theorems about SummaryDB with failing operations, callers that give up and killed processes. *)
From Coq Require Import Lia ZifyBool ZifyNat ZifyN.
From Verif Require Import Base Tools Sled Tree Spec LedgerSpec SummaryDb Conc ConcSpec Io SdbIo SdbIoSpec.
From Verif Require Import BaseFacts ToolsFacts SledFacts LedgerFacts SdbProps.

(** Every entry is the dump of a 256-bit number. *)
Definition ent_ok (s : sled) : Prop := forall k v, sled_get k s = Some v -> exists x, u256_ok x /\ v = led_encode x.
Lemma ent_bal s w : ent_ok s -> u256_ok (bal s w) /\ (sled_get w s = None /\ bal s w = 0 \/ sled_get w s = Some (led_encode (bal s w))).
Proof.
  intros H. unfold bal, led_get. destruct (sled_get w s) as [v|] eqn:E.
  - destruct (H _ _ E) as (x & Hx & ->). rewrite led_decode_encode by exact Hx. split; [exact Hx|right; reflexivity].
  - split; [reflexivity|left; split; reflexivity].
Qed.
Lemma ent_funds s w : ent_ok s -> sdb_get_funds w s = Ok (bal s w).
Proof.
  intros H. unfold sdb_get_funds. destruct (ent_bal s w H) as [Hu [[E E0]|E]]; rewrite E; [rewrite E0; reflexivity|].
  rewrite led_encode_eq, <- (app_nil_r (enc (bal s w))), load_biguint_enc by exact Hu. reflexivity.
Qed.
Lemma ent_commit k x s : ent_ok s -> u256_ok x -> ent_ok (sled_commit [(k, led_encode x)] s).
Proof. intros H Hx k' v. rewrite sled_get_commit1. destruct (bytes_eqb k' k); [intros E; injection E as <-; eauto|apply H]. Qed.
Lemma ent_cur s s' : cur s' = cur s -> ent_ok s -> ent_ok s'.
Proof. intros E H k v. unfold sled_get. rewrite E. apply H. Qed.
Lemma bal_cur s s' w : cur s' = cur s -> bal s' w = bal s w.
Proof. intros E. unfold bal, led_get, sled_get. rewrite E. reflexivity. Qed.

(** What a call can do to the database: nothing; write; write and flush. *)
Definition new_value (c : sdb_call) (s : sled) : N :=
  match c with SAdd w a => bal s w + a | SDecrease w a => bal s w - a end.
Definition written (c : sdb_call) (s : sled) : sled := sled_commit [(addr_of c, led_encode (new_value c s))] s.
Definition covered (c : sdb_call) (s : sled) : Prop :=
  match c with SAdd w a => bal s w + a < 2 ^ 256 | SDecrease w a => a <= bal s w end.
Definition trivial (c : sdb_call) : Prop := match c with SAdd _ a => a = 0 | SDecrease _ _ => False end.
Definition fine (fs : list fault) : Prop := forall f, In f fs -> f = Fine.
Lemma fine_next fs : fine fs -> next_fault fs = Fine /\ fine (tl fs).
Proof. intros H. destruct fs as [|f fs]; [split; [reflexivity|exact H]|]. split; [apply H; left; reflexivity|intros g Hg; apply H; right; exact Hg]. Qed.

(** The outcomes of a call. *)
Definition call_result (c : sdb_call) (fs : list fault) (s : sled) (s' : sled) (r : out unit) : Prop :=
  (s' = s /\ (r = Ok tt -> trivial c) /\ (r = Panic -> utf8_ok (addr_of c) = true -> match c with SAdd _ _ => ~ covered c s | SDecrease _ _ => False end) /\ r <> UB) \/
  (covered c s /\ s' = written c s /\ r <> Ok tt /\ (fine fs -> r = Panic) /\ (r = Panic -> utf8_ok (addr_of c) = false) /\ r <> UB) \/
  (covered c s /\ s' = sled_flush (written c s) /\ (fine fs -> r = Ok tt) /\ (r = Panic -> utf8_ok (addr_of c) = false) /\ r <> UB).
Lemma add_io_cases w a fs s : ent_ok s -> u256_ok a -> let '(_, s', r) := sdb_add_io w a fs s in call_result (SAdd w a) fs s s' r.
Proof.
  intros He Ha. unfold sdb_add_io. destruct (N.eqb_spec a 0) as [->|Hne].
  { cbn. left. split; [reflexivity|]. split; [reflexivity|]. split; discriminate. }
  unfold io_bind, io_read, io_op at 1. 
  assert (P : forall e : error, (@printable unit w (Err e) <> UB) /\ (@printable unit w (Err e) <> Ok tt) /\ (@printable unit w (Err e) = Panic -> utf8_ok w = false)) by (intros e; unfold printable; destruct (utf8_ok w); repeat split; discriminate).
  assert (PN : forall e : error, @printable (option bytes) w (Err e) = if utf8_ok w then Err e else Panic) by (intros e; reflexivity).
  assert (PO : @printable unit w (Ok tt) = if utf8_ok w then Ok tt else Panic) by reflexivity.
  assert (G1 : fine fs -> next_fault fs = Fine /\ fine (tl fs)) by apply fine_next.
  destruct (next_fault fs) as [|n1] eqn:N1; cbn [fst snd].
  2:{ rewrite PN. destruct n1; destruct (utf8_ok w) eqn:Hu; left; (split; [reflexivity|]); (split; [discriminate|]); (split; [|discriminate]); cbn [addr_of]; try discriminate; intros _; rewrite Hu; discriminate. }
  unfold io_out at 1.
  set (d := match sled_get w s with None => _ | Some _ => _ end).
  assert (D : d = if bal s w + a <? 2 ^ 256 then Ok (led_encode (bal s w + a)) else Panic).
  { unfold d. destruct (ent_bal s w He) as [Hu [[E E0]|E]]; rewrite E.
    - rewrite E0. cbn [N.add]. unfold u256_ok in Ha. destruct (N.ltb_spec a (2 ^ 256)); [reflexivity|lia].
    - rewrite load_enc_led by exact Hu. cbn [change_context bind fst]. unfold u256_add. destruct (_ <? _); reflexivity. }
  rewrite D. clear d D. destruct (N.ltb_spec (bal s w + a) (2 ^ 256)) as [Hlt|Hge].
  2:{ left. split; [reflexivity|]. split; [discriminate|]. split; [|discriminate]. intros _ _ Hc. cbn [covered] in Hc. lia. }
  assert (C : covered (SAdd w a) s) by exact Hlt.
  change (sled_insert w (led_encode (bal s w + a)) s) with (written (SAdd w a) s).
  set (fs1 := tl fs) in *. assert (G2 : fine fs1 -> next_fault fs1 = Fine /\ fine (tl fs1)) by apply fine_next.
  unfold io_op at 1. destruct (next_fault fs1) as [|[|n2]] eqn:N2; cbn [fst snd].
  - rewrite PO. destruct (utf8_ok w) eqn:Hu.
    + unfold io_op. set (fs2 := tl fs1) in *. assert (G3 : fine fs2 -> next_fault fs2 = Fine /\ fine (tl fs2)) by apply fine_next.
      destruct (next_fault fs2) as [|[|n3]] eqn:N3; cbn [fst snd].
      * right. right. split; [exact C|]. split; [reflexivity|]. unfold printable. rewrite ?Hu. split; [reflexivity|]. split; discriminate.
      * right. left. split; [exact C|]. split; [reflexivity|]. unfold printable. rewrite ?Hu. split; [discriminate|]. split; [|split; discriminate].
        intros F. destruct (G3 (proj2 (G2 (proj2 (G1 F))))) as [X _]. discriminate X.
      * right. right. split; [exact C|]. split; [reflexivity|]. unfold printable. rewrite ?Hu. split; [|split; discriminate].
        intros F. destruct (G3 (proj2 (G2 (proj2 (G1 F))))) as [X _]. discriminate X.
    + right. left. split; [exact C|]. split; [reflexivity|]. split; [discriminate|]. split; [reflexivity|]. split; [intros _; exact Hu|discriminate].
  - unfold printable. destruct (utf8_ok w) eqn:Hu; left; (split; [reflexivity|]); (split; [discriminate|]); (split; [|discriminate]); [discriminate|].
    cbn [addr_of]. intros _. rewrite Hu. discriminate.
  - assert (F : ~ fine fs) by (intros F; destruct (G2 (proj2 (G1 F))) as [X _]; discriminate X).
    unfold printable. destruct (utf8_ok w) eqn:Hu; right; left; (split; [exact C|]); (split; [reflexivity|]); (split; [discriminate|]); (split; [intros F'; destruct (F F')|]); split; try discriminate.
    intros _. exact Hu.
Qed.
Lemma decrease_io_cases w a fs s : ent_ok s -> let '(_, s', r) := sdb_decrease_io w a fs s in call_result (SDecrease w a) fs s s' r.
Proof.
  intros He. unfold sdb_decrease_io. unfold io_bind, io_read, io_op at 1.
  assert (PN : forall e : error, @printable (option bytes) w (Err e) = if utf8_ok w then Err e else Panic) by (intros e; reflexivity).
  assert (PB : forall e : error, @printable bytes w (Err e) = if utf8_ok w then Err e else Panic) by (intros e; reflexivity).
  assert (G1 : fine fs -> next_fault fs = Fine /\ fine (tl fs)) by apply fine_next.
  destruct (next_fault fs) as [|n1] eqn:N1; cbn [fst snd].
  2:{ rewrite PN. destruct n1; destruct (utf8_ok w) eqn:Hu; left; (split; [reflexivity|]); (split; [discriminate|]); (split; [|discriminate]); cbn [addr_of]; try discriminate; intros _; rewrite Hu; discriminate. }
  unfold io_out at 1.
  set (d := match sled_get w s with None => _ | Some _ => _ end).
  assert (D : (d = if utf8_ok w then Err ETreeDecreaseFunds else Panic) \/ (d = if a <=? bal s w then Ok (led_encode (bal s w - a)) else Err ETreeDecreaseFunds)).
  { unfold d. destruct (ent_bal s w He) as [Hu [[E E0]|E]]; rewrite E; [left; apply PB|right].
    rewrite load_enc_led by exact Hu. cbn [change_context bind fst]. rewrite N.leb_antisym. destruct (bal s w <? a) eqn:El; [reflexivity|].
    unfold u256_sub. rewrite N.leb_antisym, El. reflexivity. }
  destruct D as [D|D]; rewrite D; clear d D.
  { destruct (utf8_ok w) eqn:Hu; left; (split; [reflexivity|]); (split; [discriminate|]); (split; [|discriminate]); cbn [addr_of]; try discriminate. intros _. rewrite Hu. discriminate. }
  destruct (N.leb_spec a (bal s w)) as [Hle|Hlt].
  2:{ left. split; [reflexivity|]. split; [discriminate|]. split; discriminate. }
  assert (C : covered (SDecrease w a) s) by exact Hle.
  change (sled_insert w (led_encode (bal s w - a)) s) with (written (SDecrease w a) s).
  set (fs1 := tl fs) in *. assert (G2 : fine fs1 -> next_fault fs1 = Fine /\ fine (tl fs1)) by apply fine_next.
  unfold io_op at 1. destruct (next_fault fs1) as [|[|n2]] eqn:N2; cbn [fst snd].
  - unfold io_op. set (fs2 := tl fs1) in *. assert (G3 : fine fs2 -> next_fault fs2 = Fine /\ fine (tl fs2)) by apply fine_next.
    destruct (next_fault fs2) as [|[|n3]] eqn:N3; cbn [fst snd].
    * right. right. split; [exact C|]. split; [reflexivity|]. split; [reflexivity|]. split; discriminate.
    * right. left. split; [exact C|]. split; [reflexivity|]. split; [discriminate|]. split; [|split; discriminate].
      intros F. destruct (G3 (proj2 (G2 (proj2 (G1 F))))) as [X _]. discriminate X.
    * right. right. split; [exact C|]. split; [reflexivity|]. split; [|split; discriminate].
      intros F. destruct (G3 (proj2 (G2 (proj2 (G1 F))))) as [X _]. discriminate X.
  - left. split; [reflexivity|]. split; [discriminate|]. split; discriminate.
  - right. left. split; [exact C|]. split; [reflexivity|]. split; [discriminate|]. split; [|split; discriminate].
    intros F. destruct (G2 (proj2 (G1 F))) as [X _]. discriminate X.
Qed.
Lemma call_io_cases c fs s : ent_ok s -> sdb_call_wf c -> let '(_, s', r) := sdb_call_io c fs s in call_result c fs s s' r.
Proof. intros He Hc. destruct c as [w a|w a]; [apply add_io_cases|apply decrease_io_cases]; assumption. Qed.

(** ** Accounts *)
Definition entry : Type := sdb_event * option (out unit).
Definition right_count (b : bool) (x : entry) : Prop :=
  (update_of (fst x) <> None -> snd x = Some (Ok tt) -> b = true) /\
  (all_fine (fst x) -> forall e, snd x = Some (Err e) -> b = false).
Definition acct (x0 : bytes -> N) (l : list entry) (s : sled) : Prop :=
  ent_ok s /\ exists counts, Forall2 right_count counts l /\
    forall w, bal s w + total (taken_from w) (combine counts (map fst l)) = x0 w + total (put_on w) (combine counts (map fst l)).
Definition inv (x0 : bytes -> N) (l : list entry) (s : sled) : Prop :=
  sled_ok s /\ acct x0 l s /\ forall n, acct x0 l (sled_crash n s).
Lemma Forall2_len {A B} (R : A -> B -> Prop) l m : Forall2 R l m -> length l = length m.
Proof. induction 1; [reflexivity|cbn [length]; congruence]. Qed.
Lemma total_app {A} (f : A -> N) l l' : total f (l ++ l') = total f l + total f l'.
Proof. unfold total. rewrite map_app. induction (map f l) as [|x r IH]; cbn [app fold_right]; [lia|rewrite IH; lia]. Qed.
Lemma combine_snoc {A B} (l : list A) (m : list B) x y : length l = length m -> combine (l ++ [x]) (m ++ [y]) = combine l m ++ [(x, y)].
Proof. revert m. induction l as [|a l IH]; intros [|b m] H; try discriminate H; [reflexivity|]. cbn [app combine]. rewrite IH by (injection H as H; exact H). reflexivity. Qed.
Lemma total_one {A} (f : A -> N) x : total f [x] = f x.
Proof. unfold total. cbn. lia. Qed.
Lemma acct_more x0 l s s' x b : acct x0 l s -> right_count b x -> ent_ok s' ->
  (forall w, bal s' w + taken_from w (b, fst x) = bal s w + put_on w (b, fst x)) -> acct x0 (l ++ [x]) s'.
Proof.
  intros (He & cs & Hc & Hb) Hr He' H. split; [exact He'|]. exists (cs ++ [b]). split; [apply Forall2_app; [exact Hc|constructor; [exact Hr|constructor]]|].
  intros w. rewrite map_app. cbn [map]. rewrite combine_snoc by (rewrite map_length; apply (Forall2_len _ _ _ Hc)).
  rewrite !total_app, !total_one. specialize (Hb w). specialize (H w). set (p := total (taken_from w) _) in *. set (q := total (put_on w) _) in *. lia.
Qed.
Lemma acct_not x0 l s s' x : cur s' = cur s -> acct x0 l s -> right_count false x -> acct x0 (l ++ [x]) s'.
Proof.
  intros E H Hr. apply (acct_more x0 l s s' x false H Hr); [apply (ent_cur s s' E), (proj1 H)|]. intros w. rewrite (bal_cur s s' w E). reflexivity.
Qed.
Lemma written_ok c s : ent_ok s -> covered c s -> u256_ok (new_value c s).
Proof. intros He Hc. destruct c as [w a|w a]; cbn [new_value covered] in *; destruct (ent_bal s w He) as [Hu _]; unfold u256_ok in *; lia. Qed.
Lemma acct_done x0 l s s' x c : cur s' = cur (written c s) -> covered c s -> update_of (fst x) = Some c -> acct x0 l s -> right_count true x -> acct x0 (l ++ [x]) s'.
Proof.
  intros E Hc Hu H Hr. pose proof (proj1 H) as He. pose proof (written_ok c s He Hc) as Hv.
  apply (acct_more x0 l s s' x true H Hr); [apply (ent_cur _ _ E), ent_commit; assumption|].
  intros w. rewrite (bal_cur _ s' w E). unfold written. rewrite bal_commit1 by exact Hv. unfold taken_from, put_on, upd. cbn [fst snd]. rewrite Hu.
  destruct c as [v a|v a]; cbn [addr_of new_value covered] in *; destruct (bytes_eqb w v) eqn:Ew; try lia; apply bytes_eqb_eq in Ew; subst v; lia.
Qed.
Lemma crash_written n c s : sled_ok s -> cur (sled_crash n (written c s)) = cur (written c s) \/ cur (sled_crash n (written c s)) = cur (sled_crash n s).
Proof.
  intros H. destruct (Nat.le_gt_cases (length (pend (written c s))) n) as [L|L]; [left; apply sled_crash_all; [apply sled_ok_commit, H|exact L]|right].
  unfold written, sled_commit in L. cbn [pend] in L. rewrite app_length in L. cbn [length] in L. unfold sled_crash, written, sled_commit. cbn [cur pend dur]. rewrite firstn_app.
  replace (n - length (pend s))%nat with 0%nat by lia. cbn [firstn]. rewrite app_nil_r. reflexivity.
Qed.
Lemma not_ok_count x : snd x <> Some (Ok tt) -> right_count false x.
Proof. intros H. split; [intros _ E; destruct (H E)|reflexivity]. Qed.
Lemma no_update_count x : update_of (fst x) = None -> right_count false x.
Proof. intros H. split; [intros E; destruct (E H)|reflexivity]. Qed.
Lemma call_inv x0 l s e c fs s' r a : inv x0 l s -> update_of e = Some c -> (all_fine e -> fine fs) -> call_result c fs s s' r -> a = Some r \/ a = None ->
  inv x0 (l ++ [(e, a)]) s'.
Proof.
  intros (Hs & Ha & Hk) Hu Hf Hr Hav. assert (Aok : a = Some (Ok tt) -> r = Ok tt) by (intros E; destruct Hav; congruence).
  assert (Aerr : forall er, a = Some (Err er) -> r = Err er) by (intros er E; destruct Hav; congruence).
  destruct Hr as [(-> & Hok & _)|[(C & -> & Hno & Hp & _)|(C & -> & Hfin & _)]].
  - assert (D : (r = Ok tt /\ trivial c) \/ r <> Ok tt) by (destruct r as [[]| | |]; [left; auto|right; discriminate..]).
    destruct D as [[-> T]|D].
    + assert (R : right_count true (e, a)) by (split; cbn [fst snd]; [reflexivity|intros _ er E; specialize (Aerr _ E); discriminate Aerr]).
      assert (Z : forall w, taken_from w (true, e) = 0 /\ put_on w (true, e) = 0).
      { intros w. unfold taken_from, put_on. cbn [fst snd]. rewrite Hu. destruct c as [v b|v b]; [|destruct T]. cbn [trivial] in T. subst b. destruct (bytes_eqb w v); auto. }
      split; [exact Hs|]. split; [|intros n].
      * apply (acct_more x0 l s s (e, a) true Ha R (proj1 Ha)). intros w. cbn [fst]. destruct (Z w) as [-> ->]. reflexivity.
      * apply (acct_more x0 l _ _ (e, a) true (Hk n) R (proj1 (Hk n))). intros w. cbn [fst]. destruct (Z w) as [-> ->]. reflexivity.
    + assert (R : right_count false (e, a)) by (apply not_ok_count; cbn [snd]; auto).
      split; [exact Hs|]. split; [apply (acct_not x0 l s s); [reflexivity|exact Ha|exact R]|]. intros n. apply (acct_not x0 l (sled_crash n s)); [reflexivity|apply Hk|exact R].
  - assert (Rf : right_count false (e, a)) by (apply not_ok_count; cbn [snd]; auto).
    assert (Rt : right_count true (e, a)).
    { split; [reflexivity|]. cbn [fst snd]. intros F er E. specialize (Hp (Hf F)). specialize (Aerr er E). congruence. }
    split; [apply sled_ok_commit, Hs|]. split; [apply (acct_done x0 l s _ (e, a) c eq_refl C Hu Ha Rt)|].
    intros n. destruct (crash_written n c s Hs) as [E|E]; [apply (acct_done x0 l s _ (e, a) c E C Hu Ha Rt)|apply (acct_not x0 l (sled_crash n s) _ (e, a) E (Hk n) Rf)].
  - assert (Rt : right_count true (e, a)).
    { split; [reflexivity|]. cbn [fst snd]. intros F er E. specialize (Hfin (Hf F)). specialize (Aerr er E). congruence. }
    split; [apply sled_ok_flush, sled_ok_commit, Hs|]. split; [apply (acct_done x0 l s _ (e, a) c eq_refl C Hu Ha Rt)|].
    intros n. apply (acct_done x0 l s _ (e, a) c (sled_crash_flushed n _) C Hu Ha Rt).
Qed.
Lemma happens_inv x0 l s e : inv x0 l s -> event_wf e -> let '(s', a) := sdb_happens s e in inv x0 (l ++ [(e, a)]) s'.
Proof.
  intros H He. pose proof H as (Hs & Ha & Hk). destruct e as [c fs|c fs|fs|n]; cbn [sdb_happens].
  - pose proof (call_io_cases c fs s (proj1 Ha) He) as R. destruct (sdb_call_io c fs s) as [[q s'] r].
    apply (call_inv x0 l s (SdCall c fs) c fs s' r (Some r) H eq_refl (fun F => F) R). left. reflexivity.
  - pose proof (call_io_cases c fs s (proj1 Ha) He) as R. destruct (sdb_call_io c fs s) as [[q s'] r].
    apply (call_inv x0 l s (SdDropped c fs) c fs s' r None H eq_refl (fun F => F) R). right. reflexivity.
  - assert (G : forall s' r, s' = s \/ s' = sled_flush s -> inv x0 (l ++ [(SdFlush fs, Some r)]) s').
    { intros s' r Hs'. assert (R : right_count false (SdFlush fs, Some r)) by (apply no_update_count; reflexivity). destruct Hs' as [-> | ->].
      - split; [exact Hs|]. split; [apply (acct_not x0 l s s _ eq_refl Ha R)|intros n; apply (acct_not x0 l (sled_crash n s) _ _ eq_refl (Hk n) R)].
      - split; [apply sled_ok_flush, Hs|]. split; [apply (acct_not x0 l s (sled_flush s) _ eq_refl Ha R)|intros n; apply (acct_not x0 l s _ _ (sled_crash_flushed n s) Ha R)]. }
    unfold sdb_flush_io, io_op. destruct (next_fault fs) as [|[|k]]; cbn [fst snd]; apply G; auto.
  - assert (R : right_count false (SdKilled n, None)) by (apply no_update_count; reflexivity).
    split; [apply sled_ok_crash, Hs|]. split; [apply (acct_not x0 l (sled_crash n s) _ _ eq_refl (Hk n) R)|].
    intros m. apply (acct_not x0 l (sled_crash n s)); [|apply Hk|exact R]. unfold sled_crash at 1. cbn [cur pend dur sled_crash]. rewrite firstn_nil. reflexivity.
Qed.
Lemma history_inv x0 es : forall l s, inv x0 l s -> Forall event_wf es -> let '(s', a) := sdb_history s es in length a = length es /\ inv x0 (l ++ combine es a) s'.
Proof.
  induction es as [|e es IH]; intros l s H He; cbn [sdb_history]; [split; [reflexivity|]; cbn [combine]; rewrite app_nil_r; exact H|].
  inversion He as [|? ? He1 He2]; subst. pose proof (happens_inv x0 l s e H He1) as H1. destruct (sdb_happens s e) as [s1 a]. specialize (IH _ _ H1 He2).
  destruct (sdb_history s1 es) as [s2 al]. destruct IH as [I1 I2]. split; [cbn [length]; congruence|]. cbn [combine]. rewrite <- app_assoc in I2. exact I2.
Qed.
Lemma history_app es es' : forall s, sdb_history s (es ++ es') =
  let '(s1, a) := sdb_history s es in let '(s2, a') := sdb_history s1 es' in (s2, a ++ a').
Proof.
  induction es as [|e es IH]; intros s; cbn [app sdb_history]; [destruct (sdb_history s es'); reflexivity|].
  destruct (sdb_happens s e) as [s1 a]. rewrite IH. destruct (sdb_history s1 es) as [s2 al]. destruct (sdb_history s2 es') as [s3 al']. reflexivity.
Qed.
(** A state from which accounts are kept. *)
Definition start_ok (s : sled) : Prop := sled_ok s /\ ent_ok s.
Lemma start_empty : inv (bal sled_empty) [] sled_empty.
Proof.
  assert (A : forall n, acct (bal sled_empty) [] (sled_crash n sled_empty)).
  { intros n. unfold sled_crash, sled_empty. cbn [pend dur]. rewrite firstn_nil. split; [intros k v E; discriminate E|]. exists []. split; [constructor|reflexivity]. }
  split; [apply sled_ok_empty|]. split; [exact (A 0%nat)|exact A].
Qed.
Lemma start_flush s : sled_ok s -> ent_ok s -> inv (bal s) [] (sled_flush s).
Proof.
  intros H He. assert (A : forall s', cur s' = cur s -> acct (bal s) [] s').
  { intros s' E. split; [apply (ent_cur s s' E He)|]. exists []. split; [constructor|]. intros w. rewrite (bal_cur s s' w E). reflexivity. }
  split; [apply sled_ok_flush, H|]. split; [apply A; reflexivity|]. intros n. apply A, sled_crash_flushed.
Qed.
Lemma ok_flushed s e s' : ent_ok s -> event_wf e -> sdb_happens s e = (s', Some (Ok tt)) ->
  match e with SdFlush _ | SdCall (SDecrease _ _) _ => True | SdCall (SAdd _ a) _ => a <> 0 | _ => False end -> exists s1, s' = sled_flush s1.
Proof.
  intros He Hw E Hm. destruct e as [c fs|c fs|fs|n]; [|destruct Hm| |destruct Hm]; cbn [sdb_happens] in E.
  - pose proof (call_io_cases c fs s He Hw) as R. destruct (sdb_call_io c fs s) as [[q s1] r]. injection E as -> ->.
    destruct R as [(_ & T & _)|[(_ & _ & T & _)|(_ & -> & _)]]; [|destruct (T eq_refl)|eauto]. specialize (T eq_refl). destruct c; [destruct (Hm T)|destruct T].
  - unfold sdb_flush_io, io_op in E. destruct (next_fault fs) as [|[|k]]; cbn [fst snd] in E; inversion E. eauto.
Qed.
Lemma settled_start es : Forall event_wf es -> let '(s, a) := sdb_history sled_empty es in settled es a -> inv (bal s) [] s.
Proof.
  intros He. destruct (sdb_history sled_empty es) as [s a] eqn:E. intros [->|(es1 & e & l1 & -> & -> & Hm)]; [injection E as <- _; apply start_empty|].
  apply Forall_app in He as [He1 He2]. inversion He2 as [|? ? Hw _]; subst. rewrite history_app in E. pose proof (history_inv _ es1 [] _ start_empty He1) as H.
  destruct (sdb_history sled_empty es1) as [s1 a1]. destruct H as [_ H]. cbn [sdb_history] in E. destruct (sdb_happens s1 e) as [s2 a2] eqn:E2.
  injection E as <- Ea. apply app_inj_tail in Ea as [_ ->]. destruct (ok_flushed s1 e s2 (proj1 (proj1 (proj2 H))) Hw E2 Hm) as (s3 & ->).
  pose proof (happens_inv _ _ _ _ H Hw) as H2. rewrite E2 in H2. destruct H2 as (K1 & K2 & _).
  assert (G : sled_flush s3 = sled_flush (sled_flush s3)) by reflexivity. rewrite G at 2. apply start_flush; [exact K1|exact (proj1 K2)].
Qed.

(*@T C118. The accounts of a SummaryDB through any history of updates whose database operations fail at any points, updates whose callers gave
   up, flushes and kills: each update counts wholly or not at all, from the last moment at which everything had been written out
   on, every balance is the balance then, plus what the counting additions put on it, minus what the counting decreases took.
   An update that was answered with success counts, whatever happens later; an update whose operations all worked and which was answered with an
   error does not. *)
Lemma p_C118_accounts : forall es0 es, Forall event_wf (es0 ++ es) ->
  let '(s0, answers0) := sdb_history sled_empty es0 in let '(s, answers) := sdb_history s0 es in
  settled es0 answers0 ->
  exists counts, length counts = length es /\
  (forall i e, nth_error es i = Some e -> update_of e <> None -> nth_error answers i = Some (Some (Ok tt)) -> nth_error counts i = Some true) /\
  (forall i e er, nth_error es i = Some e -> all_fine e -> nth_error answers i = Some (Some (Err er)) -> nth_error counts i = Some false) /\
  forall w, exists x0 x, sdb_get_funds w s0 = Ok x0 /\ sdb_get_funds w s = Ok x /\ x < 2 ^ 256 /\
    x + total (taken_from w) (combine counts es) = x0 + total (put_on w) (combine counts es).
Proof.
  intros es0 es He. apply Forall_app in He as [He0 He]. pose proof (settled_start es0 He0) as S. destruct (sdb_history sled_empty es0) as [s0 a0].
  destruct (sdb_history s0 es) as [s a] eqn:E. intros Hset. specialize (S Hset). pose proof (history_inv _ es [] s0 S He) as H. rewrite E in H.
  destruct H as [Hl (Hs & (Hent & cs & Hc & Hb) & _)]. cbn [app] in *.
  assert (Em : map fst (combine es a) = es) by (clear -Hl; revert a Hl; induction es as [|e es IH]; intros [|b a] Hl; try discriminate Hl; [reflexivity|]; cbn [combine map fst]; rewrite IH by (cbn in Hl; congruence); reflexivity).
  rewrite Em in Hb. exists cs. pose proof (Forall2_len _ _ _ Hc) as Hlc. split; [rewrite <- Em, map_length; exact Hlc|].
  assert (N : forall i e x, nth_error es i = Some e -> nth_error a i = Some x -> exists b, nth_error cs i = Some b /\ right_count b (e, x)).
  { intros i e x H1 H2. assert (H3 : nth_error (combine es a) i = Some (e, x)).
    { clear -H1 H2. revert es a H1 H2. induction i as [|i IH]; intros [|e0 es] [|b0 a] H1 H2; try discriminate; cbn [nth_error combine] in *; [congruence|apply IH; assumption]. }
    clear -Hc H3. revert i H3. induction Hc as [|b y cs l Hr Hc IH]; intros [|i] H3; try discriminate H3; cbn [nth_error] in *; [exists b; split; [reflexivity|]; congruence|apply IH, H3]. }
  split; [|split].
  - intros i e H1 Hu H2. destruct (N i e _ H1 H2) as (b & Hn & R & _). rewrite Hn. f_equal. apply R; [exact Hu|reflexivity].
  - intros i e er H1 Hf H2. destruct (N i e _ H1 H2) as (b & Hn & _ & R). rewrite Hn. f_equal. apply (R Hf er). reflexivity.
  - intros w. exists (bal s0 w), (bal s w). split; [apply ent_funds, (proj1 (proj1 (proj2 S)))|]. split; [apply ent_funds, Hent|]. split; [apply (ent_bal s w Hent)|apply Hb].
Qed.
(*@E
(** An addition is answered with success, the next one is given up before its flush and survives, a kill loses a decrease that reported an error. *)
Example C118_accounts_ex : let w := repeat 97 33 in
  let '(s, answers) := sdb_history sled_empty [SdCall (SAdd w 100) []; SdDropped (SAdd w 7) [Fine; Fine; Fails 0]; SdCall (SDecrease w 30) [Fine; Fine; Fails 0]; SdKilled 1] in
  answers = [Some (Ok tt); None; Some (Err ETreeAddFunds); None] /\ sdb_get_funds w s = Ok 107.
Proof. vm_compute. split; reflexivity. Qed.
Example C118_accounts_ex_settled : let w := repeat 97 33 in
  let '(s, answers) := sdb_history sled_empty [SdDropped (SAdd w 7) [Fine; Fine; Fails 0]; SdFlush []] in
  settled [SdDropped (SAdd w 7) [Fine; Fine; Fails 0]; SdFlush []] answers /\ sdb_get_funds w (sled_crash 0 s) = Ok 7.
Proof. split; [right; exists [SdDropped (SAdd (repeat 97 33) 7) [Fine; Fine; Fails 0]], (SdFlush []), [None]; split; [reflexivity|]; split; [reflexivity|exact I]|vm_compute; reflexivity]. Qed.
@*)

(*@T C118. When all operations work the calls are those of C66. *)
Lemma p_C118_nothing_fails : forall c s fs, (forall f, In f fs -> f = Fine) ->
  let '(_, s', r) := sdb_call_io c fs s in (s', r) = sdb_call_alone c s.
Proof.
  intros c s fs F.
  assert (F1 := proj2 (fine_next fs F)). assert (F2 := proj2 (fine_next _ F1)).
  destruct (fine_next fs F) as [E1 _]. destruct (fine_next _ F1) as [E2 _]. destruct (fine_next _ F2) as [E3 _].
  destruct c as [w a|w a]; cbn [sdb_call_io]; unfold sdb_call_alone; cbn [sdb_solo sdb_step].
  - unfold sdb_add_io. destruct (a =? 0); [reflexivity|]. unfold io_bind, io_read, io_op, io_out. rewrite E1. cbn [fst snd].
    match goal with |- context [match ?x with Ok _ => _ | Err _ => _ | Panic => _ | UB => _ end] => destruct x end; try reflexivity.
    rewrite E2. cbn [fst snd sdb_solo sdb_step]. unfold printable. destruct (utf8_ok w); [|reflexivity]. rewrite E3. reflexivity.
  - unfold sdb_decrease_io. unfold io_bind, io_read, io_op, io_out. rewrite E1. cbn [fst snd].
    match goal with |- context [match ?x with Ok _ => _ | Err _ => _ | Panic => _ | UB => _ end] => destruct x end; try reflexivity.
    rewrite E2. cbn [fst snd sdb_solo sdb_step]. rewrite E3. reflexivity.
Qed.
(*@E
Example C118_nothing_fails_ex : snd (sdb_call_io (SAdd (repeat 97 33) 5) [Fine; Fine] sled_empty) = Ok tt.
Proof. vm_compute. reflexivity. Qed.
@*)

(*@T C118. Panics, and what a read reports, after any history: no call runs into undefined behaviour; a call on a text address panics only when a balance would exceed 256 bits;
   [get_funds] reports the balance when its read works, and otherwise an error, or panics for an address that is not text. *)
Lemma p_C118_answers : forall es c fs, Forall event_wf es -> sdb_call_wf c ->
  let '(s, _) := sdb_history sled_empty es in
  (let '(_, _, r) := sdb_call_io c fs s in r <> UB /\
   (r = Panic -> match c with SAdd w a => utf8_ok w = true -> exists x, sdb_get_funds w s = Ok x /\ 2 ^ 256 <= x + a
                            | SDecrease w _ => utf8_ok w = false end)) /\
  forall w, exists x, sdb_get_funds w s = Ok x /\
    let '(_, s', r) := sdb_get_funds_io w fs s in s' = s /\
    match next_fault fs with Fine => r = Ok x | Fails _ => r = if utf8_ok w then Err ETreeGetDerivChain else Panic end.
Proof.
  intros es c fs He Hc. pose proof (history_inv _ es [] _ start_empty He) as H. destruct (sdb_history sled_empty es) as [s a]. destruct H as [_ (_ & (Hent & _) & _)].
  split.
  - pose proof (call_io_cases c fs s Hent Hc) as R. destruct (sdb_call_io c fs s) as [[q s'] r].
    destruct R as [(_ & _ & P & U)|[(_ & _ & _ & _ & P & U)|(_ & _ & _ & P & U)]]; (split; [exact U|]); intros E; specialize (P E); destruct c as [w b|w b]; cbn [addr_of covered] in *;
      try (intros Hu; rewrite Hu in P; discriminate P); try exact P.
    + intros Hu. specialize (P Hu). exists (bal s w). split; [apply ent_funds, Hent|]. lia.
    + destruct (utf8_ok w) eqn:Hu; [destruct (P eq_refl)|reflexivity].
  - intros w. exists (bal s w). split; [apply ent_funds, Hent|]. pose proof (ent_funds s w Hent) as Ef. unfold sdb_get_funds in Ef.
    unfold sdb_get_funds_io, io_bind, io_read, io_op, io_out. destruct (next_fault fs) as [|[|k]]; cbn [fst snd].
    + split; [reflexivity|]. exact Ef.
    + unfold printable. destruct (utf8_ok w); split; reflexivity.
    + unfold printable. destruct (utf8_ok w); split; reflexivity.
Qed.
(*@E
Example C118_answers_ex : let w := repeat 97 33 in let '(s, _) := sdb_history sled_empty [SdCall (SAdd w (2 ^ 256 - 1)) []] in
  snd (sdb_call_io (SAdd w 1) [] s) = Panic /\ snd (sdb_get_funds_io w [Fails 0] s) = Err ETreeGetDerivChain /\ snd (sdb_get_funds_io (repeat 200 33) [Fails 0] s) = Panic.
Proof. vm_compute. repeat split; reflexivity. Qed.
@*)

(*@T C118, errors.  What a call reports when it reports an error: [add_funds] always its own kind; [decrease_funds] its own kind, except that the failure of its
   flush, after everything else went well, is reported as that of an addition; [flush] fails with its operation. *)
Lemma p_C118_errors : forall c fs s,
  (let '(_, _, r) := sdb_call_io c fs s in forall er, r = Err er ->
   match c with
   | SAdd _ _ => er = ETreeAddFunds
   | SDecrease _ _ => er = if (match fs with Fine :: Fine :: Fails _ :: _ => true | _ => false end) && (match sdb_call_io c [] s with (_, _, Ok _) => true | _ => false end)
                           then ETreeAddFunds else ETreeDecreaseFunds
   end) /\
  (let '(_, _, r) := sdb_flush_io fs s in r = match next_fault fs with Fine => Ok tt | Fails _ => Err EChainDumpConfig end).
Proof.
  intros c fs s. split.
  - destruct c as [w a|w a]; cbn [sdb_call_io].
    + unfold sdb_add_io. destruct (a =? 0); [unfold io_out; discriminate|]. unfold io_bind, io_read, io_op, io_out, printable.
      destruct (next_fault fs) as [|[|k]]; cbn [fst snd]; [|destruct (utf8_ok w); intros er E; congruence..].
      set (D := match sled_get w s with None => Ok (dump_u256 a [])
        | Some prev => let! x := change_context (load_u256 prev) ETreeAddFunds in let! y := u256_add (fst x) a in Ok (dump_u256 y []) end).
      destruct D as [d|e| |] eqn:Ed; subst D;
        [|intros er E; replace er with e by congruence|discriminate..].
      * destruct (next_fault (tl fs)) as [|[|k]]; cbn [fst snd]; destruct (utf8_ok w); try (intros er E; congruence);
          destruct (next_fault (tl (tl fs))) as [|[|k2]]; cbn [fst snd]; intros er E; congruence.
      * destruct (sled_get w s); [|discriminate Ed]. destruct (load_u256 b) as [x|e'| |]; cbn [change_context bind] in Ed; try discriminate Ed; [|congruence].
        unfold u256_add in Ed. destruct (_ <? _); discriminate Ed.
    + unfold sdb_decrease_io, io_bind, io_read, io_op, io_out, printable. cbn [next_fault tl].
      assert (HD : forall e, (match sled_get w s with None => if utf8_ok w then Err ETreeDecreaseFunds else Panic
        | Some prev => let! x := change_context (load_u256 prev) ETreeDecreaseFunds in
            if fst x <? a then Err ETreeDecreaseFunds else let! y := u256_sub (fst x) a in Ok (dump_u256 y []) end) = @Err bytes e -> e = ETreeDecreaseFunds).
      { intros e. destruct (sled_get w s) as [b|]; [|destruct (utf8_ok w); congruence].
        destruct (load_u256 b) as [x|e'| |]; cbn [change_context bind]; try congruence. destruct (fst x <? a) eqn:El; [congruence|].
        unfold u256_sub. destruct (a <=? fst x); cbn [bind]; congruence. }
      destruct fs as [|[|[|k0]] fs]; cbn [next_fault tl fst snd]; try (destruct (utf8_ok w); intros er E; cbn [andb]; congruence).
      { set (D := match sled_get w s with None => if utf8_ok w then Err ETreeDecreaseFunds else Panic
        | Some prev => let! x := change_context (load_u256 prev) ETreeDecreaseFunds in
            if fst x <? a then Err ETreeDecreaseFunds else let! y := u256_sub (fst x) a in Ok (dump_u256 y []) end). fold D in HD. destruct D as [d|e| |] eqn:Ed; cbn [fst snd]; intros er E; try congruence. cbn [andb]. rewrite <- (HD e eq_refl). congruence. }
      set (D := match sled_get w s with None => if utf8_ok w then Err ETreeDecreaseFunds else Panic
        | Some prev => let! x := change_context (load_u256 prev) ETreeDecreaseFunds in
            if fst x <? a then Err ETreeDecreaseFunds else let! y := u256_sub (fst x) a in Ok (dump_u256 y []) end). fold D in HD. destruct D as [d|e| |] eqn:Ed; cbn [fst snd].
      * destruct fs as [|[|[|k1]] fs]; cbn [next_fault tl fst snd andb]; try (intros er E; congruence).
        destruct fs as [|[|[|k2]] fs]; cbn [next_fault tl fst snd andb]; intros er E; congruence.
      * intros er E. replace er with e by congruence. rewrite (HD e eq_refl), Bool.andb_false_r. reflexivity.
      * intros er E; discriminate E.
      * intros er E; discriminate E.
  - unfold sdb_flush_io, io_op. destruct (next_fault fs) as [|[|k]]; reflexivity.
Qed.
(*@E
Example C118_errors_ex : let w := repeat 97 33 in let s := snd (fst (sdb_call_io (SAdd w 100) [] sled_empty)) in
  snd (sdb_call_io (SDecrease w 30) [Fine; Fine; Fails 0] s) = Err ETreeAddFunds /\ snd (sdb_call_io (SDecrease w 30) [Fine; Fails 1] s) = Err ETreeDecreaseFunds /\
  snd (sdb_call_io (SDecrease w 130) [Fine; Fine; Fails 0] s) = Err ETreeDecreaseFunds /\ snd (sdb_call_io (SAdd w 1) [Fails 0] s) = Err ETreeAddFunds.
Proof. vm_compute. repeat split. Qed.
@*)

(*@T C118 does not make updates safe to repeat: an addition that was given up, or that was answered with an error because its flush failed, has been made all the same, so that making it again
   counts it twice. *)
Lemma p_C118_repeated_refuted : forall w a n, utf8_ok w = true -> 0 < a -> a + a < 2 ^ 256 ->
  (let '(s, answers) := sdb_history sled_empty [SdDropped (SAdd w a) [Fine; Fine; Fails n]; SdCall (SAdd w a) []] in
   answers = [None; Some (Ok tt)] /\ sdb_get_funds w s = Ok (a + a)) /\
  (let '(s, answers) := sdb_history sled_empty [SdCall (SAdd w a) [Fine; Fine; Fails n]; SdCall (SAdd w a) []] in
   answers = [Some (Err ETreeAddFunds); Some (Ok tt)] /\ sdb_get_funds w s = Ok (a + a)).
Proof.
  intros w a n Hu Ha Haa. assert (Ua : u256_ok a) by (unfold u256_ok; lia).
  assert (GO : exists s1, sdb_call_io (SAdd w a) [Fine; Fine; Fails n] sled_empty = ([], s1, Err ETreeAddFunds) /\ ent_ok s1 /\ bal s1 w = a).
  { cbn [sdb_call_io]. unfold sdb_add_io. destruct (N.eqb_spec a 0); [lia|]. unfold io_bind, io_read, io_op, io_out. cbn [next_fault tl fst snd].
    change (sled_get w sled_empty) with (@None bytes). unfold printable. rewrite Hu.
    assert (E0 : ent_ok sled_empty) by (intros k v E; discriminate E).
    assert (K : ent_ok (sled_commit [(w, led_encode a)] sled_empty) /\ bal (sled_commit [(w, led_encode a)] sled_empty) w = a).
    { split; [apply ent_commit; assumption|]. rewrite bal_commit1 by exact Ua. unfold upd. rewrite bytes_eqb_refl. reflexivity. }
    destruct n as [|n]; eexists; (split; [reflexivity|]); exact K. }
  destruct GO as (s1 & E1 & Hent & Hb).
  assert (GO2 : exists q s2, sdb_call_io (SAdd w a) [] s1 = (q, s2, Ok tt) /\ sdb_get_funds w s2 = Ok (a + a)).
  { pose proof (call_io_cases (SAdd w a) [] s1 Hent Ua) as R. destruct (sdb_call_io (SAdd w a) [] s1) as [[q s2] r] eqn:E2. exists q, s2.
    assert (F : fine []) by (intros f []). assert (C : covered (SAdd w a) s1) by (cbn [covered]; rewrite Hb; exact Haa).
    destruct R as [(-> & T & P & U)|[(_ & _ & _ & Hp & P & _)|(_ & -> & Hok & _)]].
    - exfalso. pose proof (p_C118_nothing_fails (SAdd w a) s1 [] F) as X. rewrite E2 in X. change (sdb_call_alone (SAdd w a) s1) with (sdb_solo 3 s1 (SStart (SAdd w a))) in X.
      cbn [sdb_solo sdb_step] in X. destruct (N.eqb_spec a 0); [lia|]. destruct (ent_bal s1 w Hent) as [_ [[Eg Eb]|Eg]]; [lia|]. rewrite Eg, load_enc_led, Hb in X by (rewrite Hb; exact Ua).
      cbn [change_context bind fst] in X. unfold u256_add in X. destruct (N.ltb_spec (a + a) (2 ^ 256)); [|lia]. cbn [bind] in X. cbn [sdb_step] in X. unfold printable in X. rewrite Hu in X. cbn [sdb_step] in X. inversion X as [[X1 X2]]. subst r. specialize (T eq_refl). cbn in T. lia.
    - exfalso. specialize (Hp F). specialize (P Hp). cbn [addr_of] in P. congruence.
    - rewrite (Hok F). split; [reflexivity|]. rewrite ent_funds by (apply (ent_cur (written (SAdd w a) s1)); [reflexivity|apply ent_commit; [exact Hent|apply written_ok; assumption]]).
      f_equal. rewrite bal_flush. unfold written. rewrite bal_commit1 by (apply written_ok; assumption). unfold upd. cbn [addr_of new_value]. rewrite bytes_eqb_refl, Hb. reflexivity. }
  destruct GO2 as (q & s2 & E2 & Hf). cbn [sdb_history sdb_happens]. rewrite E1. cbn [fst snd]. rewrite E2. split; split; try reflexivity; exact Hf.
Qed.
(*@E
Example C118_repeated_ex : utf8_ok (repeat 97 33) = true /\
  sdb_get_funds (repeat 97 33) (fst (sdb_history sled_empty [SdDropped (SAdd (repeat 97 33) 5) [Fine; Fine; Fails 0]; SdCall (SAdd (repeat 97 33) 5) []])) = Ok 10.
Proof. vm_compute. split; reflexivity. Qed.
@*)
