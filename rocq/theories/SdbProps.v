(** Proofs of the SummaryDB theorems. *)
From Coq Require Import Lia ZifyBool ZifyNat ZifyN.
From Verif Require Import Base Tools Sled Tree Spec LedgerSpec SummaryDb Conc ConcSpec TextSpec Demo.
From Verif Require Import BaseFacts ToolsFacts SledFacts LedgerFacts.

Lemma load_enc_led x : u256_ok x -> load_u256 (led_encode x) = Ok (x, length (payload x)).
Proof. intros H. rewrite led_encode_eq, <- (app_nil_r (enc x)). apply load_enc, H. Qed.
Lemma sdb_get_bal s w : led_ok s -> sdb_get_funds w s = Ok (bal s w).
Proof.
  intros [_ H]. unfold sdb_get_funds, bal, led_get. destruct (sled_get w s) as [v|] eqn:E; [|reflexivity].
  destruct (H _ _ E) as (x & Hx & ->). rewrite led_decode_encode by exact Hx.
  rewrite led_encode_eq, <- (app_nil_r (enc x)), load_biguint_enc by exact Hx. reflexivity.
Qed.
Lemma funds_bal s f : led_ok s -> funds s f -> forall w, f w = bal s w.
Proof. intros H Hf w. specialize (Hf w). rewrite sdb_get_bal in Hf by exact H. congruence. Qed.
Lemma sled_get_led s w : led_ok s -> sled_get w s = None /\ bal s w = 0 \/ sled_get w s = Some (led_encode (bal s w)) /\ u256_ok (bal s w).
Proof.
  intros H. unfold bal, led_get. destruct (sled_get w s) as [v|] eqn:E; [|left; split; reflexivity].
  destruct H as [_ H]. destruct (H _ _ E) as (x & Hx & ->). rewrite led_decode_encode by exact Hx. right. split; [reflexivity|exact Hx].
Qed.

Lemma add_alone w a s : led_ok s -> u256_ok a -> sdb_add_funds w a s =
  if a =? 0 then (s, Ok tt)
  else if bal s w + a <? 2 ^ 256 then
    let s' := sled_commit [(w, led_encode (bal s w + a))] s in
    if utf8_ok w then (sled_flush s', Ok tt) else (s', Panic)
  else (s, Panic).
Proof.
  intros H Ha. unfold sdb_add_funds, sdb_call_alone. cbn [sdb_solo sdb_step]. destruct (a =? 0); [reflexivity|].
  destruct (sled_get_led s w H) as [[E E0]|[E Hu]]; rewrite E.
  - rewrite E0. cbn [N.add]. unfold u256_ok in Ha. destruct (N.ltb_spec a (2 ^ 256)); [|lia]. unfold printable, sled_insert, led_encode. destruct (utf8_ok w) eqn:Hu'; cbn [sdb_step]; unfold printable; rewrite ?Hu'; cbn [sdb_step]; reflexivity.
  - rewrite load_enc_led by exact Hu. cbn [change_context bind fst]. unfold u256_add. destruct (bal s w + a <? 2 ^ 256); [|reflexivity].
    cbn [bind]. unfold printable, sled_insert, led_encode. destruct (utf8_ok w) eqn:Hu'; cbn [sdb_step]; unfold printable; rewrite ?Hu'; cbn [sdb_step]; reflexivity.
Qed.
Lemma decrease_alone w a s : led_ok s -> sdb_decrease_funds w a s =
  match sled_get w s with
  | None => (s, if utf8_ok w then Err ETreeDecreaseFunds else Panic)
  | Some _ =>
      if a <=? bal s w then (sled_flush (sled_commit [(w, led_encode (bal s w - a))] s), Ok tt)
      else (s, Err ETreeDecreaseFunds)
  end.
Proof.
  intros H. unfold sdb_decrease_funds, sdb_call_alone. cbn [sdb_solo sdb_step].
  destruct (sled_get_led s w H) as [[E E0]|[E Hu]]; rewrite E.
  - unfold printable. destruct (utf8_ok w); reflexivity.
  - rewrite load_enc_led by exact Hu. cbn [change_context bind fst]. rewrite N.leb_antisym. destruct (bal s w <? a) eqn:El; [reflexivity|].
    unfold u256_sub. rewrite N.leb_antisym, El. reflexivity.
Qed.

Lemma alone_ok c s : led_ok s -> sdb_call_wf c -> led_ok (fst (sdb_call_alone c s)).
Proof.
  intros H Hc. destruct c as [w a|w a].
  - change (sdb_call_alone (SAdd w a) s) with (sdb_add_funds w a s). rewrite add_alone by (try exact H; apply Hc).
    destruct (a =? 0); [exact H|]. destruct (N.ltb_spec (bal s w + a) (2 ^ 256)); [|exact H]. cbn zeta.
    pose proof (led_ok_commit1 w (bal s w + a) s H ltac:(assumption)). destruct (utf8_ok w); [apply led_ok_flush; assumption|assumption].
  - change (sdb_call_alone (SDecrease w a) s) with (sdb_decrease_funds w a s). rewrite decrease_alone by exact H.
    destruct (sled_get w s); [|exact H]. destruct (a <=? bal s w); [|exact H]. apply led_ok_flush, led_ok_commit1; [exact H|].
    destruct (led_get_bal s w H) as [_ Hu]. unfold u256_ok in *. lia.
Qed.
Lemma sdb_run_ok calls : forall s, led_ok s -> Forall sdb_call_wf calls -> led_ok (sdb_run s calls).
Proof.
  induction calls as [|c calls IH]; intros s H Hc; [exact H|]. inversion Hc; subst. apply IH; [apply alone_ok; assumption|assumption].
Qed.
Lemma sdb_after_ok calls : Forall sdb_call_wf calls -> led_ok (sdb_after calls).
Proof. apply sdb_run_ok, led_ok_empty. Qed.

Lemma utf8_char c l : scalar c -> utf8_ok (utf8_char_bytes c ++ l) = utf8_ok l.
Proof.
  intros [H1 H2]. unfold utf8_char_bytes.
  destruct (N.ltb_spec c 128); [cbn [app utf8_ok]; destruct (N.ltb_spec c 128); [reflexivity|lia]|].
  destruct (N.ltb_spec c 2048).
  { cbn [app utf8_ok]. unfold between. destruct (N.ltb_spec (192 + c / 64) 128); [lia|].
    replace ((194 <=? 192 + c / 64) && (192 + c / 64 <=? 223)) with true by lia. replace ((128 <=? 128 + c mod 64) && (128 + c mod 64 <=? 191)) with true by lia. reflexivity. }
  destruct (N.ltb_spec c 65536).
  { cbn [app utf8_ok]. unfold between. destruct (N.ltb_spec (224 + c / 4096) 128); [lia|].
    replace ((194 <=? 224 + c / 4096) && (224 + c / 4096 <=? 223)) with false by lia. replace ((224 <=? 224 + c / 4096) && (224 + c / 4096 <=? 239)) with true by lia.
    replace ((128 <=? 128 + c mod 64) && (128 + c mod 64 <=? 191)) with true by lia.
    replace (((if 224 + c / 4096 =? 224 then 160 else 128) <=? 128 + c / 64 mod 64) && (128 + c / 64 mod 64 <=? (if 224 + c / 4096 =? 237 then 159 else 191))) with true; [reflexivity|].
    destruct (N.eqb_spec (224 + c / 4096) 224), (N.eqb_spec (224 + c / 4096) 237); lia. }
  cbn [app utf8_ok]. unfold between. destruct (N.ltb_spec (240 + c / 262144) 128); [lia|].
  replace ((194 <=? 240 + c / 262144) && (240 + c / 262144 <=? 223)) with false by lia. replace ((224 <=? 240 + c / 262144) && (240 + c / 262144 <=? 239)) with false by lia.
  replace ((240 <=? 240 + c / 262144) && (240 + c / 262144 <=? 244)) with true by lia.
  replace ((128 <=? 128 + c mod 64) && (128 + c mod 64 <=? 191)) with true by lia. replace ((128 <=? 128 + c / 64 mod 64) && (128 + c / 64 mod 64 <=? 191)) with true by lia.
  replace (((if 240 + c / 262144 =? 240 then 144 else 128) <=? 128 + c / 4096 mod 64) && (128 + c / 4096 mod 64 <=? (if 240 + c / 262144 =? 244 then 143 else 191))) with true; [reflexivity|].
  destruct (N.eqb_spec (240 + c / 262144) 240), (N.eqb_spec (240 + c / 262144) 244); lia.
Qed.
Lemma utf8_back n : forall l, (length l <= n)%nat -> utf8_ok l = true -> utf8 l.
Proof.
  assert (Hc : forall c l, scalar c -> utf8 l -> utf8 (utf8_char_bytes c ++ l)).
  { intros c l Hs (cs & F & ->). exists (c :: cs). split; [constructor; assumption|reflexivity]. }
  induction n as [|n IH]; intros l Hl H; [destruct l; [exists []; split; [constructor|reflexivity]|cbn in Hl; lia]|].
  destruct l as [|b l]; [exists []; split; [constructor|reflexivity]|]. cbn [length] in Hl. cbn [utf8_ok] in H. unfold between in H.
  destruct (N.ltb_spec b 128).
  { assert (E : b :: l = utf8_char_bytes b ++ l) by (unfold utf8_char_bytes; destruct (N.ltb_spec b 128); [reflexivity|lia]). rewrite E. apply Hc; [split; lia|apply IH; [lia|exact H]]. }
  destruct ((194 <=? b) && (b <=? 223)) eqn:E2.
  { destruct l as [|c l]; [discriminate H|]. cbn [length] in Hl. apply andb_prop in H as [Hc1 H]. set (x := (b - 192) * 64 + (c - 128)).
    assert (E : b :: c :: l = utf8_char_bytes x ++ l).
    { unfold utf8_char_bytes. destruct (N.ltb_spec x 128); [unfold x in *; lia|]. destruct (N.ltb_spec x 2048); [|unfold x in *; lia]. cbn [app]. f_equal; [unfold x; lia|]. f_equal. unfold x. lia. }
    rewrite E. apply Hc; [split; unfold x; lia|apply IH; [lia|exact H]]. }
  destruct ((224 <=? b) && (b <=? 239)) eqn:E3.
  { destruct l as [|c [|d l]]; try discriminate H. cbn [length] in Hl. apply andb_prop in H as [Hc1 H]. apply andb_prop in Hc1 as [Hc1 Hd1]. set (x := (b - 224) * 4096 + (c - 128) * 64 + (d - 128)).
    assert (Hx : 128 <= c <= 191 /\ 128 <= d <= 191 /\ 2048 <= x < 65536 /\ ~ 55296 <= x <= 57343).
    { unfold x. destruct (N.eqb_spec b 224), (N.eqb_spec b 237); lia. }
    assert (E : b :: c :: d :: l = utf8_char_bytes x ++ l).
    { unfold utf8_char_bytes. destruct (N.ltb_spec x 128); [lia|]. destruct (N.ltb_spec x 2048); [lia|]. destruct (N.ltb_spec x 65536); [|lia]. cbn [app]. f_equal; [unfold x; lia|]. f_equal; [unfold x; lia|]. f_equal. unfold x. lia. }
    rewrite E. apply Hc; [split; lia|apply IH; [lia|exact H]]. }
  destruct ((240 <=? b) && (b <=? 244)) eqn:E4; [|discriminate H].
  destruct l as [|c [|d [|e l]]]; try discriminate H. cbn [length] in Hl. apply andb_prop in H as [Hc1 H]. apply andb_prop in Hc1 as [Hc1 He1]. apply andb_prop in Hc1 as [Hc1 Hd1]. set (x := (b - 240) * 262144 + (c - 128) * 4096 + (d - 128) * 64 + (e - 128)).
  assert (Hx : 128 <= c <= 191 /\ 128 <= d <= 191 /\ 128 <= e <= 191 /\ 65536 <= x < 1114112).
  { unfold x. destruct (N.eqb_spec b 240), (N.eqb_spec b 244); lia. }
  assert (E : b :: c :: d :: e :: l = utf8_char_bytes x ++ l).
  { unfold utf8_char_bytes. destruct (N.ltb_spec x 128); [lia|]. destruct (N.ltb_spec x 2048); [lia|]. destruct (N.ltb_spec x 65536); [lia|]. cbn [app]. f_equal; [unfold x; lia|]. f_equal; [unfold x; lia|]. f_equal; [unfold x; lia|]. f_equal. unfold x. lia. }
  rewrite E. apply Hc; [split; lia|apply IH; [lia|exact H]].
Qed.
(*@T C66. The addresses called text are exactly the UTF-8 encodings of sequences of Unicode scalar values. *)
Lemma p_C66_text_is_utf8 : forall l, utf8_ok l = true <-> utf8 l.
Proof.
  intros l. split; [apply (utf8_back (length l)); lia|]. intros (cs & F & ->). induction F as [|c cs Hs F IH]; [reflexivity|]. cbn [map concat]. rewrite utf8_char by exact Hs. exact IH.
Qed.
(*@E
Example C66_text_is_utf8_ex : utf8_ok [195; 169; 226; 130; 172; 240; 159; 153; 130] = true /\ utf8_ok [128] = false /\ utf8_ok [237; 160; 128] = false.
Proof. split; [reflexivity|]. split; reflexivity. Qed.
@*)

(*@T C66. After any calls made one after the other every address has a balance; what the next [add_funds] and [decrease_funds] do
   to it, and to every other address, for addresses that are valid UTF-8: add, unless the sum overflows; subtract, or fail
   without effect.
   Missing: addresses that are not UTF-8 text, see below. *)
Lemma p_C66_text_addresses_partial : forall calls w a, Forall sdb_call_wf calls -> u256_ok a -> utf8_ok w = true ->
  exists f, funds (sdb_after calls) f /\ (forall w, u256_ok (f w)) /\
  (let '(s', r) := sdb_add_funds w a (sdb_after calls) in
   if f w + a <? 2 ^ 256 then r = Ok tt /\ funds s' (upd f w (f w + a)) else r = Panic /\ s' = sdb_after calls) /\
  (let '(s', r) := sdb_decrease_funds w a (sdb_after calls) in
   match r with
   | Ok _ => a <= f w /\ funds s' (upd f w (f w - a))
   | Err e => (f w < a \/ f w = 0) /\ s' = sdb_after calls
   | _ => False
   end).
Proof.
  intros calls w a Hc Ha Hu. pose proof (sdb_after_ok calls Hc) as H. set (s := sdb_after calls) in *. exists (bal s).
  split; [intros x; apply sdb_get_bal, H|]. split; [intros x; apply (led_get_bal s x H)|].
  assert (Hset : forall x, u256_ok x -> funds (sled_flush (sled_commit [(w, led_encode x)] s)) (upd (bal s) w x)).
  { intros x Hx y. rewrite sdb_get_bal by (apply led_ok_flush, led_ok_commit1; assumption). rewrite bal_flush, bal_commit1 by exact Hx. reflexivity. }
  split.
  - rewrite add_alone by assumption. destruct (N.eqb_spec a 0) as [->|Hne].
    + pose proof (proj2 (led_get_bal s w H)) as Hb. unfold u256_ok in Hb. rewrite N.add_0_r. destruct (N.ltb_spec (bal s w) (2 ^ 256)); [|lia].
      split; [reflexivity|]. intros y. rewrite sdb_get_bal by exact H. unfold upd. destruct (bytes_eqb y w) eqn:E; [apply bytes_eqb_eq in E as ->|]; reflexivity.
    + rewrite Hu. destruct (N.ltb_spec (bal s w + a) (2 ^ 256)) as [Hlt|_]; [|split; reflexivity]. split; [reflexivity|]. apply Hset, Hlt.
  - rewrite decrease_alone by exact H. rewrite Hu. destruct (sled_get_led s w H) as [[E E0]|[E Hb]]; rewrite E.
    + split; [right; exact E0|reflexivity].
    + destruct (N.leb_spec a (bal s w)); [|split; [left; assumption|reflexivity]]. split; [assumption|]. apply Hset. unfold u256_ok in *. lia.
Qed.
(*@E
Definition text_addr : bytes := repeat 97 33.
Example C66_ex : let s := sdb_after [SAdd text_addr 100; SDecrease text_addr 30; SAdd (repeat 98 33) 5; SDecrease text_addr 1000] in
  utf8_ok text_addr = true /\ sdb_get_funds text_addr s = Ok 70 /\ sdb_get_funds (repeat 98 33) s = Ok 5 /\
  snd (sdb_add_funds text_addr 1 s) = Ok tt /\ snd (sdb_decrease_funds text_addr 71 s) = Err ETreeDecreaseFunds.
Proof. vm_compute. repeat split; reflexivity. Qed.
@*)

(*@T C66 fails for every address that is not UTF-8 text, such as most public keys: [add_funds] stores the new balance and then panics while
   building an error text for an error that did not occur; [decrease_funds] on an absent entry panics for the same reason. *)
Lemma p_C66_binary_addresses_panic_refuted : forall calls w a, Forall sdb_call_wf calls -> u256_ok a -> utf8_ok w = false -> a <> 0 ->
  exists f, funds (sdb_after calls) f /\
  (let '(s', r) := sdb_add_funds w a (sdb_after calls) in
   r = Panic /\ (f w + a < 2 ^ 256 -> funds s' (upd f w (f w + a)))) /\
  (sled_get w (sdb_after calls) = None -> sdb_decrease_funds w a (sdb_after calls) = (sdb_after calls, Panic)).
Proof.
  intros calls w a Hc Ha Hu Hne. pose proof (sdb_after_ok calls Hc) as H. set (s := sdb_after calls) in *. exists (bal s).
  split; [intros x; apply sdb_get_bal, H|]. split.
  - rewrite add_alone by assumption. rewrite Hu. destruct (N.eqb_spec a 0); [contradiction|].
    destruct (N.ltb_spec (bal s w + a) (2 ^ 256)) as [Hlt|Hge]; cbn zeta; split; try reflexivity.
    + intros _ y. rewrite sdb_get_bal by (apply led_ok_commit1; assumption). rewrite bal_commit1 by exact Hlt. reflexivity.
    + intros Hlt. lia.
  - intros E. rewrite decrease_alone by exact H. rewrite E, Hu. reflexivity.
Qed.
(*@E
(** A compressed public key. *)
Example C66_ex_key : utf8_ok (2 :: repeat 200 32) = false /\
  snd (sdb_add_funds (2 :: repeat 200 32) 7 sled_empty) = Panic /\
  sdb_get_funds (2 :: repeat 200 32) (fst (sdb_add_funds (2 :: repeat 200 32) 7 sled_empty)) = Ok 7.
Proof. vm_compute. repeat split; reflexivity. Qed.
@*)

(*@T C74. When [add_funds] or [decrease_funds] returns success having changed something, no crash loses it: whatever survives, the balances
   are those after the call. *)
Lemma p_C74_completed_update_is_durable : forall calls c n s', Forall sdb_call_wf calls -> sdb_call_wf c ->
  sdb_call_alone c (sdb_after calls) = (s', Ok tt) -> s' <> sdb_after calls ->
  forall w, sled_get w (sled_crash n s') = sled_get w s'.
Proof.
  intros calls c n s' Hc Hw E Hne w. pose proof (sdb_after_ok calls Hc) as H.
  assert (G : exists x, s' = sled_flush x).
  { destruct c as [v a|v a].
    - change (sdb_call_alone (SAdd v a) (sdb_after calls)) with (sdb_add_funds v a (sdb_after calls)) in E. rewrite add_alone in E by (try exact H; apply Hw).
      destruct (a =? 0); [injection E as <-; contradiction|]. destruct (_ <? _); [|discriminate E]. cbn zeta in E. destruct (utf8_ok v); [|discriminate E]. injection E as <-. eauto.
    - change (sdb_call_alone (SDecrease v a) (sdb_after calls)) with (sdb_decrease_funds v a (sdb_after calls)) in E. rewrite decrease_alone in E by exact H.
      destruct (sled_get v _); [|destruct (utf8_ok v); discriminate E]. destruct (_ <=? _); [|discriminate E]. injection E as <-. eauto. }
  destruct G as (x & ->). unfold sled_get. rewrite sled_crash_flushed. reflexivity.
Qed.
(*@E
Example C74_ex : let s' := fst (sdb_call_alone (SAdd text_addr 5) (sdb_after [])) in
  snd (sdb_call_alone (SAdd text_addr 5) (sdb_after [])) = Ok tt /\ s' <> sdb_after [] /\ sled_get text_addr (sled_crash 0 s') = Some [1; 5].
Proof. split; [vm_compute; reflexivity|]. split; [vm_compute; discriminate|vm_compute; reflexivity]. Qed.
@*)

(** ** Threads *)
Definition addr_of (c : sdb_call) : bytes := match c with SAdd w _ | SDecrease w _ => w end.
(** The thread after its first step, from the entry it reads. *)
Definition first_res (s : sled) (c : sdb_call) : sdb_thread := match sdb_step s (SStart c) with Some (_, t) => t | None => SStart c end.
Lemma first_step s c : sdb_step s (SStart c) = Some (s, first_res s c).
Proof.
  unfold first_res. destruct c as [w a|w a]; cbn [sdb_step].
  - destruct (a =? 0); [reflexivity|]. match goal with |- context [match ?x with Ok _ => _ | Err _ => _ | Panic => _ | UB => _ end] => destruct x end; reflexivity.
  - match goal with |- context [match ?x with Ok _ => _ | Err _ => _ | Panic => _ | UB => _ end] => destruct x end; reflexivity.
Qed.
Lemma first_cases s c : (exists d, first_res s c = SInsert c d) \/ (exists r, first_res s c = SDone c r).
Proof.
  unfold first_res. destruct c as [w a|w a]; cbn [sdb_step].
  - destruct (a =? 0); [right; eexists; reflexivity|].
    match goal with |- context [match ?x with Ok _ => _ | Err _ => _ | Panic => _ | UB => _ end] => destruct x end; [left|right..]; eexists; reflexivity.
  - match goal with |- context [match ?x with Ok _ => _ | Err _ => _ | Panic => _ | UB => _ end] => destruct x end; [left|right..]; eexists; reflexivity.
Qed.
Lemma first_same s s' c : sled_get (addr_of c) s = sled_get (addr_of c) s' -> first_res s c = first_res s' c.
Proof. intros E. unfold first_res. destruct c as [w a|w a]; cbn [sdb_step addr_of] in *; rewrite E; destruct (a =? 0); try reflexivity;
  match goal with |- context [match ?x with Ok _ => _ | Err _ => _ | Panic => _ | UB => _ end] => destruct x end; reflexivity. Qed.

(** What a thread knows of its address. *)
Definition thread_inv (s0 s : sled) (c : sdb_call) (t : sdb_thread) : Prop :=
  match t with
  | SStart c' => c' = c /\ sled_get (addr_of c) s = sled_get (addr_of c) s0
  | SInsert c' d => c' = c /\ first_res s0 c = SInsert c d /\ sled_get (addr_of c) s = sled_get (addr_of c) s0
  | SFlush c' => c' = c /\ exists d, first_res s0 c = SInsert c d /\ snd (sdb_call_alone c s0) = Ok tt /\
      sled_get (addr_of c) s = sled_get (addr_of c) (fst (sdb_call_alone c s0))
  | SDone c' r => c' = c /\ r = snd (sdb_call_alone c s0) /\ sled_get (addr_of c) s = sled_get (addr_of c) (fst (sdb_call_alone c s0))
  end.
Lemma thread_inv_same s0 s s' c t : thread_inv s0 s c t -> sled_get (addr_of c) s' = sled_get (addr_of c) s -> thread_inv s0 s' c t.
Proof. intros H E. destruct t; cbn [thread_inv] in *; rewrite E; exact H. Qed.
Lemma alone_done s c r : first_res s c = SDone c r -> sdb_call_alone c s = (s, r).
Proof. intros E. unfold sdb_call_alone. cbn [sdb_solo]. rewrite first_step, E. reflexivity. Qed.
Lemma alone_insert s c d : first_res s c = SInsert c d ->
  sled_get (addr_of c) (fst (sdb_call_alone c s)) = Some d /\
  snd (sdb_call_alone c s) = match c with SAdd w _ => printable w (Ok tt) | SDecrease _ _ => Ok tt end.
Proof.
  intros E. unfold sdb_call_alone. cbn [sdb_solo]. rewrite first_step, E. destruct c as [w a|w a]; cbn [sdb_solo sdb_step addr_of].
  - unfold printable. destruct (utf8_ok w); cbn [sdb_solo sdb_step fst snd]; (split; [|reflexivity]).
    + change (sled_get w (sled_flush (sled_insert w d s))) with (sled_get w (sled_insert w d s)). unfold sled_insert. rewrite sled_get_commit1, bytes_eqb_refl. reflexivity.
    + unfold sled_insert. rewrite sled_get_commit1, bytes_eqb_refl. reflexivity.
  - cbn [fst snd]. split; [|reflexivity].
    change (sled_get w (sled_flush (sled_insert w d s))) with (sled_get w (sled_insert w d s)). unfold sled_insert. rewrite sled_get_commit1, bytes_eqb_refl. reflexivity.
Qed.

Lemma thread_step s0 s c t s' t' : thread_inv s0 s c t -> sdb_step s t = Some (s', t') ->
  thread_inv s0 s' c t' /\ forall w, w <> addr_of c -> sled_get w s' = sled_get w s.
Proof.
  intros H E. destruct t as [c'|c' d|c'|c' r]; cbn [thread_inv] in H.
  - destruct H as [-> H]. rewrite first_step in E. injection E as <- <-. split; [|reflexivity].
    rewrite (first_same s s0 c H). destruct (first_cases s0 c) as [(d & Hd)|(r & Hr)].
    + rewrite Hd. cbn [thread_inv]. split; [reflexivity|]. split; [exact Hd|exact H].
    + rewrite Hr. cbn [thread_inv]. rewrite (alone_done s0 c r Hr). cbn [fst snd]. split; [reflexivity|]. split; [reflexivity|exact H].
  - destruct H as (-> & Hd & H). destruct (alone_insert s0 c d Hd) as [A1 A2].
    assert (G : forall w v, sled_get w (sled_insert (addr_of c) v s) = if bytes_eqb w (addr_of c) then Some v else sled_get w s) by (intros; apply sled_get_commit1).
    assert (E' : s' = sled_insert (addr_of c) d s) by (destruct c; cbn [sdb_step addr_of] in E |- *; injection E as <- _; reflexivity).
    assert (Hs : sled_get (addr_of c) s' = sled_get (addr_of c) (fst (sdb_call_alone c s0))) by (rewrite E', G, bytes_eqb_refl, A1; reflexivity).
    split; [|intros w Hw; rewrite E', G, (proj2 (bytes_eqb_neq _ _) Hw); reflexivity].
    destruct c as [w a|w a]; cbn [sdb_step] in E; injection E as _ <-.
    + unfold printable in *. destruct (utf8_ok w); cbn [thread_inv]; (split; [reflexivity|]); [exists d; split; [exact Hd|]|]; rewrite A2; (split; [reflexivity|exact Hs]).
    + cbn [thread_inv]. split; [reflexivity|]. exists d. split; [exact Hd|]. rewrite A2. split; [reflexivity|exact Hs].
  - destruct H as (-> & d & Hd & Hr & H). cbn [sdb_step] in E. injection E as <- <-. split; [|reflexivity].
    cbn [thread_inv]. split; [reflexivity|]. split; [symmetry; exact Hr|exact H].
  - discriminate E.
Qed.

Lemma threads_inv s0 calls schedule : NoDup (map addr_of calls) ->
  let '(s, ts) := exec sdb_step schedule (s0, map SStart calls) in
  length ts = length calls /\
  (forall i c t, nth_error calls i = Some c -> nth_error ts i = Some t -> thread_inv s0 s c t) /\
  (forall w, ~ In w (map addr_of calls) -> sled_get w s = sled_get w s0).
Proof.
  intros Hd. induction schedule as [|k schedule IH] using rev_ind.
  - cbn [exec fold_left]. split; [apply map_length|]. split; [|reflexivity].
    intros i c t Hc Ht. rewrite nth_error_map, Hc in Ht. injection Ht as <-. cbn [thread_inv]. auto.
  - unfold exec in *. rewrite fold_left_app. cbn [fold_left]. destruct (fold_left (sched_step sdb_step) schedule (s0, map SStart calls)) as [s ts].
    destruct IH as (I1 & I2 & I3). cbn [sched_step]. destruct (nth_error ts k) as [t|] eqn:Et; [|auto].
    destruct (sdb_step s t) as [[s' t']|] eqn:Es; [|auto].
    assert (Hk : (k < length calls)%nat) by (rewrite <- I1; apply nth_error_Some; congruence).
    destruct (nth_error calls k) as [c|] eqn:Ec; [|apply nth_error_None in Ec; lia].
    destruct (thread_step s0 s c t s' t' (I2 k c t Ec Et) Es) as [T1 T2].
    split; [rewrite replace_length; exact I1|]. split.
    + intros i c1 t1 Hc1 Ht1. rewrite nth_error_replace in Ht1. destruct (Nat.eqb_spec k i) as [<-|Hne].
      * destruct (k <? length ts)%nat; [|discriminate Ht1]. injection Ht1 as <-. rewrite Ec in Hc1. injection Hc1 as <-. exact T1.
      * apply (thread_inv_same s0 s); [apply (I2 i); assumption|]. apply T2. intros E.
        apply Hne. eapply (proj1 (NoDup_nth_error (map addr_of calls)) Hd); [rewrite map_length; exact Hk|]. rewrite !nth_error_map, Ec, Hc1. cbn. congruence.
    + intros w Hw. rewrite T2; [apply I3, Hw|]. intros ->. apply Hw. apply in_map. eapply nth_error_In, Ec.
Qed.

(*@T C63, what holds: when no two calls in progress concern the same address, every schedule gives every finished call the result, and its
   address the balance, as if it had run alone; addresses of no call keep their balance.
   Missing: several calls on one address, where updates are lost, see below. *)
Lemma p_C63_distinct_addresses_partial : forall s0 calls schedule,
  NoDup (map (fun c => match c with SAdd w _ | SDecrease w _ => w end) calls) ->
  let '(s, ts) := exec sdb_step schedule (s0, map SStart calls) in
  (forall i c r, nth_error ts i = Some (SDone c r) ->
     nth_error calls i = Some c /\ r = snd (sdb_call_alone c s0) /\
     forall w, match c with SAdd v _ | SDecrease v _ => w = v end ->
       sdb_get_funds w s = sdb_get_funds w (fst (sdb_call_alone c s0))) /\
  (forall w, ~ In w (map (fun c => match c with SAdd w _ | SDecrease w _ => w end) calls) -> sdb_get_funds w s = sdb_get_funds w s0).
Proof.
  intros s0 calls schedule Hd. pose proof (threads_inv s0 calls schedule Hd) as H.
  destruct (exec sdb_step schedule (s0, map SStart calls)) as [s ts]. destruct H as (I1 & I2 & I3). split.
  - intros i c r Ht. assert (Hi : (i < length calls)%nat) by (rewrite <- I1; apply nth_error_Some; congruence).
    destruct (nth_error calls i) as [c0|] eqn:Ec; [|apply nth_error_None in Ec; lia].
    pose proof (I2 i c0 _ Ec Ht) as H. cbn [thread_inv] in H. destruct H as (-> & -> & H). split; [reflexivity|]. split; [reflexivity|].
    intros w Hw. unfold sdb_get_funds. replace w with (addr_of c0) by (destruct c0; symmetry; exact Hw). rewrite H. reflexivity.
  - intros w Hw. unfold sdb_get_funds. rewrite (I3 w Hw). reflexivity.
Qed.
(*@E
Example C63_ex : let st := exec sdb_step [0; 1; 1; 0; 0; 1]%nat (sdb_after [SAdd text_addr 10], map SStart [SAdd text_addr 1; SAdd (repeat 98 33) 2]) in
  snd st = [SDone (SAdd text_addr 1) (Ok tt); SDone (SAdd (repeat 98 33) 2) (Ok tt)] /\ sdb_get_funds text_addr (fst st) = Ok 11.
Proof. vm_compute. split; reflexivity. Qed.
@*)

Lemma run2 s0 w c1 c2 d1 d2 : addr_of c1 = w -> addr_of c2 = w -> utf8_ok w = true -> first_res s0 c1 = SInsert c1 d1 -> first_res s0 c2 = SInsert c2 d2 ->
  exec sdb_step [0; 1; 0; 1; 0; 1]%nat (s0, map SStart [c1; c2]) =
  (sled_flush (sled_flush (sled_insert w d2 (sled_insert w d1 s0))), [SDone c1 (Ok tt); SDone c2 (Ok tt)]).
Proof.
  intros A1 A2 Hu E1 E2. unfold exec. cbn [map fold_left sched_step nth_error]. rewrite first_step, E1. cbn [replace nth_error sched_step].
  rewrite first_step, E2. cbn [replace nth_error sched_step].
  assert (Hi : forall c d s, addr_of c = w -> sdb_step s (SInsert c d) = Some (sled_insert w d s, SFlush c)).
  { intros [v a|v a] d s E; cbn [addr_of] in E; subst v; cbn [sdb_step]; [unfold printable; rewrite Hu|]; reflexivity. }
  rewrite (Hi c1 d1 s0 A1). cbn [replace nth_error sched_step]. rewrite (Hi c2 d2 _ A2). cbn [replace nth_error sched_step sdb_step]. reflexivity.
Qed.

(*@T C63 fails: [add_funds] and [decrease_funds] read, compute and write back without a lock.  For every text address with a balance, two concurrent
   additions can both succeed and leave only one of them; two concurrent decreases can both succeed although the balance covers one. *)
Lemma p_C63_lost_updates_refuted : forall w x a b, utf8_ok w = true -> 0 < x -> 0 < a -> 0 < b -> x + a < 2 ^ 256 -> x + b < 2 ^ 256 ->
  let s0 := sdb_after [SAdd w x] in
  sdb_get_funds w s0 = Ok x /\
  (exists schedule s, exec sdb_step schedule (s0, map SStart [SAdd w a; SAdd w b]) = (s, [SDone (SAdd w a) (Ok tt); SDone (SAdd w b) (Ok tt)]) /\
     sdb_get_funds w s = Ok (x + b)) /\
  (exists schedule s, exec sdb_step schedule (s0, map SStart [SDecrease w x; SDecrease w x]) = (s, [SDone (SDecrease w x) (Ok tt); SDone (SDecrease w x) (Ok tt)]) /\
     sdb_get_funds w s = Ok 0).
Proof.
  intros w x a b Hu Hx Ha Hb Hxa Hxb s0.
  assert (Hw : Forall sdb_call_wf [SAdd w x]) by (constructor; [unfold sdb_call_wf, u256_ok; lia|constructor]).
  assert (E0 : s0 = sled_flush (sled_commit [(w, led_encode x)] sled_empty)).
  { subst s0. unfold sdb_after, sdb_run. cbn [fold_left]. change (sdb_call_alone (SAdd w x) sled_empty) with (sdb_add_funds w x sled_empty).
    rewrite add_alone by (try apply led_ok_empty; unfold u256_ok; lia). destruct (N.eqb_spec x 0); [lia|].
    change (bal sled_empty w) with 0. cbn [N.add]. destruct (N.ltb_spec x (2 ^ 256)); [|lia]. rewrite Hu. reflexivity. }
  assert (Hg : sled_get w s0 = Some (led_encode x)).
  { rewrite E0. change (sled_get w (sled_flush ?z)) with (sled_get w z). rewrite sled_get_commit1, bytes_eqb_refl. reflexivity. }
  assert (Hok : led_ok s0) by (apply sdb_after_ok, Hw).
  assert (Hbal : bal s0 w = x) by (unfold bal, led_get; rewrite Hg, led_decode_encode by (unfold u256_ok; lia); reflexivity).
  assert (Hadd : forall y, 0 < y -> x + y < 2 ^ 256 -> first_res s0 (SAdd w y) = SInsert (SAdd w y) (led_encode (x + y))).
  { intros y Hy Hxy. unfold first_res. cbn [sdb_step]. destruct (N.eqb_spec y 0); [lia|]. rewrite Hg, load_enc_led by (unfold u256_ok; lia).
    cbn [change_context bind fst]. unfold u256_add. destruct (N.ltb_spec (x + y) (2 ^ 256)); [|lia]. reflexivity. }
  assert (Hdec : first_res s0 (SDecrease w x) = SInsert (SDecrease w x) (led_encode 0)).
  { unfold first_res. cbn [sdb_step]. rewrite Hg, load_enc_led by (unfold u256_ok; lia). cbn [change_context bind fst].
    rewrite N.ltb_irrefl. unfold u256_sub. rewrite N.leb_refl, N.sub_diag. reflexivity. }
  assert (Hfin : forall d1 y, u256_ok y -> sdb_get_funds w (sled_flush (sled_flush (sled_insert w (led_encode y) (sled_insert w d1 s0)))) = Ok y).
  { intros d1 y Hy. unfold sdb_get_funds. change (sled_get w (sled_flush (sled_flush ?z))) with (sled_get w z). unfold sled_insert. rewrite sled_get_commit1, bytes_eqb_refl.
    rewrite led_encode_eq, <- (app_nil_r (enc y)), load_biguint_enc by exact Hy. reflexivity. }
  split; [rewrite sdb_get_bal by exact Hok; rewrite Hbal; reflexivity|]. split; exists [0; 1; 0; 1; 0; 1]%nat; eexists; (split; [eapply run2|]).
  - reflexivity.
  - reflexivity.
  - exact Hu.
  - apply Hadd; assumption.
  - apply Hadd; assumption.
  - apply Hfin. unfold u256_ok. lia.
  - reflexivity.
  - reflexivity.
  - exact Hu.
  - exact Hdec.
  - exact Hdec.
  - apply Hfin. reflexivity.
Qed.
(*@E
Example C63_ex_lost : let st := exec sdb_step [0; 1; 0; 1; 0; 1]%nat (sdb_after [SAdd text_addr 10], map SStart [SAdd text_addr 1; SAdd text_addr 2]) in
  snd st = [SDone (SAdd text_addr 1) (Ok tt); SDone (SAdd text_addr 2) (Ok tt)] /\ sdb_get_funds text_addr (fst st) = Ok 12.
Proof. vm_compute. split; reflexivity. Qed.
@*)
