(** Proofs of the theorems about threads on a shared tree. *)
From Coq Require Import Lia ZifyBool ZifyNat ZifyN Permutation.
From Verif Require Import Base Sha256 Tools Transaction Block Sled Chain Tree Spec Reach LedgerSpec Conc ConcTree ConcSpec Demo.
From Verif Require Import BaseFacts ToolsFacts SledFacts ChainFacts TreeFacts LedgerFacts LedgerProps ConcFacts.

Local Strategy 1000 [u256_mul u256_add u256_sub BYTE_GAS_PRICE t_get_amount t_get_gas mc_decode recalculate_fee t_send_amount t_sub_gas lcall_run sled_get].

(** ** A call that is not interrupted *)
Lemma exec_cons k sch s ts : exec tree_step (k :: sch) (s, ts) = exec tree_step sch (sched_step tree_step (s, ts) k).
Proof. reflexivity. Qed.
Lemma sched1 s th : sched_step tree_step (s, [th]) 0 = match tree_step s th with Some (s', th') => (s', [th']) | None => (s, [th]) end.
Proof. cbn [sched_step nth_error]. destruct (tree_step s th) as [[s' th']|]; reflexivity. Qed.
Lemma exec_done n s c r : exec tree_step (repeat 0%nat n) (s, [TDone c r]) = (s, [TDone c r]).
Proof. induction n as [|n IH]; [reflexivity|]. cbn [repeat]. rewrite exec_cons, sched1. cbn [tree_step]. exact IH. Qed.
Lemma exec_run n s th : exec tree_step (repeat 0%nat (S n)) (s, [th]) =
  match tree_step s th with Some (s', th') => exec tree_step (repeat 0%nat n) (s', [th']) | None => (s, [th]) end.
Proof.
  cbn [repeat]. rewrite exec_cons, sched1. destruct (tree_step s th) as [[s' th']|] eqn:E; [reflexivity|].
  induction n as [|n IH]; [reflexivity|]. cbn [repeat]. rewrite exec_cons, sched1, E. exact IH.
Qed.
Ltac st := rewrite exec_run; cbn [tree_step sh_tree sh_locked]; unfold with_tree; cbn [sh_tree sh_locked].

(*@T C62. A call that nobody interrupts does, step by step, what the sequential model says; for every call and tree. *)
Lemma p_C62_alone_is_sequential : forall t c,
  tree_exec (repeat 0%nat 9) t [c] = let '(t', r) := call_run c t in (MkShared t' false, [TDone c r]).
Proof.
  intros t c. unfold tree_exec. cbn [map]. destruct c as [c|tx|b| |h|h]; cbn [call_run].
  - st. destruct (lcall_run c t) as [t' r]. apply exec_done.
  - unfold t_send_transaction, mc_get_last_block, mc_get_last_raw_block, mc_find_raw_by_height.
    st. destruct (t_get_gas (tx_sender tx) t) as [gas| | |]; cbn [bind next as_unit fst snd]; try apply exec_done.
    st. destruct (t_get_amount (tx_sender tx) t) as [amount| | |]; cbn [bind next as_unit fst snd]; try apply exec_done.
    destruct (u256_mul BYTE_GAS_PRICE (N.of_nat (tx_get_dump_size tx))) as [gr| | |]; cbn [bind next as_unit fst snd]; try apply exec_done.
    destruct (gas <? gr); cbn [bind next as_unit fst snd]; [apply exec_done|].
    st. destruct (u256_sub (mc_height (t_main t)) 1) as [i| | |]; cbn [bind next as_unit fst snd]; try apply exec_done.
    st. destruct (mc_height (t_main t) <? i); cbn [mc_decode unwrap_opt bind next as_unit fst snd]; [apply exec_done|].
    st. destruct (mc_decode (sled_get (height_key i) (mc_blocks (t_main t)))) as [d| | |]; cbn [bind next as_unit fst snd]; try apply exec_done.
    destruct (unwrap_opt d) as [lb| | |]; cbn [bind next as_unit fst snd]; try apply exec_done.
    destruct (recalculate_fee (bi_difficulty (get_info lb))) as [fee| | |]; cbn [bind next as_unit fst snd]; try apply exec_done.
    destruct (u256_add fee (tx_amount tx)) as [need| | |]; cbn [bind next as_unit fst snd]; try apply exec_done.
    destruct (amount <? need); cbn [bind next as_unit fst snd]; [apply exec_done|].
    st. cbn [sh_locked]. st.
    destruct (t_send_amount (tx_sender tx) (tx_receiver tx) (tx_amount tx) (with_main t (mc_add_transaction tx (t_main t)))) as [t2 [u| | |]];
      cbn [with_tree sh_locked bind next as_unit fst snd]; try apply exec_done.
    st. destruct (t_sub_gas (tx_sender tx) gr t2) as [t3 r]. cbn [sh_locked]. apply exec_done.
  - unfold mc_add_block. st. destruct (negb (bi_height (get_info b) =? mc_height (t_main t))).
    { rewrite exec_done. destruct t; reflexivity. }
    st. st. st. cbn [with_main t_main put_ref put_block mc_height]. destruct (u256_add (mc_height (t_main t)) 1); cbn [bind]; apply exec_done.
  - unfold mc_get_last_raw_block, mc_find_raw_by_height. st. destruct (u256_sub (mc_height (t_main t)) 1) as [i| | |]; cbn [bind next]; try apply exec_done.
    st. destruct (mc_height (t_main t) <? i); [apply exec_done|]. st. apply exec_done.
  - unfold mc_find_raw_by_height. st. destruct (mc_height (t_main t) <? h); [apply exec_done|]. st. apply exec_done.
  - unfold mc_find_raw_by_hash, mc_find_raw_by_height. st. destruct (sled_get h (mc_refs (t_main t))) as [hb|]; [|apply exec_done].
    destruct (Nat.ltb 32 (length hb)); cbn [bind]; [apply exec_done|]. st. destruct (mc_height (t_main t) <? from_be hb); [apply exec_done|]. st. apply exec_done.
Qed.

(** ** Ledger calls *)
Lemma firsts_snoc n sch k : firsts n (sch ++ [k]) =
  if (k <? n)%nat && negb (existsb (Nat.eqb k) (firsts n sch)) then firsts n sch ++ [k] else firsts n sch.
Proof. unfold firsts. rewrite fold_left_app. reflexivity. Qed.
Lemma existsb_in k l : existsb (Nat.eqb k) l = true <-> In k l.
Proof. rewrite existsb_exists. split; [intros (x & Hx & E); apply Nat.eqb_eq in E as ->; exact Hx|intros H; exists k; split; [exact H|apply Nat.eqb_refl]]. Qed.
Lemma in_order_snoc calls l k t c : nth_error calls k = Some c ->
  in_order calls (l ++ [k]) t = let '(t', r) := call_run c (fst (in_order calls l t)) in (t', snd (in_order calls l t) ++ [(k, r)]).
Proof. intros H. unfold in_order. rewrite fold_left_app. cbn [fold_left]. rewrite H. reflexivity. Qed.

(*@T C62. Any number of concurrent ledger calls (transfers, additions, subtractions, settings and reads of amounts and gas) in any
   schedule end as if made one after the other, in the order of their single steps, each step lying between the start and the
   return of its call: same balances, and every call that has made its step has returned the result of that sequence. *)
Lemma p_C62_linearizable : forall t lcalls schedule, let calls := map CLedger lcalls in
  let order := firsts (length calls) schedule in
  let '(s, ts) := tree_exec schedule t calls in
  let '(t', results) := in_order calls order t in
  NoDup order /\ sh_tree s = t' /\ length ts = length calls /\
  forall i c, nth_error calls i = Some c ->
    (In i order -> exists r, In (i, r) results /\ nth_error ts i = Some (TDone c r)) /\
    (~ In i order -> nth_error ts i = Some (TStart c)).
Proof.
  intros t lcalls schedule calls. cbn zeta. unfold tree_exec.
  induction schedule as [|k sch IH] using rev_ind.
  - cbn. split; [constructor|]. split; [reflexivity|]. split; [apply map_length|]. intros i c Hi. split; [intros []|]. intros _. rewrite nth_error_map, Hi. reflexivity.
  - rewrite exec_snoc, firsts_snoc. destruct (exec tree_step sch (MkShared t false, map TStart calls)) as [s ts].
    set (order := firsts (length calls) sch) in *. destruct (in_order calls order t) as [t' rs] eqn:Eo. destruct IH as (I0 & I1 & I2 & I3).
    cbn [sched_step]. destruct (Nat.ltb_spec k (length calls)) as [Hk|Hk]; cbn [andb].
    2:{ assert (nth_error ts k = None) as -> by (apply nth_error_None; lia). rewrite Eo. auto. }
    destruct (nth_error calls k) as [c|] eqn:Ec; [|apply nth_error_None in Ec; lia]. destruct (I3 k c Ec) as [A B].
    destruct (existsb (Nat.eqb k) order) eqn:Ex; cbn [negb].
    { apply existsb_in in Ex. destruct (A Ex) as (r & _ & ->). cbn [tree_step]. rewrite Eo. auto. }
    assert (Hnin : ~ In k order) by (rewrite <- existsb_in; congruence). rewrite (B Hnin).
    assert (Hc : exists lc, c = CLedger lc). { unfold calls in Ec. rewrite nth_error_map in Ec. destruct (nth_error lcalls k); [|discriminate Ec]. injection Ec as <-. eauto. }
    destruct Hc as (lc & ->). cbn [tree_step]. rewrite (in_order_snoc calls order k t _ Ec). rewrite Eo. cbn [fst snd call_run]. rewrite I1.
    destruct (lcall_run lc t') as [t2 r] eqn:El. split.
    { apply NoDup_rev in I0. rewrite <- (rev_involutive (order ++ [k])). apply NoDup_rev. rewrite rev_app_distr. cbn [rev app]. constructor; [rewrite <- in_rev; exact Hnin|exact I0]. }
    split; [reflexivity|]. split; [rewrite replace_length; exact I2|]. intros i c Hi. rewrite nth_error_replace. destruct (Nat.eqb_spec k i) as [<-|Hne].
    + rewrite Ec in Hi. injection Hi as <-. rewrite I2. destruct (Nat.ltb_spec k (length calls)); [|lia].
      split; [intros _; exists r; split; [apply in_or_app; right; left; reflexivity|reflexivity]|]. intros H'. exfalso. apply H'. apply in_or_app. right. left. reflexivity.
    + destruct (I3 i c Hi) as [A' B']. split.
      * intros H. apply in_app_or in H as [H|[H|[]]]; [|congruence]. destruct (A' H) as (r' & Hr & ?). exists r'. split; [apply in_or_app; left; exact Hr|assumption].
      * intros H. apply B'. intros H'. apply H. apply in_or_app. left. exact H'.
Qed.
(*@E
Example C62_ex : let calls := map CLedger [LSend addrA addrB 7; LGet addrB; LSub addrA (10 ^ 20); LSend addrB addrA 7] in
  snd (tree_exec [1; 3; 0; 0; 2]%nat funded calls) =
    [TDone (CLedger (LSend addrA addrB 7)) (Ok CRUnit); TDone (CLedger (LGet addrB)) (Ok (CRValue 0));
     TDone (CLedger (LSub addrA (10 ^ 20))) Panic; TDone (CLedger (LSend addrB addrA 7)) Panic] /\
  firsts 4 [1; 3; 0; 0; 2]%nat = [1; 3; 0; 2]%nat.
Proof. split; [vm_compute; reflexivity|reflexivity]. Qed.
@*)

Lemma on_summary_led h t : (led_ok (t_summary t) -> led_ok (fst (h (t_summary t)))) -> led_ok (t_summary t) -> led_ok (t_summary (fst (t_on_summary h t))).
Proof. intros H1 H. specialize (H1 H). unfold t_on_summary. destruct (h (t_summary t)). exact H1. Qed.
Lemma on_gas_led h t : (led_ok (t_gas t) -> led_ok (fst (h (t_gas t)))) -> led_ok (t_gas t) -> led_ok (t_gas (fst (t_on_gas h t))).
Proof. intros H1 H. specialize (H1 H). unfold t_on_gas. destruct (h (t_gas t)). exact H1. Qed.
Lemma lcall_meaning c t f g : led_ok (t_summary t) -> led_ok (t_gas t) -> lcall_wf c -> amounts t f -> gases t g ->
  let '(t', r) := lcall_run c t in
  led_ok (t_summary t') /\ led_ok (t_gas t') /\ amounts t' (fst (lcall_after (f, g) c)) /\ gases t' (snd (lcall_after (f, g) c)) /\ r = lcall_result (f, g) c.
Proof.
  intros H1 H2 Hw Hf Hg.
  assert (GA : forall t', same_but_amounts t t' -> t_gas t' = t_gas t) by (intros t' E; rewrite E; reflexivity).
  assert (AG : forall t', same_but_gas t t' -> t_summary t' = t_summary t) by (intros t' E; rewrite E; reflexivity).
  assert (gas_same : forall t', t_gas t' = t_gas t -> gases t' g) by (intros t' E w; unfold t_get_gas; rewrite E; apply Hg).
  assert (amt_same : forall t', t_summary t' = t_summary t -> amounts t' f) by (intros t' E w; unfold t_get_amount; rewrite E; apply Hf).
  destruct c as [w a|w a|w a|x y a|w|w a|w a|x y a|w]; cbn [lcall_run lcall_after lcall_result amount_after gas_after lcall_wf fst snd] in *.
  - pose proof (add_amount_eff w a t f H1 Hf) as S. assert (L : led_ok (t_summary (fst (t_add_amount w a t)))) by (apply on_summary_led; [apply led_add_ok|exact H1]).
    destruct (t_add_amount w a t) as [t' r]. destruct S as [S0 S]. unfold as_unit. cbn [fst snd] in *. rewrite (GA _ S0). split; [exact L|]. split; [exact H2|].
    destruct (f w + a <? 2 ^ 256); destruct S as [-> S]; [|subst t']; auto.
  - pose proof (sub_amount_eff w a t f H1 Hf) as S. assert (L : led_ok (t_summary (fst (t_sub_amount w a t)))) by (apply on_summary_led; [apply led_sub_ok|exact H1]).
    destruct (t_sub_amount w a t) as [t' r]. destruct S as [S0 S]. unfold as_unit. cbn [fst snd] in *. rewrite (GA _ S0). split; [exact L|]. split; [exact H2|].
    destruct (a <=? f w); destruct S as [-> S]; [|subst t']; auto.
  - pose proof (set_amount_eff w a t f H1 Hw Hf) as S. assert (L : led_ok (t_summary (fst (t_set_amount w a t)))) by (apply on_summary_led; [apply led_set_ok, Hw|exact H1]).
    destruct (t_set_amount w a t) as [t' r]. destruct S as (S0 & -> & S). unfold as_unit. cbn [fst snd] in *. rewrite (GA _ S0). split; [exact L|]. split; [exact H2|]. auto.
  - pose proof (send_amount_eff x y a t f H1 Hf) as S.
    assert (L : led_ok (t_summary (fst (t_send_amount x y a t)))) by (unfold t_send_amount; destruct (bytes_eqb x y); [exact H1|apply on_summary_led; [apply led_send_ok|exact H1]]).
    destruct (t_send_amount x y a t) as [t' r]. destruct S as [S0 S]. unfold as_unit. cbn [fst snd] in *. rewrite (GA _ S0). split; [exact L|]. split; [exact H2|].
    unfold moved in *. destruct (bytes_eqb x y); cbn [orb]; [destruct S as [-> ->]; destruct ((a <=? f x) && (f y + a <? 2 ^ 256)); auto|].
    destruct ((a <=? f x) && (f y + a <? 2 ^ 256)); destruct S as [-> S]; [|subst t']; auto.
  - rewrite (Hf w). cbn [bind]. auto 6.
  - pose proof (add_gas_eff w a t g H2 Hg) as S. assert (L : led_ok (t_gas (fst (t_add_gas w a t)))) by (apply on_gas_led; [apply led_add_ok|exact H2]).
    destruct (t_add_gas w a t) as [t' r]. destruct S as [S0 S]. unfold as_unit. cbn [fst snd] in *. rewrite (AG _ S0). split; [exact H1|]. split; [exact L|].
    destruct (g w + a <? 2 ^ 256); destruct S as [-> S]; [|subst t']; auto.
  - pose proof (sub_gas_eff w a t g H2 Hg) as S. assert (L : led_ok (t_gas (fst (t_sub_gas w a t)))) by (apply on_gas_led; [apply led_sub_ok|exact H2]).
    destruct (t_sub_gas w a t) as [t' r]. destruct S as [S0 S]. unfold as_unit. cbn [fst snd] in *. rewrite (AG _ S0). split; [exact H1|]. split; [exact L|].
    destruct (a <=? g w); destruct S as [-> S]; [|subst t']; auto.
  - pose proof (send_gas_eff x y a t g H2 Hg) as S. assert (L : led_ok (t_gas (fst (t_send_gas x y a t)))) by (apply on_gas_led; [apply led_send_ok|exact H2]).
    destruct (t_send_gas x y a t) as [t' r]. destruct S as [S0 S]. unfold as_unit. cbn [fst snd] in *. rewrite (AG _ S0). split; [exact H1|]. split; [exact L|].
    destruct ((a <=? g x) && (g y + a <? 2 ^ 256)); destruct S as [-> S]; [|subst t']; auto.
  - rewrite (Hg w). cbn [bind]. auto 6.
Qed.
Lemma picked_snoc {A} (l : list A) o k : picked l (o ++ [k]) = picked l o ++ match nth_error l k with Some c => [c] | None => [] end.
Proof. unfold picked. rewrite flat_map_app. cbn [flat_map]. rewrite app_nil_r. reflexivity. Qed.

(*@T C62 in terms of balances: in every schedule the amounts, the gas and every returned result are those of the plain
   arithmetic of the calls, taken in the order of their first steps. *)
Lemma p_C62_balances_and_results : forall ok p n t f g lcalls schedule, reachable ok p n t -> few n ->
  Forall lcall_wf lcalls -> amounts t f -> gases t g ->
  let '(s, ts) := tree_exec schedule t (map CLedger lcalls) in
  let order := firsts (length lcalls) schedule in
  let after k := fold_left lcall_after (picked lcalls (firstn k order)) (f, g) in
  amounts (sh_tree s) (fst (after (length order))) /\ gases (sh_tree s) (snd (after (length order))) /\
  forall k i c, nth_error order k = Some i -> nth_error lcalls i = Some c ->
    nth_error ts i = Some (TDone (CLedger c) (lcall_result (after k) c)).
Proof.
  intros ok p n t f g lcalls schedule Hr Hn Hw Hf Hg. destruct (reachable_ledgers _ _ _ _ Hr Hn) as [H1 H2 _ _]. clear Hr Hn.
  enough (G : let '(s, ts) := tree_exec schedule t (map CLedger lcalls) in let order := firsts (length lcalls) schedule in
    let after k := fold_left lcall_after (picked lcalls (firstn k order)) (f, g) in
    (led_ok (t_summary (sh_tree s)) /\ led_ok (t_gas (sh_tree s))) /\
    (amounts (sh_tree s) (fst (after (length order))) /\ gases (sh_tree s) (snd (after (length order)))) /\ length ts = length lcalls /\
    (forall k i c, nth_error order k = Some i -> nth_error lcalls i = Some c -> nth_error ts i = Some (TDone (CLedger c) (lcall_result (after k) c))) /\
    (forall i c, ~ In i order -> nth_error lcalls i = Some c -> nth_error ts i = Some (TStart (CLedger c)))).
  { destruct (tree_exec schedule t (map CLedger lcalls)) as [s ts]. cbn zeta in *. destruct G as (_ & [G1 G2] & _ & G3 & _). auto. }
  unfold tree_exec. induction schedule as [|k sch IH] using rev_ind.
  - cbn. split; [auto|]. split; [auto|]. split; [rewrite !map_length; reflexivity|]. split; [intros [|k] i c; discriminate|]. intros i c _ Hi. rewrite map_map, nth_error_map, Hi. reflexivity.
  - rewrite exec_snoc, firsts_snoc. destruct (exec tree_step sch (MkShared t false, map TStart (map CLedger lcalls))) as [s ts].
    set (order := firsts (length lcalls) sch) in *. cbn zeta in *. destruct IH as ([I1 I2] & [I3 I4] & I5 & I6 & I7).
    cbn [sched_step]. destruct (Nat.ltb_spec k (length lcalls)) as [Hk|Hk]; cbn [andb].
    2:{ assert (nth_error ts k = None) as -> by (apply nth_error_None; lia). auto. }
    destruct (nth_error lcalls k) as [c|] eqn:Ec; [|apply nth_error_None in Ec; lia].
    destruct (existsb (Nat.eqb k) order) eqn:Ex; cbn [negb].
    { apply existsb_in in Ex. apply In_nth_error in Ex as (j & Hj). rewrite (I6 j k c Hj Ec). cbn [tree_step]. auto 8. }
    assert (Hnin : ~ In k order) by (rewrite <- existsb_in; congruence). rewrite (I7 k c Hnin Ec). cbn [tree_step].
    rewrite firstn_all in I3, I4. set (fg := fold_left lcall_after (picked lcalls order) (f, g)) in *.
    assert (Wc : lcall_wf c) by (rewrite Forall_forall in Hw; apply Hw; eapply nth_error_In, Ec).
    pose proof (lcall_meaning c (sh_tree s) (fst fg) (snd fg) I1 I2 Wc I3 I4) as S. destruct (lcall_run c (sh_tree s)) as [t' r]. rewrite <- surjective_pairing in S.
    destruct S as (S1 & S2 & S3 & S4 & ->). cbn [sh_tree with_tree].
    assert (Eall : fold_left lcall_after (picked lcalls (firstn (length (order ++ [k])) (order ++ [k]))) (f, g) = lcall_after fg c).
    { rewrite firstn_all, picked_snoc, Ec, fold_left_app. reflexivity. }
    rewrite Eall. split; [auto|]. split; [auto|]. split; [rewrite replace_length; exact I5|]. split.
    + intros j i c' Hj Hi. assert (Hlt : (j < length order)%nat \/ j = length order).
      { assert (j < length (order ++ [k]))%nat by (apply nth_error_Some; congruence). rewrite app_length in H. cbn in H. lia. }
      destruct Hlt as [Hlt| ->].
      * rewrite nth_error_app1 in Hj by exact Hlt. rewrite nth_error_replace. destruct (Nat.eqb_spec k i) as [<-|Hne]; [exfalso; apply Hnin; eapply nth_error_In, Hj|].
        rewrite (I6 j i c' Hj Hi). rewrite firstn_app. replace (j - length order)%nat with 0%nat by lia. cbn [firstn]. rewrite app_nil_r. reflexivity.
      * rewrite nth_error_app2, Nat.sub_diag in Hj by lia. cbn in Hj. injection Hj as <-. rewrite Ec in Hi. injection Hi as <-.
        rewrite nth_error_replace, Nat.eqb_refl. destruct (Nat.ltb_spec k (length ts)); [|lia]. rewrite firstn_app, firstn_all, Nat.sub_diag. cbn [firstn]. rewrite app_nil_r. reflexivity.
    + intros i c' Hni Hi. rewrite nth_error_replace. destruct (Nat.eqb_spec k i) as [<-|Hne]; [exfalso; apply Hni; apply in_or_app; right; left; reflexivity|].
      apply I7; [|exact Hi]. intros H. apply Hni. apply in_or_app. left. exact H.
Qed.
(*@E
Example C62_balances_and_results_ex : let calls := [LAddGas addrB 5; LSubGas addrB 3; LSub addrA 4] in
  let s := fst (tree_exec [2; 0; 1]%nat funded (map CLedger calls)) in
  t_get_gas addrB (sh_tree s) = Ok 2 /\ t_get_amount addrA (sh_tree s) = (let! a := t_get_amount addrA funded in Ok (a - 4)).
Proof. split; vm_compute; reflexivity. Qed.
@*)

(** ** Transfers *)
(** What is known of a call in progress: whether its transfer has happened, and the gas it will be charged. *)
Definition fee_of (tx : transaction) : N := gas_for (N.of_nat (tx_get_dump_size tx)).
Lemma mul_ok tx g : u256_mul BYTE_GAS_PRICE (N.of_nat (tx_get_dump_size tx)) = Ok g -> g = fee_of tx.
Proof.
  unfold fee_of, gas_for. generalize (N.of_nat (tx_get_dump_size tx)). intros n. unfold u256_mul, BYTE_GAS_PRICE.
  destruct (625000000000 * n <? 2 ^ 256); intros H; [apply ok_inv in H as <-; reflexivity|discriminate H].
Qed.
Definition thread_ok (th : thread) (m : bool) : Prop :=
  match th with
  | TAmount tx g _ | TLastIdx tx g _ _ | TLastGet tx g _ _ | TStore tx g | TMove tx g => m = false /\ g = fee_of tx
  | TCharge tx g => m = true /\ g = fee_of tx
  | TIdx c _ | TGet c _ => m = false /\ transfer c = None
  | TDone c (Ok _) => transfer c <> None -> m = true
  | TDone _ (Err _) => m = false
  | TDone _ _ => True
  | _ => m = false
  end.
Lemma next_ok c (x : out thread) : (forall th, x = Ok th -> thread_ok th false) -> thread_ok (next c x) false.
Proof. intros H. destruct x as [th| | |]; cbn [next]; [apply H; reflexivity|reflexivity|exact I|exact I]. Qed.
Lemma next_paid c (x : out thread) w : (forall th, x = Ok th -> paid w th = 0) -> paid w (next c x) = 0.
Proof. intros H. destruct x as [th| | |]; cbn [next paid]; [apply H; reflexivity|..]; destruct c; reflexivity. Qed.

Definition effect (s s' : shared) (c : call) (m m' : bool) (th th' : thread) : Prop :=
  led_ok (t_summary (sh_tree s')) /\ led_ok (t_gas (sh_tree s')) /\ thread_ok th' m' /\
  (forall w, bal (t_summary (sh_tree s')) w + sent w (m', c) + received w (m, c) = bal (t_summary (sh_tree s)) w + sent w (m, c) + received w (m', c)) /\
  (forall w, bal (t_gas (sh_tree s')) w + paid w th' = bal (t_gas (sh_tree s)) w + paid w th).
Lemma effect_none s c m th th' : led_ok (t_summary (sh_tree s)) -> led_ok (t_gas (sh_tree s)) -> thread_ok th' m ->
  (forall w, paid w th' = paid w th) -> effect s s c m m th th'.
Proof. intros H1 H2 H3 H4. unfold effect. split; [exact H1|]. split; [exact H2|]. split; [exact H3|]. split; intros w; [reflexivity|rewrite H4; reflexivity]. Qed.
(** The same with another main chain. *)
Lemma effect_main s s' c m th th' : t_summary (sh_tree s') = t_summary (sh_tree s) -> t_gas (sh_tree s') = t_gas (sh_tree s) ->
  led_ok (t_summary (sh_tree s)) -> led_ok (t_gas (sh_tree s)) -> thread_ok th' m ->
  (forall w, paid w th' = paid w th) -> effect s s' c m m th th'.
Proof. intros E1 E2 H1 H2 H3 H4. unfold effect. rewrite E1, E2. split; [exact H1|]. split; [exact H2|]. split; [exact H3|]. split; intros w; [reflexivity|rewrite H4; reflexivity]. Qed.

Lemma send_amount_bal x y a t : led_ok (t_summary t) -> let '(t', r) := t_send_amount x y a t in
  t_gas t' = t_gas t /\ led_ok (t_summary t') /\
  match r with
  | Ok _ => forall w, bal (t_summary t') w + (if bytes_eqb x w then a else 0) = bal (t_summary t) w + (if bytes_eqb y w then a else 0)
  | Err _ => False
  | _ => t_summary t' = t_summary t
  end.
Proof.
  intros H. unfold t_send_amount. destruct (bytes_eqb x y) eqn:Exy.
  - apply bytes_eqb_eq in Exy as ->. split; [reflexivity|]. split; [exact H|]. reflexivity.
  - unfold t_on_summary. rewrite led_send_spec by exact H. destruct (_ && _) eqn:Ec; [|split; [reflexivity|]; split; [exact H|reflexivity]].
    apply andb_prop in Ec as [E1 E2]. apply N.leb_le in E1. apply N.ltb_lt in E2. cbn [t_gas with_summary t_summary].
    assert (Hx : u256_ok (bal (t_summary t) x - a)) by (pose proof (proj2 (led_get_bal _ x H)); unfold u256_ok in *; lia).
    split; [reflexivity|]. split; [apply led_ok_commit2; assumption|]. intros w. rewrite bal_commit2 by assumption. unfold upd.
    apply bytes_eqb_neq in Exy. rewrite !(bytes_eqb_sym _ w). destruct (bytes_eqb w y) eqn:E3; destruct (bytes_eqb w x) eqn:E4; try lia.
    + apply bytes_eqb_eq in E3, E4. congruence.
    + apply bytes_eqb_eq in E3 as ->. lia.
    + apply bytes_eqb_eq in E4 as ->. lia.
Qed.

Lemma step_effect s th s' th' m : tree_step s th = Some (s', th') -> keeps_funds (th_call th) -> thread_ok th m ->
  led_ok (t_summary (sh_tree s)) -> led_ok (t_gas (sh_tree s)) -> exists m', effect s s' (th_call th) m m' th th'.
Proof.
  intros E Hk Ht H1 H2. destruct th as [[c|tx|b| |h|h]|tx g|tx g a|tx g a i|tx g a i|tx g|tx g|tx g|b|b|b|c i|c i|c r]; cbn [tree_step th_call thread_ok] in *.
  - subst m. destruct c as [w a|w a|w a|x y a|w|w a|w a|x y a|w]; try contradiction.
    + cbn [lcall_run] in E. unfold as_unit in E. pose proof (send_amount_bal x y a (sh_tree s) H1) as S. destruct (t_send_amount x y a (sh_tree s)) as [t' r]. destruct S as (Eg & Hl & S).
      cbn [fst snd] in E. apply some_inv in E as [<- <-]. unfold effect. cbn [sh_tree with_tree]. rewrite Eg. destruct r as [u|e| |]; cbn [bind].
      * exists true. split; [exact Hl|]. split; [exact H2|]. split; [intros _; reflexivity|]. split; [|reflexivity]. intros w. cbn [sent received transfer]. rewrite N.add_0_r, N.add_0_r. apply S.
      * contradiction.
      * exists false. split; [exact Hl|]. split; [exact H2|]. split; [exact I|]. split; [|reflexivity]. intros w. rewrite S. reflexivity.
      * exists false. split; [exact Hl|]. split; [exact H2|]. split; [exact I|]. split; [|reflexivity]. intros w. rewrite S. reflexivity.
    + cbn [lcall_run] in E. apply some_inv in E as [<- <-]. exists false. destruct (t_get_amount w (sh_tree s)); apply effect_main; try reflexivity; try assumption; cbn; intros []; reflexivity.
    + cbn [lcall_run] in E. apply some_inv in E as [<- <-]. exists false. destruct (t_get_gas w (sh_tree s)); apply effect_main; try reflexivity; try assumption; cbn; intros []; reflexivity.
  - subst m. apply some_inv in E as [<- <-]. exists false. apply effect_none; try assumption.
    + apply next_ok. intros th H. inv_bind H. apply ok_inv in H as <-. reflexivity.
    + intros w. apply next_paid. intros th H. inv_bind H. apply ok_inv in H as <-. reflexivity.
  - subst m. destruct (sh_locked s); [discriminate E|]. exists false. destruct (negb _); apply some_inv in E as [<- <-]; apply effect_main; try reflexivity; assumption.
  - subst m. destruct (sh_locked s); [discriminate E|]. apply some_inv in E as [<- <-]. exists false. apply effect_none; try assumption.
    + apply next_ok. intros th H. inv_bind H. apply ok_inv in H as <-. split; reflexivity.
    + intros w. apply next_paid. intros th H. inv_bind H. apply ok_inv in H as <-. reflexivity.
  - subst m. destruct (sh_locked s); [discriminate E|]. apply some_inv in E as [<- <-]. exists false. apply effect_none; try assumption; destruct (_ <? _); cbn; auto; try (intros []; reflexivity).
  - subst m. apply some_inv in E as [<- <-]. exists false. apply effect_none; try assumption; (destruct (sled_get _ _); [destruct (Nat.ltb _ _)|]); cbn; auto; try (intros []; reflexivity).
  - subst m. apply some_inv in E as [<- <-]. exists false. apply effect_none; try assumption.
    + apply next_ok. intros th H. inv_bind H. apply ok_inv in H as <-. cbn. split; [reflexivity|].
      eapply mul_ok; eassumption.
    + intros w. apply next_paid. intros th H. inv_bind H. apply ok_inv in H as <-. reflexivity.
  - destruct Ht as [-> Hg]. destruct (sh_locked s); [discriminate E|]. apply some_inv in E as [<- <-]. exists false. apply effect_none; try assumption.
    + apply next_ok. intros th H. inv_bind H. apply ok_inv in H as <-. cbn. auto.
    + intros w. apply next_paid. intros th H. inv_bind H. apply ok_inv in H as <-. reflexivity.
  - destruct Ht as [-> Hg]. destruct (sh_locked s); [discriminate E|]. apply some_inv in E as [<- <-]. exists false. apply effect_none; try assumption; destruct (_ <? _); cbn; auto.
  - destruct Ht as [-> Hg]. apply some_inv in E as [<- <-]. exists false. apply effect_none; try assumption.
    + apply next_ok. intros th H. inv_bind H. apply ok_inv in H as <-. cbn. auto.
    + intros w. apply next_paid. intros th H. inv_bind H. apply ok_inv in H as <-. reflexivity.
  - destruct Ht as [-> Hg]. apply some_inv in E as [<- <-]. exists false. apply effect_main; try reflexivity; try assumption. cbn. auto.
  - destruct Ht as [-> Hg]. pose proof (send_amount_bal (tx_sender tx) (tx_receiver tx) (tx_amount tx) (sh_tree s) H1) as S.
    destruct (t_send_amount _ _ _ _) as [t' r]. destruct S as (Eg & Hl & S).
    apply some_inv in E as [<- <-]. unfold effect. cbn [sh_tree with_tree]. rewrite Eg. destruct r as [u|e| |]; cbn [bind next].
    + exists true. split; [exact Hl|]. split; [exact H2|]. split; [cbn; auto|]. split; [|reflexivity]. intros w. cbn [sent received transfer]. rewrite N.add_0_r, N.add_0_r. apply S.
    + contradiction.
    + exists false. split; [exact Hl|]. split; [exact H2|]. split; [exact I|]. split; [|reflexivity]. intros w. rewrite S. reflexivity.
    + exists false. split; [exact Hl|]. split; [exact H2|]. split; [exact I|]. split; [|reflexivity]. intros w. rewrite S. reflexivity.
  - destruct Ht as [-> Hg]. unfold t_sub_gas, t_on_gas in E. rewrite led_sub_spec in E by exact H2. exists true.
    destruct (N.leb_spec g (bal (t_gas (sh_tree s)) (tx_sender tx))) as [Hle|_].
    + assert (Hu : u256_ok (bal (t_gas (sh_tree s)) (tx_sender tx) - g)) by (pose proof (proj2 (led_get_bal _ (tx_sender tx) H2)); unfold u256_ok in *; lia).
      apply some_inv in E as [<- <-]. unfold effect, ended. cbn [sh_tree with_tree t_summary with_gas t_gas bind]. split; [exact H1|]. split; [apply led_ok_commit1; assumption|].
      split; [intros _; reflexivity|]. split; [reflexivity|]. intros w. rewrite bal_commit1 by exact Hu. cbn [paid]. unfold upd. rewrite (bytes_eqb_sym _ w). destruct (bytes_eqb w (tx_sender tx)) eqn:Ew; [|lia].
      apply bytes_eqb_eq in Ew as ->. fold (fee_of tx). rewrite <- Hg. lia.
    + apply some_inv in E as [<- <-]. apply effect_main; try reflexivity; try assumption; exact I.
  - subst m. apply some_inv in E as [<- <-]. exists false. apply effect_main; try reflexivity; assumption.
  - subst m. apply some_inv in E as [<- <-]. exists false. apply effect_main; try reflexivity; assumption.
  - subst m. exists false. destruct (u256_add _ _); apply some_inv in E as [<- <-]; apply effect_main; try reflexivity; try assumption; try exact I; cbn; intros []; reflexivity.
  - destruct Ht as [-> Hc]. destruct (sh_locked s); [discriminate E|]. apply some_inv in E as [<- <-]. exists false.
    apply effect_none; try assumption; destruct (_ <? _); cbn; try (split; [reflexivity|exact Hc]); try (intros Hn; congruence); destruct c; try reflexivity; discriminate Hc.
  - destruct Ht as [-> Hc]. apply some_inv in E as [<- <-]. exists false.
    apply effect_none; try assumption; cbn; try (intros Hn; congruence); destruct c; try reflexivity; discriminate Hc.
  - discriminate E.
Qed.

Lemma combine_replace {A B} (l : list A) (l' : list B) : forall k y c, nth_error l' k = Some c -> combine (replace l k y) l' = replace (combine l l') k (y, c).
Proof.
  revert l'. induction l as [|a l IH]; intros [|b l'] [|k] y c H; try discriminate H; try reflexivity; cbn [nth_error] in H; cbn [replace combine].
  - injection H as ->. reflexivity.
  - f_equal. apply IH, H.
Qed.
Lemma nth_error_combine {A B} (l : list A) (l' : list B) : forall k a b, nth_error l k = Some a -> nth_error l' k = Some b -> nth_error (combine l l') k = Some (a, b).
Proof.
  revert l'. induction l as [|x l IH]; intros [|y l'] [|k] a b H1 H2; try discriminate; cbn [nth_error combine] in *; [congruence|]. apply IH; assumption.
Qed.

(** Everything known after any schedule. *)
Definition funds_inv (t0 : bct) (calls : list call) (s : shared) (ts : list thread) : Prop :=
  map th_call ts = calls /\ led_ok (t_summary (sh_tree s)) /\ led_ok (t_gas (sh_tree s)) /\
  (forall w, bal (t_gas t0) w = bal (t_gas (sh_tree s)) w + total (paid w) ts) /\
  exists ms, length ms = length calls /\
    (forall i th m, nth_error ts i = Some th -> nth_error ms i = Some m -> thread_ok th m) /\
    (forall w, bal (t_summary (sh_tree s)) w + total (sent w) (combine ms calls) = bal (t_summary t0) w + total (received w) (combine ms calls)).
Lemma funds_step t0 calls : Forall keeps_funds calls -> forall s ts k th s' th', funds_inv t0 calls s ts -> nth_error ts k = Some th ->
  tree_step s th = Some (s', th') -> funds_inv t0 calls s' (replace ts k th').
Proof.
  intros Hk s ts k th s' th' (Hc & H1 & H2 & Hg & ms & Hl & Hms & Hb) Hn E.
  assert (Hck : nth_error calls k = Some (th_call th)) by (rewrite <- Hc, nth_error_map, Hn; reflexivity).
  assert (Hlt : length ts = length calls) by (rewrite <- Hc, map_length; reflexivity).
  assert (Hkl : (k < length calls)%nat) by (apply nth_error_Some; congruence).
  destruct (nth_error ms k) as [m|] eqn:Hm; [|apply nth_error_None in Hm; lia].
  destruct (step_effect s th s' th' m E) as (m' & F1 & F2 & F3 & F4 & F5); try assumption.
  { eapply Forall_forall; [exact Hk|]. eapply nth_error_In, Hck. }
  { apply (Hms k); assumption. }
  split.
  { apply nth_error_all. intros i. rewrite <- Hc, !nth_error_map, nth_error_replace.
    destruct (Nat.eqb_spec k i) as [<-|]; [|reflexivity]. destruct (Nat.ltb_spec k (length ts)); [|lia]. rewrite Hn. cbn [option_map]. rewrite (step_call _ _ _ _ E). reflexivity. }
  split; [exact F1|]. split; [exact F2|]. split.
  { intros w. pose proof (total_replace (paid w) ts k th th' Hn) as Ep. specialize (F5 w). specialize (Hg w). lia. }
  exists (replace ms k m'). split; [rewrite replace_length; exact Hl|]. split.
  { intros i th1 m1. rewrite !nth_error_replace. destruct (Nat.eqb_spec k i) as [<-|]; [|apply Hms].
    destruct (Nat.ltb_spec k (length ts)); [|lia]. destruct (Nat.ltb_spec k (length ms)); [|lia]. intros Ha Hb'. injection Ha as <-. injection Hb' as <-. exact F3. }
  intros w. rewrite (combine_replace ms calls k m' (th_call th) Hck).
  pose proof (nth_error_combine ms calls k m (th_call th) Hm Hck) as Hcm.
  pose proof (total_replace (sent w) _ k _ (m', th_call th) Hcm). pose proof (total_replace (received w) _ k _ (m', th_call th) Hcm).
  specialize (F4 w). specialize (Hb w). lia.
Qed.
Lemma funds_start t calls : led_ok (t_summary t) -> led_ok (t_gas t) -> funds_inv t calls (MkShared t false) (map TStart calls).
Proof.
  intros H1 H2. split; [rewrite map_map; apply map_id|]. split; [exact H1|]. split; [exact H2|]. split.
  - intros w. cbn [sh_tree]. unfold total. rewrite map_map. cbn [paid]. induction calls as [|c calls IH]; cbn [map fold_right]; lia.
  - exists (repeat false (length calls)). split; [apply repeat_length|]. split.
    + intros i th m Hi Hm. apply nth_error_In in Hm. apply repeat_spec in Hm as ->. rewrite nth_error_map in Hi. destruct (nth_error calls i); [|discriminate Hi]. injection Hi as <-. reflexivity.
    + intros w. cbn [sh_tree]. assert (E : total (sent w) (combine (repeat false (length calls)) calls) = 0 /\ total (received w) (combine (repeat false (length calls)) calls) = 0).
      { unfold total. induction calls as [|c calls IH]; [split; reflexivity|]. cbn [length repeat combine map fold_right sent received]. lia. }
      lia.
Qed.
Lemma total_sum f (A : list bytes) (l : list (bool * call)) : forall (g : bytes -> bool * call -> N), (forall w, f w = total (g w) l) -> sum_over f A = total (fun x => sum_over (fun w => g w x) A) l.
Proof.
  intros g H. unfold sum_over. induction A as [|w A IH]; cbn [map fold_right].
  - unfold total. clear H. induction l as [|x l IHl]; [reflexivity|exact IHl].
  - rewrite IH, H. unfold total. clear. induction l as [|x l IHl]; [reflexivity|]. cbn [map fold_right]. rewrite <- IHl. lia.
Qed.
Lemma sum_one x a A : NoDup A -> In x A -> sum_over (fun w => if bytes_eqb x w then a else 0) A = a.
Proof.
  induction A as [|w A IH]; intros Hd Hin; [contradiction|]. apply NoDup_cons_iff in Hd as [Hw Hd]. unfold sum_over in *. cbn [map fold_right]. destruct Hin as [->|Hin].
  - rewrite bytes_eqb_refl. assert (E : fold_right N.add 0 (map (fun w => if bytes_eqb x w then a else 0) A) = 0); [|lia].
    clear IH Hd. induction A as [|y A IH]; [reflexivity|]. cbn [map fold_right]. rewrite IH by (intros H; apply Hw; right; exact H).
    destruct (bytes_eqb x y) eqn:E; [apply bytes_eqb_eq in E as ->; exfalso; apply Hw; left; reflexivity|reflexivity].
  - rewrite IH by assumption. destruct (bytes_eqb x w) eqn:E; [apply bytes_eqb_eq in E as ->; contradiction|reflexivity].
Qed.
Lemma sum_zero A : sum_over (fun _ => 0) A = 0.
Proof. unfold sum_over. induction A as [|w A IH]; [reflexivity|exact IH]. Qed.
Lemma sum_add f g A : sum_over (fun w => f w + g w) A = sum_over f A + sum_over g A.
Proof. unfold sum_over. induction A as [|w A IH]; [reflexivity|]. cbn [map fold_right]. lia. Qed.

(*@T C64, what holds in every schedule of any number of [send_transaction] and [send_amount] calls, block additions and reads: balances stay
   256-bit numbers; the sum over any accounts containing all parties is unchanged; exactly the calls marked in [done] have moved their amount, among them
   every call that returned success and none that returned an error; gas is charged exactly for the transactions that returned
   success.
   Missing: a transfer whose charge then fails, see below. *)
Lemma p_C64_conserved_partial : forall ok p n t calls schedule, reachable ok p n t -> few n -> Forall keeps_funds calls ->
  let '(s, ts) := tree_exec schedule t calls in
  exists f g f' g', amounts t f /\ gases t g /\ amounts (sh_tree s) f' /\ gases (sh_tree s) g' /\
    (forall w, u256_ok (f' w) /\ u256_ok (g' w)) /\
    (forall A, NoDup A -> (forall c x y a, In c calls -> transfer c = Some (x, y, a) -> In x A /\ In y A) -> sum_over f' A = sum_over f A) /\
    (forall w, g w = g' w + total (paid w) ts) /\
    exists done, length done = length calls /\
      (forall w, f' w + total (sent w) (combine done calls) = f w + total (received w) (combine done calls)) /\
      (forall i c r, nth_error ts i = Some (TDone c r) -> transfer c <> None ->
         match r with Ok _ => nth_error done i = Some true | Err _ => nth_error done i = Some false | _ => True end).
Proof.
  intros ok p n t calls sch Hr Hn Hk. apply reachable_ledgers in Hr as [Hs Hg _ _]; [|exact Hn].
  unfold tree_exec. pose proof (exec_ind tree_step (funds_inv t calls) (funds_step t calls Hk) sch _ _ (funds_start t calls Hs Hg)) as HI.
  destruct (exec tree_step sch (MkShared t false, map TStart calls)) as [s ts]. destruct HI as (Hc & H1 & H2 & Hgas & ms & Hl & Hms & Hb).
  exists (bal (t_summary t)), (bal (t_gas t)), (bal (t_summary (sh_tree s))), (bal (t_gas (sh_tree s))).
  split; [apply amounts_bal, Hs|]. split; [apply gases_bal, Hg|]. split; [apply amounts_bal, H1|]. split; [apply gases_bal, H2|].
  split; [intros w; split; [apply (led_get_bal _ w H1)|apply (led_get_bal _ w H2)]|]. split.
  { intros A Hd HA. assert (E : sum_over (fun w => bal (t_summary (sh_tree s)) w + total (sent w) (combine ms calls)) A = sum_over (fun w => bal (t_summary t) w + total (received w) (combine ms calls)) A).
    { apply sum_over_ext. intros w _. apply Hb. }
    rewrite !sum_add in E. rewrite (total_sum (fun w => total (sent w) (combine ms calls)) A (combine ms calls) sent (fun w => eq_refl)) in E.
    rewrite (total_sum (fun w => total (received w) (combine ms calls)) A (combine ms calls) received (fun w => eq_refl)) in E.
    assert (E2 : total (fun x => sum_over (fun w => sent w x) A) (combine ms calls) = total (fun x => sum_over (fun w => received w x) A) (combine ms calls)).
    { unfold total. f_equal. apply map_ext_in. intros [m c] Hin. apply in_combine_r in Hin. cbn [sent received]. destruct m; [|rewrite !sum_zero; reflexivity].
      destruct (transfer c) as [[[x y] a]|] eqn:Et; [|rewrite !sum_zero; reflexivity]. destruct (HA c x y a Hin Et). rewrite !sum_one by assumption. reflexivity. }
    lia. }
  split; [exact Hgas|]. exists ms. split; [exact Hl|]. split; [exact Hb|].
  intros i c r Hi Ht. assert (Hil : (i < length ms)%nat) by (rewrite Hl, <- Hc, map_length; apply nth_error_Some; congruence).
  destruct (nth_error ms i) as [m|] eqn:Em; [|apply nth_error_None in Em; lia]. pose proof (Hms i _ m Hi Em) as T. cbn [thread_ok] in T.
  destruct r; [rewrite (T Ht); reflexivity|rewrite T; reflexivity|exact I|exact I].
Qed.
(*@E
Example C64_ex : let tx1 := demo_tx 3 (repeat 1 64) in let tx2 := demo_tx 4 (repeat 1 64) in
  let '(s, ts) := tree_exec (concat (repeat [0; 1; 2]%nat 8)) funded [CSendTx tx1; CSendTx tx2; CLedger (LSend addrA addrB 5)] in
  ts = [TDone (CSendTx tx1) (Ok CRUnit); TDone (CSendTx tx2) (Ok CRUnit); TDone (CLedger (LSend addrA addrB 5)) (Ok CRUnit)] /\
  t_get_amount addrB (sh_tree s) = Ok 12 /\
  t_get_gas addrA (sh_tree s) = Ok (10 ^ 18 - (gas_for (N.of_nat (tx_get_dump_size tx1)) + gas_for (N.of_nat (tx_get_dump_size tx2)))).
Proof. vm_compute. repeat split; reflexivity. Qed.
@*)

(*@T C64 fails for the gas: gas is checked first and charged last.  Two transactions of an account with gas for one can both pass the check and both move their
   amounts; the second charge panics, and that transfer stays without gas having been paid. *)
Lemma p_C64_unpaid_transfer_refuted : exists t n tx1 tx2 schedule, reachable any_op Debug n t /\ few n /\ tx_wf tx1 /\ tx_wf tx2 /\
  tx_sender tx1 = addrA /\ tx_sender tx2 = addrA /\ tx_receiver tx1 = addrB /\ tx_receiver tx2 = addrB /\
  tx_amount tx1 = 3 /\ tx_amount tx2 = 4 /\ t_get_amount addrB t = Ok 0 /\
  let '(s, ts) := tree_exec schedule t [CSendTx tx1; CSendTx tx2] in
  ts = [TDone (CSendTx tx1) (Ok CRUnit); TDone (CSendTx tx2) Panic] /\
  t_get_amount addrB (sh_tree s) = Ok 7 /\
  t_get_gas addrA t = Ok (gas_for (N.of_nat (tx_get_dump_size tx1))) /\ t_get_gas addrA (sh_tree s) = Ok 0.
Proof.
  exists (run Debug fresh [OAddAmount addrA 1000000000; OAddGas addrA (gas_for (N.of_nat (tx_get_dump_size (demo_tx 3 (repeat 1 64)))))]), 2%nat,
    (demo_tx 3 (repeat 1 64)), (demo_tx 4 (repeat 1 64)), (concat (repeat [0; 1]%nat 8)).
  split.
  { cbn [run fold_left]. apply (reach_call any_op Debug 1 (fst (step Debug fresh (OAddAmount addrA 1000000000)))).
    - apply (reach_call any_op Debug 0 fresh).
      + apply reach_open. vm_compute. reflexivity.
      + split; [vm_compute; repeat constructor|vm_compute; reflexivity].
      + exact I.
    - split; [vm_compute; repeat constructor|vm_compute; reflexivity].
    - exact I. }
  split; [vm_compute; reflexivity|].
  split; [apply demo_wf; [reflexivity|vm_compute; split; [reflexivity|repeat constructor]]|]. split; [apply demo_wf; [reflexivity|vm_compute; split; [reflexivity|repeat constructor]]|].
  do 7 (split; [vm_compute; reflexivity|]).
  match goal with |- let '(_, _) := ?x in _ => set (X := x) end. vm_compute in X. subst X. cbv iota beta. split; [vm_compute; reflexivity|].
  split; [vm_compute; reflexivity|]. split; vm_compute; reflexivity.
Qed.

(** ** Blocks *)
Definition acc (th : thread) : list block := match th with TDone (CAddBlock b) (Ok _) => [b] | _ => [] end.
Lemma step_acc s th s' th' : tree_step s th = Some (s', th') ->
  acc th = [] /\ match th with
  | TBump b => acc th' = match u256_add (mc_height (mainof s)) 1 with Ok _ => [b] | _ => [] end
  | _ => (th_call th = CLast -> True) -> (forall c i, th = TIdx c i \/ th = TGet c i -> match c with CAddBlock _ => False | _ => True end) -> acc th' = []
  end.
Proof.
  intros E. destruct th as [[c|tx|b| |h|h]|tx g|tx g a|tx g a i|tx g a i|tx g|tx g|tx g|b|b|b|c i|c i|c r]; cbn [tree_step] in E; (split; [try reflexivity; discriminate E|]); try intros _ Hread.
  - destruct (lcall_run c (sh_tree s)). apply some_inv in E as [_ <-]. reflexivity.
  - apply some_inv in E as [_ <-]. match goal with |- acc (next _ ?x) = _ => destruct x eqn:Hx end; try reflexivity. inv_bind Hx. apply ok_inv in Hx as <-. reflexivity.
  - destruct (sh_locked s); [discriminate E|]. destruct (negb _); apply some_inv in E as [_ <-]; reflexivity.
  - destruct (sh_locked s); [discriminate E|]. apply some_inv in E as [_ <-]. match goal with |- acc (next _ ?x) = _ => destruct x eqn:Hx end; try reflexivity. inv_bind Hx. apply ok_inv in Hx as <-. reflexivity.
  - destruct (sh_locked s); [discriminate E|]. apply some_inv in E as [_ <-]. destruct (_ <? _); reflexivity.
  - apply some_inv in E as [_ <-]. destruct (sled_get _ _); [destruct (Nat.ltb _ _)|]; reflexivity.
  - apply some_inv in E as [_ <-]. match goal with |- acc (next _ ?x) = _ => destruct x eqn:Hx end; try reflexivity. inv_bind Hx. apply ok_inv in Hx as <-. reflexivity.
  - destruct (sh_locked s); [discriminate E|]. apply some_inv in E as [_ <-]. match goal with |- acc (next _ ?x) = _ => destruct x eqn:Hx end; try reflexivity. inv_bind Hx. apply ok_inv in Hx as <-. reflexivity.
  - destruct (sh_locked s); [discriminate E|]. apply some_inv in E as [_ <-]. destruct (_ <? _); reflexivity.
  - apply some_inv in E as [_ <-]. match goal with |- acc (next _ ?x) = _ => destruct x eqn:Hx end; try reflexivity. inv_bind Hx. apply ok_inv in Hx as <-. reflexivity.
  - apply some_inv in E as [_ <-]. reflexivity.
  - destruct (t_send_amount _ _ _ _) as [t' r]. apply some_inv in E as [_ <-]. match goal with |- acc (next _ ?x) = _ => destruct x eqn:Hx end; try reflexivity. inv_bind Hx. apply ok_inv in Hx as <-. reflexivity.
  - destruct (t_sub_gas _ _ _). apply some_inv in E as [_ <-]. reflexivity.
  - apply some_inv in E as [_ <-]. reflexivity.
  - apply some_inv in E as [_ <-]. reflexivity.
  - unfold mainof. destruct (u256_add _ _); apply some_inv in E as [_ <-]; reflexivity.
  - destruct (sh_locked s); [discriminate E|]. apply some_inv in E as [_ <-]. specialize (Hread c i (or_introl eq_refl)). destruct (_ <? _); cbn [acc]; destruct c; try reflexivity; contradiction.
  - apply some_inv in E as [_ <-]. specialize (Hread c i (or_intror eq_refl)). cbn [acc]; destruct c; try reflexivity; contradiction.
  - discriminate E.
Qed.
(** Readers in progress come from read calls. *)
Definition reader_ok (th : thread) : Prop :=
  match th with TIdx c _ | TGet c _ => match c with CLast | CByHeight _ | CByHash _ => True | _ => False end | _ => True end.
Lemma step_reader s th s' th' : tree_step s th = Some (s', th') -> reader_ok th -> reader_ok th'.
Proof.
  intros E Hr. destruct th as [[c|tx|b| |h|h]|tx g|tx g a|tx g a i|tx g a i|tx g|tx g|tx g|b|b|b|c i|c i|c r]; cbn [tree_step] in E.
  - destruct (lcall_run c (sh_tree s)). apply some_inv in E as [_ <-]. exact I.
  - apply some_inv in E as [_ <-]. match goal with |- reader_ok (next _ ?x) => destruct x eqn:Hx end; try exact I. inv_bind Hx. apply ok_inv in Hx as <-. exact I.
  - destruct (sh_locked s); [discriminate E|]. destruct (negb _); apply some_inv in E as [_ <-]; exact I.
  - destruct (sh_locked s); [discriminate E|]. apply some_inv in E as [_ <-]. match goal with |- reader_ok (next _ ?x) => destruct x eqn:Hx end; try exact I. inv_bind Hx. apply ok_inv in Hx as <-. exact I.
  - destruct (sh_locked s); [discriminate E|]. apply some_inv in E as [_ <-]. destruct (_ <? _); exact I.
  - apply some_inv in E as [_ <-]. destruct (sled_get _ _); [destruct (Nat.ltb _ _)|]; exact I.
  - apply some_inv in E as [_ <-]. match goal with |- reader_ok (next _ ?x) => destruct x eqn:Hx end; try exact I. inv_bind Hx. apply ok_inv in Hx as <-. exact I.
  - destruct (sh_locked s); [discriminate E|]. apply some_inv in E as [_ <-]. match goal with |- reader_ok (next _ ?x) => destruct x eqn:Hx end; try exact I. inv_bind Hx. apply ok_inv in Hx as <-. exact I.
  - destruct (sh_locked s); [discriminate E|]. apply some_inv in E as [_ <-]. destruct (_ <? _); exact I.
  - apply some_inv in E as [_ <-]. match goal with |- reader_ok (next _ ?x) => destruct x eqn:Hx end; try exact I. inv_bind Hx. apply ok_inv in Hx as <-. exact I.
  - apply some_inv in E as [_ <-]. exact I.
  - destruct (t_send_amount _ _ _ _) as [t' r]. apply some_inv in E as [_ <-]. match goal with |- reader_ok (next _ ?x) => destruct x eqn:Hx end; try exact I. inv_bind Hx. apply ok_inv in Hx as <-. exact I.
  - destruct (t_sub_gas _ _ _). apply some_inv in E as [_ <-]. exact I.
  - apply some_inv in E as [_ <-]. exact I.
  - apply some_inv in E as [_ <-]. exact I.
  - destruct (u256_add _ _); apply some_inv in E as [_ <-]; exact I.
  - destruct (sh_locked s); [discriminate E|]. apply some_inv in E as [_ <-]. destruct (_ <? _); [exact I|exact Hr].
  - apply some_inv in E as [_ <-]. exact I.
  - discriminate E.
Qed.

(** *** The chain as the accepted blocks, one after the other *)
Definition consecutive (h0 : N) (bs : list block) : Prop := forall k b, nth_error bs k = Some b -> bi_height (get_info b) = h0 + N.of_nat k.
Lemma consecutive_snoc h0 bs b : consecutive h0 bs -> bi_height (get_info b) = h0 + N.of_nat (length bs) -> consecutive h0 (bs ++ [b]).
Proof.
  intros H Hb k b' Hk. destruct (Nat.lt_ge_cases k (length bs)) as [Hl|Hl].
  - rewrite nth_error_app1 in Hk by exact Hl. apply H, Hk.
  - rewrite nth_error_app2 in Hk by exact Hl. destruct (k - length bs)%nat as [|j] eqn:Ej; [|destruct j; discriminate Hk]. injection Hk as <-. rewrite Hb. f_equal. lia.
Qed.
Lemma add_all_snoc bs b m : add_all (bs ++ [b]) m = fst (mc_add_block b (add_all bs m)).
Proof. unfold add_all. rewrite fold_left_app. reflexivity. Qed.
Lemma add_all_height bs m0 : consecutive (mc_height m0) bs -> mc_height m0 + N.of_nat (length bs) < 2 ^ 256 ->
  mc_height (add_all bs m0) = mc_height m0 + N.of_nat (length bs) /\
  (forall k b, nth_error bs k = Some b -> sled_get (height_key (mc_height m0 + N.of_nat k)) (mc_blocks (add_all bs m0)) = Some (block_dump b)) /\
  (forall i, i < mc_height m0 -> sled_get (height_key i) (mc_blocks (add_all bs m0)) = sled_get (height_key i) (mc_blocks m0)).
Proof.
  induction bs as [|b bs IH] using rev_ind; intros Hc Hl.
  - cbn [add_all fold_left length]. split; [lia|]. split; [intros [|k] b H; discriminate H|reflexivity].
  - rewrite app_length in *. cbn [length] in *. assert (Hc' : consecutive (mc_height m0) bs) by (intros k x Hk; apply Hc; rewrite nth_error_app1; [exact Hk|apply nth_error_Some; congruence]).
    destruct (IH Hc' ltac:(lia)) as (I1 & I2 & I3).
    assert (Hb : bi_height (get_info b) = mc_height (add_all bs m0)) by (rewrite I1; apply Hc; rewrite nth_error_app2, Nat.sub_diag by lia; reflexivity).
    rewrite add_all_snoc. unfold mc_add_block. rewrite Hb, N.eqb_refl. cbn [negb]. unfold u256_add. destruct (N.ltb_spec (mc_height (add_all bs m0) + 1) (2 ^ 256)); [|lia]. cbn [fst mc_height mc_blocks].
    split; [lia|]. split.
    + intros k x Hk. rewrite sled_get_insert. destruct (Nat.lt_ge_cases k (length bs)) as [Hkl|Hkl].
      * rewrite height_key_eqb by lia. destruct (N.eqb_spec (mc_height m0 + N.of_nat k) (mc_height (add_all bs m0))); [lia|]. apply I2. rewrite nth_error_app1 in Hk by exact Hkl. exact Hk.
      * assert (k = length bs) as ->. { apply Nat.le_antisymm; [|exact Hkl]. assert (k < length (bs ++ [b]))%nat by (apply nth_error_Some; congruence). rewrite app_length in *. cbn in *. lia. }
        rewrite nth_error_app2, Nat.sub_diag in Hk by lia. injection Hk as <-. rewrite <- I1, bytes_eqb_refl. reflexivity.
    + intros i Hi. rewrite sled_get_insert, height_key_eqb by lia. destruct (N.eqb_spec i (mc_height (add_all bs m0))); [lia|]. apply I3, Hi.
Qed.

Definition holder_inv (ms m : main_chain) (th : thread) : Prop :=
  match th with
  | TWrite b => bi_height (get_info b) = mc_height ms /\ same_chain ms m
  | TRef b => bi_height (get_info b) = mc_height ms /\ same_chain (put_block b ms) m
  | TBump b => bi_height (get_info b) = mc_height ms /\ same_chain (put_ref b (put_block b ms)) m
  | _ => True
  end.
Definition blocks_inv (m0 : main_chain) (n : nat) (s : shared) (ts : list thread) : Prop :=
  length ts = n /\ lock_inv s ts /\ Forall reader_ok ts /\
  exists bs, Permutation bs (accepted_blocks ts) /\ consecutive (mc_height m0) bs /\
    (sh_locked s = false -> same_chain (add_all bs m0) (mainof s)) /\ Forall (holder_inv (add_all bs m0) (mainof s)) ts.

Lemma accepted_count ts : N.of_nat (length (accepted_blocks ts)) + total holds ts <= N.of_nat (length ts).
Proof.
  unfold total. induction ts as [|th ts IH]; [cbn; lia|]. cbn [accepted_blocks flat_map map fold_right length]. rewrite app_length.
  fold (accepted_blocks ts). unfold holds at 1. destruct th as [| | | | | | | | | | | | |[| |b| | |] [| | |]]; cbn [in_add_block length]; lia.
Qed.
Lemma same_chain_trans a b c : same_chain a b -> same_chain b c -> same_chain a c.
Proof. intros (A1 & A2 & A3) (B1 & B2 & B3). unfold same_chain. rewrite B1, B2, B3. auto. Qed.
Lemma holder_same ms m m' th : same_chain m m' -> holder_inv ms m th -> holder_inv ms m' th.
Proof. intros H Hh. destruct th; cbn [holder_inv] in *; try exact I; destruct Hh as [A B]; split; try exact A; eapply same_chain_trans; eassumption. Qed.
Lemma not_holder ms m th : in_add_block th = false -> holder_inv ms m th.
Proof. destruct th; try discriminate; intros _; exact I. Qed.
Lemma same_put_block b m m' : same_chain m m' -> same_chain (put_block b m) (put_block b m').
Proof. intros (A1 & A2 & A3). unfold same_chain. cbn. rewrite A1, A2, A3. auto. Qed.
Lemma same_put_ref b m m' : same_chain m m' -> same_chain (put_ref b m) (put_ref b m').
Proof. intros (A1 & A2 & A3). unfold same_chain. cbn. rewrite A1, A2, A3. auto. Qed.

(** Once a thread has stepped from the lock, the others do not hold it. *)
Lemma others_free s ts k th i x : lock_inv s ts -> nth_error ts k = Some th -> in_add_block th = true -> nth_error ts i = Some x -> i <> k -> in_add_block x = false.
Proof. intros HL Hk Hh Hi Hne. destruct (in_add_block x) eqn:E; [|reflexivity]. exfalso. apply Hne. eapply lock_unique; eassumption. Qed.
Lemma free_all s ts x : lock_inv s ts -> sh_locked s = false -> In x ts -> in_add_block x = false.
Proof. intros HL Hf Hin. destruct (in_add_block x) eqn:E; [|reflexivity]. rewrite (lock_held _ _ _ HL Hin E) in Hf. discriminate Hf. Qed.

Lemma step_quiet s th s' th' : tree_step s th = Some (s', th') -> reader_ok th -> in_add_block th = false -> (forall b, th <> TStart (CAddBlock b)) ->
  in_add_block th' = false /\ sh_locked s' = sh_locked s.
Proof.
  intros E Hr Hh Hs. assert (H : in_add_block th' = false).
  { pose proof (step_call _ _ _ _ E) as HC. destruct th' as [| | | | | | | |b|b|b| | |]; try reflexivity; exfalso; cbn [th_call] in HC;
      (destruct th; cbn [th_call in_add_block] in *; try discriminate; subst; cbn [reader_ok] in Hr; try contradiction; first [exact (Hs _ eq_refl)|discriminate E]). }
  split; [exact H|]. pose proof (step_lock _ _ _ _ E ltac:(congruence)) as EL. unfold holds, locked1 in EL. rewrite H, Hh in EL. destruct (sh_locked s), (sh_locked s'); try reflexivity; lia.
Qed.
Lemma blocks_step m0 n : mc_height m0 + N.of_nat n < 2 ^ 256 -> forall s ts k th s' th', blocks_inv m0 n s ts -> nth_error ts k = Some th ->
  tree_step s th = Some (s', th') -> blocks_inv m0 n s' (replace ts k th').
Proof.
  intros Hbound s ts k th s' th' (Hn & HL & Hrd & bs & Hp & Hc & Hfree & Hh) Hk E.
  pose proof (lock_step _ _ _ _ _ _ HL Hk E) as HL'. split; [rewrite replace_length; exact Hn|]. split; [exact HL'|].
  assert (Hrth : reader_ok th) by (eapply Forall_forall; [exact Hrd|eapply nth_error_In, Hk]).
  split. { apply Forall_forall. intros x Hx. apply in_replace in Hx as [->|Hx]; [eapply step_reader; eassumption|]. eapply Forall_forall; eassumption. }
  assert (Hhk : holder_inv (add_all bs m0) (mainof s) th) by (eapply Forall_forall; [exact Hh|eapply nth_error_In, Hk]).
  pose proof (step_acc _ _ _ _ E) as [A1 A2]. pose proof (flat_map_replace acc ts k th th' Hk) as Hacc. rewrite A1 in Hacc. cbn [app] in Hacc.
  change (flat_map acc ts) with (accepted_blocks ts) in Hacc. change (flat_map acc (replace ts k th')) with (accepted_blocks (replace ts k th')) in Hacc.
  assert (Hcount : N.of_nat (length bs) + total holds ts <= N.of_nat n) by (rewrite (Permutation_length Hp), <- Hn; apply accepted_count).
  pose proof (step_main _ _ _ _ E) as HM. pose proof (step_call _ _ _ _ E) as HC.
  assert (Hread : forall c i, th = TIdx c i \/ th = TGet c i -> match c with CAddBlock _ => False | _ => True end).
  { intros c i [->| ->]; cbn [reader_ok] in Hrth; destruct c; auto. }
  (* other threads keep what they know when the chain only changes in its transactions *)
  assert (Hquiet : acc th' = [] -> same_chain (mainof s) (mainof s') -> (sh_locked s' = false -> sh_locked s = false) -> in_add_block th' = false ->
            exists bs, Permutation bs (accepted_blocks (replace ts k th')) /\ consecutive (mc_height m0) bs /\
              (sh_locked s' = false -> same_chain (add_all bs m0) (mainof s')) /\ Forall (holder_inv (add_all bs m0) (mainof s')) (replace ts k th')).
  { intros Ha HS Hlk Hth'. rewrite Ha in Hacc. cbn [app] in Hacc. exists bs. split; [rewrite Hp; symmetry; exact Hacc|]. split; [exact Hc|].
    split; [intros Hf; eapply same_chain_trans; [apply Hfree, Hlk, Hf|exact HS]|].
    apply Forall_forall. intros x Hx. apply in_replace in Hx as [->|Hx]; [apply not_holder, Hth'|]. eapply holder_same; [exact HS|]. eapply Forall_forall; eassumption. }
  assert (Hq : in_add_block th = false -> (forall b, th <> TStart (CAddBlock b)) -> exists bs, Permutation bs (accepted_blocks (replace ts k th')) /\ consecutive (mc_height m0) bs /\
              (sh_locked s' = false -> same_chain (add_all bs m0) (mainof s')) /\ Forall (holder_inv (add_all bs m0) (mainof s')) (replace ts k th')).
  { intros Hna Hns. destruct (step_quiet _ _ _ _ E Hrth Hna Hns) as [Q1 Q2]. apply Hquiet; [| |congruence|exact Q1].
    - destruct th; try discriminate Hna; apply A2; try (intros; exact I); exact Hread.
    - destruct th; try discriminate Hna; exact HM. }
  assert (Hall : forall ms m', holder_inv ms m' th' -> in_add_block th = true -> Forall (holder_inv ms m') (replace ts k th')).
  { intros ms m' H' Hat. apply Forall_forall. intros x Hx. apply In_nth_error in Hx as (i & Hx). rewrite nth_error_replace in Hx. destruct (Nat.eqb_spec k i) as [Hki|Hki].
    - destruct (i <? length ts)%nat; [|discriminate Hx]. injection Hx as <-. exact H'.
    - apply not_holder. eapply others_free; [exact HL|exact Hk|exact Hat|exact Hx|congruence]. }
  destruct th as [[c|tx|b| |h|h]|tx g|tx g a|tx g a i|tx g a i|tx g|tx g|tx g|b|b|b|c i|c i|c r]; cbn [holder_inv] in Hhk; try (apply Hq; [reflexivity|intros ? ?; discriminate]).
  - (* the lock is taken *)
    cbn [tree_step] in E. destruct (sh_locked s) eqn:El; [discriminate E|]. destruct (negb (bi_height (get_info b) =? mc_height (t_main (sh_tree s)))) eqn:Eh.
    + apply some_inv in E as [<- <-]. apply Hquiet; [reflexivity|exact HM|auto|reflexivity].
    + apply some_inv in E as [<- <-]. apply negb_false_iff, N.eqb_eq in Eh. cbn [acc app] in Hacc. exists bs. split; [rewrite Hp; symmetry; exact Hacc|]. split; [exact Hc|].
      split; [intros H; discriminate H|]. apply Forall_forall. intros x Hx. apply in_replace in Hx as [->|Hx].
      * cbn [holder_inv]. pose proof (Hfree eq_refl) as HF. split; [rewrite Eh; apply HF|exact HF].
      * apply not_holder. exact (free_all s ts x HL El Hx).
  - cbn [tree_step] in E. destruct Hhk as [B1 B2]. apply some_inv in E as [<- <-]. cbn [acc app] in Hacc. exists bs. split; [rewrite Hp; symmetry; exact Hacc|]. split; [exact Hc|].
    pose proof (lock_held _ _ _ HL (nth_error_In _ _ Hk) eq_refl) as Hlk. split; [cbn [with_tree sh_locked]; congruence|].
    apply Hall; [|reflexivity]. cbn [holder_inv]. split; [exact B1|]. rewrite HM. apply same_put_block, B2.
  - cbn [tree_step] in E. destruct Hhk as [B1 B2]. apply some_inv in E as [<- <-]. cbn [acc app] in Hacc. exists bs. split; [rewrite Hp; symmetry; exact Hacc|]. split; [exact Hc|].
    pose proof (lock_held _ _ _ HL (nth_error_In _ _ Hk) eq_refl) as Hlk. split; [cbn [with_tree sh_locked]; congruence|].
    apply Hall; [|reflexivity]. cbn [holder_inv]. split; [exact B1|]. rewrite HM. apply same_put_ref, B2.
  - destruct Hhk as [B1 B2]. pose proof (total_in holds ts _ (nth_error_In _ _ Hk)) as Hone. unfold holds at 1 in Hone. cbn [in_add_block] in Hone.
    destruct (add_all_height bs m0 Hc ltac:(lia)) as (H1 & _ & _). destruct B2 as (C1 & C2 & C3). cbn [put_ref put_block mc_height mc_refs mc_blocks] in C1, C2, C3.
    assert (Hadd : u256_add (mc_height (mainof s)) 1 = Ok (mc_height (mainof s) + 1)) by (unfold u256_add; destruct (N.ltb_spec (mc_height (mainof s) + 1) (2 ^ 256)); [reflexivity|lia]).
    rewrite Hadd in HM, A2. rewrite A2 in Hacc. exists (bs ++ [b]). split; [rewrite <- Permutation_cons_append, Hp; symmetry; exact Hacc|].
    split; [apply consecutive_snoc; [exact Hc|congruence]|].
    assert (HS : same_chain (add_all (bs ++ [b]) m0) (mainof s')).
    { rewrite add_all_snoc, HM. unfold mc_add_block. rewrite B1, N.eqb_refl. cbn [negb]. rewrite <- C1, Hadd. unfold same_chain. cbn [fst put_height mc_height mc_refs mc_blocks]. rewrite C2, C3, C1. auto. }
    split; [intros _; exact HS|]. apply Hall; [|reflexivity]. cbn [tree_step] in E. change (mc_height (t_main (sh_tree s))) with (mc_height (mainof s)) in E. rewrite Hadd in E.
    apply some_inv in E as [_ <-]. exact I.
Qed.
Lemma blocks_start t calls : blocks_inv (t_main t) (length calls) (MkShared t false) (map TStart calls).
Proof.
  split; [apply map_length|]. split; [apply lock_start|]. split; [apply Forall_forall; intros x Hx; apply in_map_iff in Hx as (c & <- & _); exact I|].
  exists []. split.
  { assert (E : accepted_blocks (map TStart calls) = []) by (induction calls as [|c calls IH]; [reflexivity|exact IH]). rewrite E. constructor. }
  split; [intros [|k] b H; discriminate H|]. split; [intros _; repeat split|]. apply Forall_forall; intros x Hx; apply in_map_iff in Hx as (c & <- & _); exact I.
Qed.

(*@T C65. After any schedule of any calls (block additions, reads, transfers, ledger calls) the blocks whose addition returned success, in some order, have the consecutive
   heights from the initial one up to the current one, each is the block found at its height, earlier blocks are unchanged, and whenever nobody is inside
   [add_block] the chain is exactly what adding these blocks one after the other gives. *)
Lemma p_C65_contiguous : forall t calls schedule, mc_get_height (t_main t) + N.of_nat (length calls) < 2 ^ 256 ->
  let '(s, ts) := tree_exec schedule t calls in let m0 := t_main t in let m := t_main (sh_tree s) in
  exists accepted, Permutation accepted (accepted_blocks ts) /\
    mc_get_height m = mc_get_height m0 + N.of_nat (length accepted) /\
    (forall k b, nth_error accepted k = Some b ->
       bi_height (get_info b) = mc_get_height m0 + N.of_nat k /\
       mc_find_raw_by_height (mc_get_height m0 + N.of_nat k) m = Some (block_dump b)) /\
    (forall i, i < mc_get_height m0 -> mc_find_raw_by_height i m = mc_find_raw_by_height i m0) /\
    ((forall th, In th ts -> in_add_block th = false) -> same_chain (add_all accepted m0) m).
Proof.
  intros t calls sch Hb. unfold tree_exec, mc_get_height in *.
  pose proof (exec_ind tree_step (blocks_inv (t_main t) (length calls)) (blocks_step (t_main t) (length calls) Hb) sch _ _ (blocks_start t calls)) as HI.
  destruct (exec tree_step sch (MkShared t false, map TStart calls)) as [s ts]. cbn zeta. destruct HI as (Hn & HL & _ & bs & Hp & Hc & Hfree & Hh).
  exists bs. assert (Hcount : N.of_nat (length bs) + total holds ts <= N.of_nat (length calls)) by (rewrite (Permutation_length Hp), <- Hn; apply accepted_count).
  destruct (add_all_height bs (t_main t) Hc ltac:(lia)) as (H1 & H2 & H3).
  assert (HM : mc_height (mainof s) = mc_height (add_all bs (t_main t)) /\
               forall i, i < mc_height (add_all bs (t_main t)) -> sled_get (height_key i) (mc_blocks (mainof s)) = sled_get (height_key i) (mc_blocks (add_all bs (t_main t)))).
  { destruct (sh_locked s) eqn:El.
    - destruct (find_index (fun th => negb (in_add_block th)) ts) as [Hno|(k & th & Hk & Hhold)].
      + exfalso. unfold lock_inv, locked1 in HL. rewrite El in HL. assert (Hz : total holds ts = 0); [|lia]. clear -Hno. unfold total.
        induction ts as [|a ts IH]; [reflexivity|]. cbn [map fold_right]. rewrite IH by (intros x Hx; apply Hno; right; exact Hx).
        specialize (Hno a (or_introl eq_refl)). unfold holds. destruct (in_add_block a); [discriminate Hno|reflexivity].
      + assert (Hx : holder_inv (add_all bs (t_main t)) (mainof s) th) by (eapply Forall_forall; [exact Hh|eapply nth_error_In, Hk]).
        destruct th; try discriminate Hhold; cbn [holder_inv] in Hx; destruct Hx as (B1 & C1 & C2 & C3); cbn [put_ref put_block mc_height mc_blocks] in *; rewrite C3; (split; [exact C1|]); intros i Hi; try reflexivity;
          (rewrite sled_get_insert, height_key_eqb by lia; destruct (N.eqb_spec i (mc_height (add_all bs (t_main t)))); [lia|reflexivity]).
    - destruct (Hfree eq_refl) as (C1 & C2 & C3). split; [exact C1|]. intros i Hi. rewrite C3. reflexivity. }
  change (t_main (sh_tree s)) with (mainof s). destruct HM as [M1 M2]. split; [exact Hp|]. split; [lia|]. split.
  { intros k b Hk. split; [apply Hc, Hk|]. assert (k < length bs)%nat by (apply nth_error_Some; congruence).
    unfold mc_find_raw_by_height. destruct (N.ltb_spec (mc_height (mainof s)) (mc_height (t_main t) + N.of_nat k)); [lia|]. rewrite M2 by lia. apply H2, Hk. }
  split.
  { intros i Hi. unfold mc_find_raw_by_height. destruct (N.ltb_spec (mc_height (mainof s)) i); [lia|]. destruct (N.ltb_spec (mc_height (t_main t)) i); [lia|]. rewrite M2 by lia. apply H3, Hi. }
  intros Hnone. apply Hfree. destruct (sh_locked s) eqn:El; [|reflexivity]. exfalso. unfold lock_inv, locked1 in HL. rewrite El in HL. assert (Hz : total holds ts = 0); [|lia]. clear -Hnone. unfold total.
  induction ts as [|a ts IH]; [reflexivity|]. cbn [map fold_right]. rewrite IH by (intros x Hx; apply Hnone; right; exact Hx). unfold holds. rewrite (Hnone a (or_introl eq_refl)). reflexivity.
Qed.
(*@E
Definition next_block (ts : N) : block := emitted Debug fresh (OEmitMain (repeat 3 32) addrA [txh] ts).
(** Two blocks for the same height: one is accepted. *)
Example C65_ex : let b1 := next_block 1597925000 in let b2 := next_block 1597926000 in
  mc_get_height (t_main fresh) = 1 /\ bi_height (get_info b1) = 1 /\ bi_height (get_info b2) = 1 /\
  snd (tree_exec (concat (repeat [0; 1]%nat 6)) fresh [CAddBlock b1; CAddBlock b2]) =
    [TDone (CAddBlock b1) (Ok CRUnit); TDone (CAddBlock b2) (Err EChainAddingBlock)].
Proof. vm_compute. repeat split; reflexivity. Qed.
@*)

(** ** Reads *)
(*@T C65. Whatever else is going on, [get_last_raw_block] returns the last block of some moment between its start and its return (a moment at which the lock is free). *)
Lemma p_C65_last_block_of_some_moment : forall s1 ts1 schedule i r,
  mc_get_height (t_main (sh_tree s1)) < 2 ^ 256 -> nth_error ts1 i = Some (TStart CLast) ->
  nth_error (snd (exec tree_step schedule (s1, ts1))) i = Some (TDone CLast r) ->
  exists before after, schedule = before ++ after /\
    let s := fst (exec tree_step before (s1, ts1)) in
    sh_locked s = false /\ r = snd (call_run CLast (sh_tree s)).
Proof.
  intros s1 ts1 schedule i r Hh Hi Hdone.
  assert (HI : exists th, nth_error (snd (exec tree_step schedule (s1, ts1))) i = Some th /\
    (th = TStart CLast \/
     exists before after, schedule = before ++ after /\
       let s := fst (exec tree_step before (s1, ts1)) in let s' := fst (exec tree_step schedule (s1, ts1)) in
       sh_locked s = false /\ grows (mainof s) (mainof s') /\
       match th with
       | TIdx CLast j | TGet CLast j => u256_sub (mc_height (mainof s)) 1 = Ok j
       | TDone CLast r => r = snd (call_run CLast (sh_tree s))
       | _ => False
       end)).
  { clear Hdone. induction schedule as [|k sch IH] using rev_ind.
    - exists (TStart CLast). split; [exact Hi|left; reflexivity].
    - destruct IH as (th & Ht & Hcase). rewrite exec_snoc. pose proof (exec_grows sch s1 ts1) as G0. destruct (exec tree_step sch (s1, ts1)) as [s ts] eqn:Ex. cbn [fst snd] in *. cbn [sched_step].
      destruct (nth_error ts k) as [thk|] eqn:Ek.
      2:{ exists th. split; [exact Ht|]. destruct Hcase as [->|(before & after & -> & Hc)]; [left; reflexivity|]. right. exists before, (after ++ [k]). rewrite app_assoc. split; [reflexivity|exact Hc]. }
      destruct (tree_step s thk) as [[s' th']|] eqn:Es.
      2:{ exists th. split; [exact Ht|]. destruct Hcase as [->|(before & after & -> & Hc)]; [left; reflexivity|]. right. exists before, (after ++ [k]). rewrite app_assoc. split; [reflexivity|exact Hc]. }
      cbn [fst snd]. pose proof (step_grows _ _ _ _ Es) as G. destruct (Nat.eq_dec k i) as [->|Hne].
      + rewrite Ht in Ek. injection Ek as <-. exists th'. split; [eapply replace_same, Ht|]. right. destruct Hcase as [->|(before & after & -> & Hl & Hg & Hc)].
        * (* the moment of the first look at the height *)
          cbn [tree_step] in Es. destruct (sh_locked s) eqn:El; [discriminate Es|]. apply some_inv in Es as [<- <-].
          exists sch, [i]. split; [reflexivity|]. rewrite Ex. cbn [fst]. split; [exact El|]. split; [apply grows_refl; repeat split|].
          cbn [call_run snd]. unfold mc_get_last_raw_block, mainof. destruct (u256_sub (mc_height (t_main (sh_tree s))) 1) as [j| | |]; reflexivity.
        * exists before, (after ++ [i]). rewrite app_assoc. split; [reflexivity|]. cbn zeta in *. split; [exact Hl|]. split; [eapply grows_trans; eassumption|].
          set (s0 := fst (exec tree_step before (s1, ts1))) in *.
          assert (H0 : mc_height (mainof s0) < 2 ^ 256). { pose proof (exec_grows before s1 ts1 Hh) as [[_ X] _]. exact X. }
          destruct (Hg H0) as [Hmono Hsame].
          assert (Hj : forall j, u256_sub (mc_height (mainof s0)) 1 = Ok j -> j + 1 = mc_height (mainof s0)).
          { intros j. unfold u256_sub. destruct (N.leb_spec 1 (mc_height (mainof s0))); [|discriminate]. intros Hx. apply ok_inv in Hx as <-. lia. }
          destruct th as [| | | | | | | | | | |[| | | | |] j|[| | | | |] j|[| | | | |] r0]; try contradiction.
          -- cbn [tree_step] in Es. destruct (sh_locked s); [discriminate Es|]. apply some_inv in Es as [<- <-]. pose proof (Hj j Hc). change (mc_height (t_main (sh_tree s))) with (mc_height (mainof s)).
             destruct (N.ltb_spec (mc_height (mainof s)) j); [lia|]. exact Hc.
          -- cbn [tree_step] in Es. apply some_inv in Es as [<- <-]. pose proof (Hj j Hc). cbn [call_run snd]. unfold mc_get_last_raw_block, mc_find_raw_by_height.
             change (t_main (sh_tree s0)) with (mainof s0). rewrite Hc. cbn [bind]. destruct (N.ltb_spec (mc_height (mainof s0)) j); [lia|]. change (t_main (sh_tree s)) with (mainof s). rewrite Hsame by lia. reflexivity.
          -- discriminate Es.
      + exists th. split; [rewrite replace_other by exact Hne; exact Ht|]. destruct Hcase as [->|(before & after & -> & Hl & Hg & Hc)]; [left; reflexivity|].
        right. exists before, (after ++ [k]). rewrite app_assoc. split; [reflexivity|]. cbn zeta in *. split; [exact Hl|]. split; [eapply grows_trans; eassumption|exact Hc]. }
  destruct HI as (th & Ht & Hcase). rewrite Hdone in Ht. injection Ht as <-. destruct Hcase as [Hx|(before & after & E & Hl & _ & Hc)]; [discriminate Hx|].
  exists before, after. split; [exact E|]. split; [exact Hl|exact Hc].
Qed.
(*@E
Example C65_ex_last : let b1 := next_block 1597925000 in
  let st1 := (MkShared fresh false, map TStart [CAddBlock b1; CLast]) in
  map (fun schedule => snd (exec tree_step schedule st1)) [[1; 0; 0; 0; 0; 1; 1]; [0; 0; 0; 0; 1; 1; 1]; [0; 1; 0; 1; 0; 1]]%nat =
  [[TDone (CAddBlock b1) (Ok CRUnit); TDone CLast (Ok (CRBlock (Some (block_dump genesis))))];
   [TDone (CAddBlock b1) (Ok CRUnit); TDone CLast (Ok (CRBlock (Some (block_dump b1))))];
   [TBump b1; TStart CLast]].
Proof. vm_compute. reflexivity. Qed.
@*)

(*@T C75, what holds: whatever else is going on, [find_raw_by_height] for a height below that of the chain when the call starts returns what it would have returned
   then, and [get_last_raw_block] what it would have returned at some moment of the call (C65).
   Missing: the height being added, see below. *)
Lemma p_C75_settled_heights_partial : forall s1 ts1 schedule i h r,
  mc_get_height (t_main (sh_tree s1)) < 2 ^ 256 -> h < mc_get_height (t_main (sh_tree s1)) -> nth_error ts1 i = Some (TStart (CByHeight h)) ->
  nth_error (snd (exec tree_step schedule (s1, ts1))) i = Some (TDone (CByHeight h) r) ->
  r = snd (call_run (CByHeight h) (sh_tree s1)).
Proof.
  intros s1 ts1 schedule i h r Hh Hlt Hi Hdone. unfold mc_get_height in *. change (t_main (sh_tree s1)) with (mainof s1) in *.
  pose (good := fun th => match th with
    | TStart c => c = CByHeight h
    | TGet c j => c = CByHeight h /\ j = h
    | TDone c r => r = snd (call_run (CByHeight h) (sh_tree s1))
    | _ => False end).
  assert (HI : let '(s, ts) := exec tree_step schedule (s1, ts1) in grows (mainof s1) (mainof s) /\ exists th, nth_error ts i = Some th /\ good th).
  { apply (exec_ind tree_step (fun s ts => grows (mainof s1) (mainof s) /\ exists th, nth_error ts i = Some th /\ good th)).
    - intros s ts k thk s' th' (Hg & th & Ht & Hgood) Hk Es. pose proof (step_grows _ _ _ _ Es) as G. split; [eapply grows_trans; eassumption|].
      destruct (Nat.eq_dec k i) as [->|Hne]; [|exists th; split; [rewrite replace_other by exact Hne; exact Ht|exact Hgood]].
      rewrite Ht in Hk. injection Hk as <-. exists th'. split; [eapply replace_same, Ht|]. destruct (Hg Hh) as [Hmono Hsame].
      destruct th as [c| | | | | | | | | | | |c j|c r0]; try contradiction; cbn [good] in Hgood.
      + subst c. cbn [tree_step] in Es. destruct (sh_locked s); [discriminate Es|]. apply some_inv in Es as [<- <-]. change (mc_height (t_main (sh_tree s))) with (mc_height (mainof s)).
        destruct (N.ltb_spec (mc_height (mainof s)) h); [lia|]. split; reflexivity.
      + destruct Hgood as [-> ->]. cbn [tree_step] in Es. apply some_inv in Es as [<- <-]. cbn [good call_run snd]. unfold mc_find_raw_by_height. change (t_main (sh_tree s1)) with (mainof s1).
        change (t_main (sh_tree s)) with (mainof s). destruct (N.ltb_spec (mc_height (mainof s1)) h); [lia|]. rewrite Hsame by exact Hlt. reflexivity.
      + discriminate Es.
    - split; [apply grows_refl; repeat split|]. exists (TStart (CByHeight h)). split; [exact Hi|reflexivity]. }
  destruct (exec tree_step schedule (s1, ts1)) as [s ts]. destruct HI as (_ & th & Ht & Hgood). cbn [snd] in Hdone. rewrite Hdone in Ht. injection Ht as <-. exact Hgood.
Qed.

Definition conc_block : block := emitted Debug fresh (OEmitMain (repeat 3 32) addrA [txh] 1597925000).
(*@T C75 fails: [find_raw_by_height] can return a block that is still being added, and afterwards [find_raw_by_hash], started when that call has returned, does not find that block: no order
   of the calls explains both results, because in every tree where the block is found by height after its addition it is found by hash.  (First thread: by height; second: addition;
   third: by hash, starting after the first has returned.) *)
Lemma p_C75_block_seen_before_its_hash_refuted : exists t b first second,
  let h := bi_height (get_info b) in let hash := sha256 (block_dump b) in
  let calls := [CByHeight h; CAddBlock b; CByHash hash] in
  reachable any_op Debug 0 t /\ mc_find_raw_by_height h (t_main t) = None /\
  (let ts := snd (tree_exec first t calls) in
   nth_error ts 0 = Some (TDone (CByHeight h) (Ok (CRBlock (Some (block_dump b))))) /\ nth_error ts 2 = Some (TStart (CByHash hash))) /\
  nth_error (snd (tree_exec (first ++ second) t calls)) 2 = Some (TDone (CByHash hash) (Ok (CRBlock None))) /\
  (let t' := fst (call_run (CAddBlock b) t) in
   snd (call_run (CByHeight h) t') = Ok (CRBlock (Some (block_dump b))) /\ snd (call_run (CByHash hash) t') = Ok (CRBlock (Some (block_dump b)))).
Proof.
  exists fresh, conc_block, [0; 1; 1; 0]%nat, [2]%nat. cbn zeta.
  split; [apply reach_open; vm_compute; reflexivity|]. split; [vm_compute; reflexivity|]. split; [split; vm_compute; reflexivity|]. split; [vm_compute; reflexivity|]. split; vm_compute; reflexivity.
Qed.
(*@E
Example C75_ex : let b1 := next_block 1597925000 in
  snd (tree_exec [0; 1; 1; 0; 1; 1]%nat fresh [CByHeight 0; CAddBlock b1]) =
    [TDone (CByHeight 0) (Ok (CRBlock (Some (block_dump genesis)))); TDone (CAddBlock b1) (Ok CRUnit)] /\
  mc_get_height (t_main fresh) = 1.
Proof. vm_compute. split; reflexivity. Qed.
@*)

(*@T C76. No schedule can lead into a deadlock: from every point of every execution all calls can be brought to their end. *)
Lemma p_C76_no_deadlock : forall t calls schedule, exists rest,
  forall th, In th (snd (tree_exec (schedule ++ rest) t calls)) -> exists c r, th = TDone c r.
Proof.
  intros t calls sch. pose proof (lock_exec sch t calls) as HL. unfold tree_exec in *. destruct (exec tree_step sch (MkShared t false, map TStart calls)) as [s ts] eqn:E.
  destruct (finishable _ s ts HL (le_n _)) as (rest & H). exists rest. rewrite exec_app, E. intros th Hin. specialize (H th Hin). destruct th; try discriminate H. eauto.
Qed.
(*@E
(** A reader waiting for a writer. *)
Example C76_ex : let b1 := next_block 1597925000 in
  snd (tree_exec [0; 1; 1; 1]%nat fresh [CAddBlock b1; CLast]) = [TWrite b1; TStart CLast] /\
  snd (tree_exec ([0; 1; 1; 1] ++ [0; 0; 0; 1; 1; 1])%nat fresh [CAddBlock b1; CLast]) =
    [TDone (CAddBlock b1) (Ok CRUnit); TDone CLast (Ok (CRBlock (Some (block_dump b1))))].
Proof. vm_compute. split; reflexivity. Qed.
@*)
