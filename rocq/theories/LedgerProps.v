(** Proofs of the statements in P_Ledger.v. *)
From Coq Require Import Lia ZifyBool ZifyNat ZifyN.
From Verif Require Import Base Sha256 Merkle Tools Transaction Block Sled Chain Tree Spec Reach LedgerSpec Demo.
From Verif Require Import BaseFacts ToolsFacts MerkleFacts DiffFacts CodecFacts SledFacts ChainFacts TreeFacts LedgerFacts MainProps.

(** ** C41 *)

(*@T C41: in every reachable tree every account has an amount and a gas balance, and it is a 256-bit number. *)
Lemma p_C41_balances_readable : forall ok p n t, reachable ok p n t -> few n ->
  exists f g, amounts t f /\ gases t g /\ forall w, f w < 2 ^ 256 /\ g w < 2 ^ 256.
Proof.
  intros ok p n t Hr Hn. destruct (reachable_ledgers _ _ _ _ Hr Hn) as [H1 H2 _ _].
  exists (bal (t_summary t)), (bal (t_gas t)). split; [apply amounts_bal, H1|]. split; [apply gases_bal, H2|].
  intros w. split; apply led_get_bal; assumption.
Qed.

Lemma upd_ext f f' k v w : (forall x, f x = f' x) -> upd f k v w = upd f' k v w.
Proof. intros H. unfold upd. destruct (bytes_eqb w k); auto. Qed.

Lemma amounts_of t f : led_ok (t_summary t) -> (forall w, f w = bal (t_summary t) w) -> amounts t f.
Proof. intros H E w. rewrite E. apply amounts_bal, H. Qed.
Lemma gases_of t f : led_ok (t_gas t) -> (forall w, f w = bal (t_gas t) w) -> gases t f.
Proof. intros H E w. rewrite E. apply gases_bal, H. Qed.

Lemma add_amount_eff w a t f : led_ok (t_summary t) -> amounts t f ->
  let '(t', r) := t_add_amount w a t in
  same_but_amounts t t' /\
  if f w + a <? 2 ^ 256 then r = Ok tt /\ amounts t' (upd f w (f w + a)) else r = Panic /\ t' = t.
Proof.
  intros H Hf. pose proof (amounts_eq _ _ Hf) as E. unfold t_add_amount, t_on_summary. rewrite led_add_spec by exact H. rewrite <- E.
  destruct (N.ltb_spec (f w + a) (2 ^ 256)).
  - split; [reflexivity|]. split; [reflexivity|]. apply amounts_of; [apply led_ok_commit1; assumption|].
    intros k. cbn [with_summary t_summary]. rewrite bal_commit1 by assumption. apply upd_ext, E.
  - split; [reflexivity|]. split; [reflexivity|]. destruct t; reflexivity.
Qed.
Lemma set_amount_eff w a t f : led_ok (t_summary t) -> u256_ok a -> amounts t f ->
  let '(t', r) := t_set_amount w a t in same_but_amounts t t' /\ r = Ok tt /\ amounts t' (upd f w a).
Proof.
  intros H Ha Hf. pose proof (amounts_eq _ _ Hf) as E. cbn. split; [reflexivity|]. split; [reflexivity|].
  apply amounts_of; [apply led_ok_commit1; assumption|]. intros k. cbn [with_summary t_summary].
  rewrite bal_commit1 by assumption. apply upd_ext, E.
Qed.
Lemma sub_amount_eff w a t f : led_ok (t_summary t) -> amounts t f ->
  let '(t', r) := t_sub_amount w a t in
  same_but_amounts t t' /\
  if a <=? f w then r = Ok tt /\ amounts t' (upd f w (f w - a)) else r = Panic /\ t' = t.
Proof.
  intros H Hf. pose proof (amounts_eq _ _ Hf) as E. unfold t_sub_amount, t_on_summary. rewrite led_sub_spec by exact H. rewrite <- E.
  destruct (led_get_bal _ w H) as [_ Hb]. rewrite <- E in Hb. unfold u256_ok in Hb.
  destruct (N.leb_spec a (f w)).
  - split; [reflexivity|]. split; [reflexivity|]. assert (u256_ok (f w - a)) by (unfold u256_ok; lia).
    apply amounts_of; [apply led_ok_commit1; assumption|].
    intros k. cbn [with_summary t_summary]. rewrite bal_commit1 by assumption. apply upd_ext, E.
  - split; [reflexivity|]. split; [reflexivity|]. destruct t; reflexivity.
Qed.
Lemma send_amount_eff x y a t f : led_ok (t_summary t) -> amounts t f ->
  let '(t', r) := t_send_amount x y a t in
  same_but_amounts t t' /\
  if bytes_eqb x y then r = Ok tt /\ t' = t
  else if (a <=? f x) && (f y + a <? 2 ^ 256) then r = Ok tt /\ amounts t' (moved f x y a) else r = Panic /\ t' = t.
Proof.
  intros H Hf. pose proof (amounts_eq _ _ Hf) as E. unfold t_send_amount, moved.
  destruct (bytes_eqb x y) eqn:Exy; [split; [destruct t; reflexivity|auto]|].
  unfold t_on_summary. rewrite led_send_spec by exact H. rewrite <- !E.
  destruct (led_get_bal _ x H) as [_ Hb]. rewrite <- E in Hb. unfold u256_ok in Hb.
  destruct (N.leb_spec a (f x)); [destruct (N.ltb_spec (f y + a) (2 ^ 256))|]; cbn [andb].
  - split; [reflexivity|]. split; [reflexivity|]. assert (u256_ok (f x - a)) by (unfold u256_ok; lia).
    apply amounts_of; [apply led_ok_commit2; assumption|].
    intros k. cbn [with_summary t_summary]. rewrite bal_commit2 by assumption. apply upd_ext. intros k'. apply upd_ext, E.
  - split; [reflexivity|]. split; [reflexivity|]. destruct t; reflexivity.
  - split; [reflexivity|]. split; [reflexivity|]. destruct t; reflexivity.
Qed.
Lemma add_gas_eff w a t f : led_ok (t_gas t) -> gases t f ->
  let '(t', r) := t_add_gas w a t in
  same_but_gas t t' /\
  if f w + a <? 2 ^ 256 then r = Ok tt /\ gases t' (upd f w (f w + a)) else r = Panic /\ t' = t.
Proof.
  intros H Hf. pose proof (gases_eq _ _ Hf) as E. unfold t_add_gas, t_on_gas. rewrite led_add_spec by exact H. rewrite <- E.
  destruct (N.ltb_spec (f w + a) (2 ^ 256)).
  - split; [reflexivity|]. split; [reflexivity|]. apply gases_of; [apply led_ok_commit1; assumption|].
    intros k. cbn [with_gas t_gas]. rewrite bal_commit1 by assumption. apply upd_ext, E.
  - split; [reflexivity|]. split; [reflexivity|]. destruct t; reflexivity.
Qed.
Lemma sub_gas_eff w a t f : led_ok (t_gas t) -> gases t f ->
  let '(t', r) := t_sub_gas w a t in
  same_but_gas t t' /\
  if a <=? f w then r = Ok tt /\ gases t' (upd f w (f w - a)) else r = Panic /\ t' = t.
Proof.
  intros H Hf. pose proof (gases_eq _ _ Hf) as E. unfold t_sub_gas, t_on_gas. rewrite led_sub_spec by exact H. rewrite <- E.
  destruct (led_get_bal _ w H) as [_ Hb]. rewrite <- E in Hb. unfold u256_ok in Hb.
  destruct (N.leb_spec a (f w)).
  - split; [reflexivity|]. split; [reflexivity|]. assert (u256_ok (f w - a)) by (unfold u256_ok; lia).
    apply gases_of; [apply led_ok_commit1; assumption|].
    intros k. cbn [with_gas t_gas]. rewrite bal_commit1 by assumption. apply upd_ext, E.
  - split; [reflexivity|]. split; [reflexivity|]. destruct t; reflexivity.
Qed.
Lemma send_gas_eff x y a t f : led_ok (t_gas t) -> gases t f ->
  let '(t', r) := t_send_gas x y a t in
  same_but_gas t t' /\
  if (a <=? f x) && (f y + a <? 2 ^ 256)
  then r = Ok tt /\ gases t' (upd (upd f x (f x - a)) y (f y + a)) else r = Panic /\ t' = t.
Proof.
  intros H Hf. pose proof (gases_eq _ _ Hf) as E. unfold t_send_gas.
  unfold t_on_gas. rewrite led_send_spec by exact H. rewrite <- !E.
  destruct (led_get_bal _ x H) as [_ Hb]. rewrite <- E in Hb. unfold u256_ok in Hb.
  destruct (N.leb_spec a (f x)); [destruct (N.ltb_spec (f y + a) (2 ^ 256))|]; cbn [andb].
  - split; [reflexivity|]. split; [reflexivity|]. assert (u256_ok (f x - a)) by (unfold u256_ok; lia).
    apply gases_of; [apply led_ok_commit2; assumption|].
    intros k. cbn [with_gas t_gas]. rewrite bal_commit2 by assumption. apply upd_ext. intros k'. apply upd_ext, E.
  - split; [reflexivity|]. split; [reflexivity|]. destruct t; reflexivity.
  - split; [reflexivity|]. split; [reflexivity|]. destruct t; reflexivity.
Qed.

(*@T C41: [add_amount] adds, or panics without effect when the sum exceeds 256 bits. *)
Lemma p_C41_add_amount : forall ok p n t f w a, reachable ok p n t -> few n -> amounts t f ->
  let '(t', r) := t_add_amount w a t in
  same_but_amounts t t' /\
  if f w + a <? 2 ^ 256 then r = Ok tt /\ amounts t' (upd f w (f w + a)) else r = Panic /\ t' = t.
Proof. intros ok p n t f w a Hr Hn Hf. apply add_amount_eff; [apply (reachable_ledgers _ _ _ _ Hr Hn)|exact Hf]. Qed.
(*@T C41: [set_amount] sets. *)
Lemma p_C41_set_amount : forall ok p n t f w a, reachable ok p n t -> few n -> u256_ok a -> amounts t f ->
  let '(t', r) := t_set_amount w a t in same_but_amounts t t' /\ r = Ok tt /\ amounts t' (upd f w a).
Proof. intros ok p n t f w a Hr Hn Ha Hf. apply set_amount_eff; [apply (reachable_ledgers _ _ _ _ Hr Hn)|exact Ha|exact Hf]. Qed.
(*@T C41: [sub_amount] subtracts, or panics without effect when the balance is too small. *)
Lemma p_C41_sub_amount : forall ok p n t f w a, reachable ok p n t -> few n -> amounts t f ->
  let '(t', r) := t_sub_amount w a t in
  same_but_amounts t t' /\
  if a <=? f w then r = Ok tt /\ amounts t' (upd f w (f w - a)) else r = Panic /\ t' = t.
Proof. intros ok p n t f w a Hr Hn Hf. apply sub_amount_eff; [apply (reachable_ledgers _ _ _ _ Hr Hn)|exact Hf]. Qed.
(*@T C41: [send_amount] moves, or panics without effect; to oneself it does nothing. *)
Lemma p_C41_send_amount : forall ok p n t f x y a, reachable ok p n t -> few n -> amounts t f ->
  let '(t', r) := t_send_amount x y a t in
  same_but_amounts t t' /\
  if bytes_eqb x y then r = Ok tt /\ t' = t
  else if (a <=? f x) && (f y + a <? 2 ^ 256) then r = Ok tt /\ amounts t' (moved f x y a) else r = Panic /\ t' = t.
Proof. intros ok p n t f x y a Hr Hn Hf. apply send_amount_eff; [apply (reachable_ledgers _ _ _ _ Hr Hn)|exact Hf]. Qed.

Lemma amounts_same t t' f : t_summary t' = t_summary t -> amounts t f -> amounts t' f.
Proof. intros E H w. unfold t_get_amount. rewrite E. apply H. Qed.
Lemma gases_same t t' f : t_gas t' = t_gas t -> gases t f -> gases t' f.
Proof. intros E H w. unfold t_get_gas. rewrite E. apply H. Qed.
Lemma amounts_ext t f g : (forall w, f w = g w) -> amounts t f -> amounts t g.
Proof. intros E H w. rewrite <- E. apply H. Qed.
Lemma gases_ext t f g : (forall w, f w = g w) -> gases t f -> gases t g.
Proof. intros E H w. rewrite <- E. apply H. Qed.

Lemma step_amounts p t o f : led_ok (t_summary t) -> op_wf o -> amount_call o = true ->
  amounts t f -> amounts (fst (step p t o)) (amount_after f o).
Proof.
  intros H Hwf Hc Hf. destruct o; try discriminate Hc; cbn [step ret_unit ret_block fst amount_after].
  - pose proof (add_amount_eff owner a t f H Hf) as S. destruct (t_add_amount owner a t) as [t' r]. destruct S as [_ S].
    destruct (f owner + a <? 2 ^ 256); [apply S|]. destruct S as [_ ->]. exact Hf.
  - pose proof (set_amount_eff owner a t f H (proj2 Hwf) Hf) as S. destruct (t_set_amount owner a t) as [t' r]. apply S.
  - pose proof (sub_amount_eff owner a t f H Hf) as S. destruct (t_sub_amount owner a t) as [t' r]. destruct S as [_ S].
    destruct (a <=? f owner); [apply S|]. destruct S as [_ ->]. exact Hf.
  - pose proof (send_amount_eff from to a t f H Hf) as S. destruct (t_send_amount from to a t) as [t' r]. destruct S as [_ S].
    destruct (bytes_eqb from to) eqn:Eft.
    + destruct S as [_ ->]. unfold moved. rewrite Eft. cbn [fst]. destruct (_ && _); exact Hf.
    + destruct (_ && _); [apply S|]. destruct S as [_ ->]. exact Hf.
  - unfold t_add_gas, t_on_gas. destruct (led_add owner a (t_gas t)). exact Hf.
  - unfold t_sub_gas, t_on_gas. destruct (led_sub owner a (t_gas t)). exact Hf.
  - unfold t_send_gas, t_on_gas. destruct (led_send from to a (t_gas t)). exact Hf.
  - eapply amounts_same; [apply emit_deriv_ledgers|exact Hf].
  - pose proof (get_deriv_ledgers owner t) as E. destruct (t_get_derivative_chain owner t) as [t' r].
    eapply amounts_same; [apply E|exact Hf].
  - eapply amounts_same; [apply add_new_block_ledgers|exact Hf].
  - exact Hf.
  - destruct (assoc_get owner (t_derivs t)); [|exact Hf]. destruct (dc_add_block i d). exact Hf.
  - exact Hf.
  - exact Hf.
  - destruct (assoc_get owner (t_derivs t)); [|exact Hf]. exact Hf.
Qed.
Lemma step_gases p t o f L : tree_inv t L -> N.of_nat (length L) + 1 < 2 ^ 256 -> led_ok (t_gas t) -> op_wf o -> gas_call o = true ->
  gases t f -> gases (fst (step p t o)) (gas_after f o).
Proof.
  intros HL Hlen H Hwf Hc Hf. destruct o; try discriminate Hc; cbn [step ret_unit ret_block fst gas_after].
  - unfold t_add_amount, t_on_summary. destruct (led_add owner a (t_summary t)). exact Hf.
  - exact Hf.
  - unfold t_sub_amount, t_on_summary. destruct (led_sub owner a (t_summary t)). exact Hf.
  - unfold t_send_amount, t_on_summary. destruct (bytes_eqb from to); [exact Hf|]. destruct (led_send from to a (t_summary t)). exact Hf.
  - pose proof (add_gas_eff owner a t f H Hf) as S. destruct (t_add_gas owner a t) as [t' r]. destruct S as [_ S].
    destruct (f owner + a <? 2 ^ 256); [apply S|]. destruct S as [_ ->]. exact Hf.
  - pose proof (sub_gas_eff owner a t f H Hf) as S. destruct (t_sub_gas owner a t) as [t' r]. destruct S as [_ S].
    destruct (a <=? f owner); [apply S|]. destruct S as [_ ->]. exact Hf.
  - pose proof (send_gas_eff from to a t f H Hf) as S. destruct (t_send_gas from to a t) as [t' r]. destruct S as [_ S].
    destruct (_ && _); [apply S|]. destruct S as [_ ->]. exact Hf.
  - destruct (t_emmit_new_main_block p pow founder txs ts t) as [t' r] eqn:E.
    destruct Hwf as (W1 & W2 & W3 & W4).
    pose proof (emit_main_tree p t L _ _ _ _ _ _ HL Hlen W1 W2 W3 W4 E) as S. cbn [fst].
    destruct r as [b|e| |]; try (subst t'; exact Hf). destruct S as (_ & _ & _ & _ & _ & _ & _ & _ & ->).
    destruct b; exact Hf.
  - eapply gases_same; [apply emit_deriv_ledgers|exact Hf].
  - pose proof (get_deriv_ledgers owner t) as E. destruct (t_get_derivative_chain owner t) as [t' r].
    eapply gases_same; [apply E|exact Hf].
  - eapply gases_same; [apply add_new_block_ledgers|exact Hf].
  - exact Hf.
  - destruct (assoc_get owner (t_derivs t)); [|exact Hf]. destruct (dc_add_block i d). exact Hf.
  - exact Hf.
  - exact Hf.
  - destruct (assoc_get owner (t_derivs t)); [|exact Hf]. exact Hf.
Qed.

(*@T C41 over histories: whatever amount calls (and calls on other things) are made, in
    whatever order and with whatever outcome, every account reads as in the abstract ledger. *)
Lemma p_C41_amount_history : forall ok p n t f ops, reachable ok p n t -> few (n + length ops) ->
  Forall op_wf ops -> Forall (fun o => amount_call o = true) ops -> amounts t f ->
  amounts (run p t ops) (fold_left amount_after ops f).
Proof.
  intros ok p n t f ops Hr Hn Hwf Hc Hf.
  assert (Hr' : reachable any_op p n t).
  { clear -Hr. induction Hr; [apply reach_open; assumption|apply reach_call; [assumption|assumption|exact I]|eapply reach_reopen; eassumption]. }
  clear Hr. revert n t f Hr' Hn Hf. induction ops as [|o ops IH]; intros n t f Hr Hn Hf; [exact Hf|].
  apply Forall_cons_iff in Hwf as [W1 W2]. apply Forall_cons_iff in Hc as [C1 C2].
  cbn [run fold_left length] in *. fold (run p (fst (step p t o)) ops). apply (IH W2 C2 (S n)).
  - apply reach_call; [exact Hr|exact W1|exact I].
  - unfold few in *. lia.
  - apply step_amounts; try assumption. apply (reachable_ledgers _ _ _ _ Hr). unfold few in *. lia.
Qed.
(*@T C41 for gas. *)
Lemma p_C41_gas_history : forall ok p n t f ops, reachable ok p n t -> few (n + length ops) ->
  Forall op_wf ops -> Forall (fun o => gas_call o = true) ops -> gases t f ->
  gases (run p t ops) (fold_left gas_after ops f).
Proof.
  intros ok p n t f ops Hr Hn Hwf Hc Hf.
  assert (Hr' : reachable any_op p n t).
  { clear -Hr. induction Hr; [apply reach_open; assumption|apply reach_call; [assumption|assumption|exact I]|eapply reach_reopen; eassumption]. }
  clear Hr. revert n t f Hr' Hn Hf. induction ops as [|o ops IH]; intros n t f Hr Hn Hf; [exact Hf|].
  apply Forall_cons_iff in Hwf as [W1 W2]. apply Forall_cons_iff in Hc as [C1 C2].
  cbn [run fold_left length] in *. fold (run p (fst (step p t o)) ops). apply (IH W2 C2 (S n)).
  - apply reach_call; [exact Hr|exact W1|exact I].
  - unfold few in *. lia.
  - assert (few n) as Hn' by (unfold few in *; lia). destruct (reachable_inv _ _ _ _ Hr Hn') as (L & HL & Hlen).
    unfold few in *. apply (step_gases p t o f L HL); try assumption; [lia|]. apply (reachable_ledgers _ _ _ _ Hr Hn').
Qed.
(*@E
Example C41_ex : t_get_amount addrA funded = Ok 1000000000 /\ t_get_gas addrA funded = Ok (10 ^ 18) /\
  t_get_amount addrB funded = Ok 0 /\
  t_get_amount ROOT_PUBLIC_ADDRESS funded = Ok COINS_PER_CYCLE /\
  t_get_amount addrB (fst (step Debug funded (OSendAmount addrA addrB 5))) = Ok 5 /\
  snd (step Debug funded (OSendAmount addrA addrB (10 ^ 20))) = Panic /\
  Forall op_wf fund_ops /\ Forall (fun o => amount_call o = true) fund_ops /\ few (length fund_ops).
Proof.
  split; [vm_compute; reflexivity|]. split; [vm_compute; reflexivity|]. split; [vm_compute; reflexivity|].
  split; [vm_compute; reflexivity|]. split; [vm_compute; reflexivity|]. split; [vm_compute; reflexivity|].
  split; [repeat constructor; reflexivity|]. split; [repeat constructor|reflexivity].
Qed.
@*)

(** ** C42 *)

Lemma sum_over_ext f g A : (forall w, In w A -> f w = g w) -> sum_over f A = sum_over g A.
Proof.
  induction A as [|w A IH]; intros H; [reflexivity|]. unfold sum_over in *. cbn [map fold_right].
  rewrite H by (left; reflexivity). rewrite IH; [reflexivity|]. intros w' Hw. apply H. right. exact Hw.
Qed.
Lemma sum_over_upd f k v A : NoDup A -> In k A -> sum_over (upd f k v) A + f k = sum_over f A + v.
Proof.
  induction A as [|w A IH]; intros Hnd Hin; [contradiction|]. apply NoDup_cons_iff in Hnd as [Hw Hnd].
  unfold sum_over in *. cbn [map fold_right]. destruct Hin as [->|Hin].
  - replace (fold_right N.add 0 (map (upd f k v) A)) with (fold_right N.add 0 (map f A)).
    + unfold upd at 1. rewrite bytes_eqb_refl. lia.
    + apply (sum_over_ext f (upd f k v)). intros w' Hw'. unfold upd.
      destruct (bytes_eqb w' k) eqn:E; [apply bytes_eqb_eq in E as ->; contradiction|reflexivity].
  - specialize (IH Hnd Hin). unfold upd at 1. destruct (bytes_eqb w k) eqn:E; [apply bytes_eqb_eq in E as ->; contradiction|]. lia.
Qed.
Lemma sum_over_move f x y a A : NoDup A -> In x A -> In y A -> x <> y -> a <= f x ->
  sum_over (upd (upd f x (f x - a)) y (f y + a)) A = sum_over f A.
Proof.
  intros Hnd Hx Hy Hne Ha. pose proof (sum_over_upd f x (f x - a) A Hnd Hx) as E1.
  pose proof (sum_over_upd (upd f x (f x - a)) y (f y + a) A Hnd Hy) as E2.
  replace (upd f x (f x - a) y) with (f y) in E2; [lia|].
  unfold upd. assert (Hne' : y <> x) by congruence. apply bytes_eqb_neq in Hne' as ->. reflexivity.
Qed.
Lemma sum_over_moved f x y a A : NoDup A -> In x A -> In y A -> a <= f x ->
  sum_over (moved f x y a) A = sum_over f A.
Proof.
  intros Hnd Hx Hy Ha. unfold moved. destruct (bytes_eqb x y) eqn:E; [reflexivity|].
  apply bytes_eqb_neq in E. apply sum_over_move; assumption.
Qed.

(*@T C42: whatever its outcome, [send_amount] keeps the sum over any set of accounts that contains both parties. *)
Lemma p_C42_send_amount_conserves : forall ok p n t f f' x y a A,
  reachable ok p n t -> few n -> amounts t f -> amounts (fst (t_send_amount x y a t)) f' ->
  NoDup A -> In x A -> In y A -> sum_over f' A = sum_over f A.
Proof.
  intros ok p n t f f' x y a A Hr Hn Hf Hf' Hnd Hx Hy. apply reachable_ledgers in Hr as [Hr _ _ _]; [|exact Hn].
  pose proof (send_amount_eff x y a t f Hr Hf) as S. destruct (t_send_amount x y a t) as [t' r]. cbn [fst] in Hf'.
  destruct S as [_ S].
  assert (Huniq : forall g, amounts t' g -> sum_over f' A = sum_over g A).
  { intros g Hg. apply sum_over_ext. intros w _. specialize (Hf' w). specialize (Hg w). congruence. }
  destruct (bytes_eqb x y); [destruct S as [_ ->]; apply Huniq, Hf|].
  destruct (N.leb_spec a (f x)) as [Ha|Ha]; cbn [andb] in S; [|destruct S as [_ ->]; apply Huniq, Hf].
  destruct (f y + a <? 2 ^ 256); [|destruct S as [_ ->]; apply Huniq, Hf].
  destruct S as [_ S]. rewrite (Huniq _ S). apply sum_over_moved; assumption.
Qed.
(*@T C42: a transfer or subtraction above the balance has no effect. *)
Lemma p_C42_overdraft_no_effect : forall ok p n t f x y a,
  reachable ok p n t -> few n -> amounts t f -> f x < a ->
  fst (t_send_amount x y a t) = t /\ fst (t_sub_amount x a t) = t.
Proof.
  intros ok p n t f x y a Hr Hn Hf Ha. apply reachable_ledgers in Hr as [Hr _ _ _]; [|exact Hn].
  pose proof (send_amount_eff x y a t f Hr Hf) as S. destruct (t_send_amount x y a t) as [t' r]. destruct S as [_ S].
  pose proof (sub_amount_eff x a t f Hr Hf) as S'. destruct (t_sub_amount x a t) as [t1 r1]. destruct S' as [_ S'].
  assert (Hl : (a <=? f x) = false) by (apply N.leb_gt; exact Ha). rewrite Hl in *. cbn [andb] in S.
  split; [|apply S']. destruct (bytes_eqb x y); apply S.
Qed.
(*@T C42 over histories of transfers (and calls on other things). *)
Lemma p_C42_transfers_conserve : forall ok p n t f f' ops A, reachable ok p n t -> few (n + length ops) ->
  Forall op_wf ops ->
  Forall (fun o => match o with
    | OSendAmount x y _ => In x A /\ In y A
    | OAddGas _ _ | OSubGas _ _ | OSendGas _ _ _ | OFlush | OAddTxs _ | OAddNewBlock _ _
    | OEmitDeriv _ _ _ | OGetDeriv _ | ODerivAddBlock _ _ | OMainFlush | ODerivFlush _ => True
    | _ => False end) ops ->
  NoDup A -> amounts t f -> amounts (run p t ops) f' -> sum_over f' A = sum_over f A.
Proof.
  intros ok p n t f f' ops A Hr Hn Hwf Hc Hnd Hf Hf'.
  assert (Hk : Forall (fun o => amount_call o = true) ops) by (revert Hc; apply Forall_impl; intros []; auto; contradiction).
  pose proof (p_C41_amount_history ok p n t f ops Hr Hn Hwf Hk Hf) as Hg.
  assert (E : forall w, f' w = fold_left amount_after ops f w) by (intros w; specialize (Hf' w); specialize (Hg w); congruence).
  rewrite (sum_over_ext f' _ A (fun w _ => E w)). clear Hf Hf' Hg E Hwf Hk Hr Hn.
  revert f. induction Hc as [|o ops Ho _ IH]; intros f; [reflexivity|]. cbn [fold_left]. rewrite IH.
  destruct o; try contradiction; try reflexivity. cbn [amount_after]. destruct Ho as [Hx Hy].
  destruct (N.leb_spec a (f from)); cbn [andb]; [|reflexivity]. destruct (f to + a <? 2 ^ 256); [|reflexivity].
  apply sum_over_moved; assumption.
Qed.
(*@E
Example C42_ex : let t := run Debug funded [OSendAmount addrA addrB 7; OSendAmount addrB addrA 2; OSendAmount addrB addrA 6] in
  t_get_amount addrA t = Ok 999999995 /\ t_get_amount addrB t = Ok 5 /\ NoDup [addrA; addrB].
Proof.
  split; [vm_compute; reflexivity|]. split; [vm_compute; reflexivity|].
  repeat constructor; cbn; intuition discriminate.
Qed.
@*)

(** ** C43 *)

(*@T C43 fails always: every overdraft panics (without any effect) instead of returning [Err]. *)
Lemma p_C43_overdraft_partial : forall ok p n t f g x y a,
  reachable ok p n t -> few n -> amounts t f -> gases t g ->
  (f x < a -> x <> y -> t_send_amount x y a t = (t, Panic)) /\
  (f x < a -> t_sub_amount x a t = (t, Panic)) /\
  (g x < a -> t_send_gas x y a t = (t, Panic)) /\
  (g x < a -> t_sub_gas x a t = (t, Panic)).
Proof.
  intros ok p n t f g x y a Hr Hn Hf Hg. apply reachable_ledgers in Hr as [Hs Hgs _ _]; [|exact Hn].
  split; [|split; [|split]].
  - intros Ha Hne. pose proof (send_amount_eff x y a t f Hs Hf) as S. destruct (t_send_amount x y a t) as [t' r]. destruct S as [_ S].
    apply bytes_eqb_neq in Hne. rewrite Hne in S. apply N.leb_gt in Ha. rewrite Ha in S. destruct S as [-> ->]. reflexivity.
  - intros Ha. pose proof (sub_amount_eff x a t f Hs Hf) as S. destruct (t_sub_amount x a t) as [t' r]. destruct S as [_ S].
    apply N.leb_gt in Ha. rewrite Ha in S. destruct S as [-> ->]. reflexivity.
  - intros Ha. pose proof (send_gas_eff x y a t g Hgs Hg) as S. destruct (t_send_gas x y a t) as [t' r]. destruct S as [_ S].
    apply N.leb_gt in Ha. rewrite Ha in S. destruct S as [-> ->]. reflexivity.
  - intros Ha. pose proof (sub_gas_eff x a t g Hgs Hg) as S. destruct (t_sub_gas x a t) as [t' r]. destruct S as [_ S].
    apply N.leb_gt in Ha. rewrite Ha in S. destruct S as [-> ->]. reflexivity.
Qed.
(*@T ... so C43 is false of the code. *)
Lemma p_C43_overdraft_refuted : forall p, exists t x y a, reachable any_op p 0 t /\
  t_get_amount x t = Ok 0 /\ 0 < a /\
  snd (t_send_amount x y a t) = Panic /\ snd (t_sub_amount x a t) = Panic /\
  snd (t_send_gas x y a t) = Panic /\ snd (t_sub_gas x a t) = Panic.
Proof.
  intros p. exists fresh, addrA, addrB, 1. split; [apply fresh_reachable|]. vm_compute. repeat split.
Qed.
(*@T The transfer to oneself is not checked at all. *)
Lemma p_C43_self_transfer_unchecked : forall t x a, t_send_amount x x a t = (t, Ok tt).
Proof. intros t x a. unfold t_send_amount. rewrite bytes_eqb_refl. reflexivity. Qed.

(** ** C44 *)

(*@T C44 between different parties, whatever the outcome. *)
Lemma p_C44_send_gas_conserves_partial : forall ok p n t f f' x y a A,
  reachable ok p n t -> few n -> gases t f -> gases (fst (t_send_gas x y a t)) f' -> x <> y ->
  NoDup A -> In x A -> In y A -> sum_over f' A = sum_over f A.
Proof.
  intros ok p n t f f' x y a A Hr Hn Hf Hf' Hne Hnd Hx Hy. apply reachable_ledgers in Hr as [_ Hr _ _]; [|exact Hn].
  pose proof (send_gas_eff x y a t f Hr Hf) as S. destruct (t_send_gas x y a t) as [t' r]. cbn [fst] in Hf'.
  destruct S as [_ S].
  assert (Huniq : forall g, gases t' g -> sum_over f' A = sum_over g A).
  { intros g Hg. apply sum_over_ext. intros w _. specialize (Hf' w). specialize (Hg w). congruence. }
  destruct (N.leb_spec a (f x)) as [Ha|Ha]; cbn [andb] in S; [|destruct S as [_ ->]; apply Huniq, Hf].
  destruct (f y + a <? 2 ^ 256); [|destruct S as [_ ->]; apply Huniq, Hf].
  destruct S as [_ S]. rewrite (Huniq _ S). apply sum_over_move; assumption.
Qed.
(*@T C44 is false of the code: sending gas to oneself creates it, for every account and amount within the balance. *)
Lemma p_C44_send_gas_refuted : forall ok p n t f x a,
  reachable ok p n t -> few n -> gases t f -> a <= f x -> f x + a < 2 ^ 256 ->
  snd (t_send_gas x x a t) = Ok tt /\ t_get_gas x (fst (t_send_gas x x a t)) = Ok (f x + a).
Proof.
  intros ok p n t f x a Hr Hn Hf Ha Hb. apply reachable_ledgers in Hr as [_ Hr _ _]; [|exact Hn].
  pose proof (send_gas_eff x x a t f Hr Hf) as S. destruct (t_send_gas x x a t) as [t' r].
  apply N.leb_le in Ha. apply N.ltb_lt in Hb. rewrite Ha, Hb in S. destruct S as (_ & -> & S).
  split; [reflexivity|]. cbn [fst]. rewrite S. unfold upd. rewrite bytes_eqb_refl. reflexivity.
Qed.
(*@E
Example C44_ex : t_get_gas addrA funded = Ok (10 ^ 18) /\
  t_get_gas addrA (fst (t_send_gas addrA addrA (10 ^ 18) funded)) = Ok (2 * 10 ^ 18).
Proof. vm_compute. auto. Qed.
@*)

(** ** Transactions: C45-C48 *)

Lemma tx_store t tx : stores_only (sha256 (tx_dump tx)) (tx_dump tx) t (with_main t (mc_add_transaction tx (t_main t))).
Proof.
  unfold stores_only, mc_get_transaction_raw. cbn [t_main with_main mc_add_transaction mc_txs].
  split; [rewrite sled_get_insert, bytes_eqb_refl; reflexivity|].
  split; [intros h' Hh'; rewrite sled_get_insert; apply bytes_eqb_neq in Hh' as ->; reflexivity|].
  repeat split.
Qed.
Lemma stores_same h d t t1 t2 : stores_only h d t t1 -> t_main t2 = t_main t1 -> t_derivs t2 = t_derivs t1 ->
  t_closed t2 = t_closed t1 -> t_old_summary t2 = t_old_summary t1 -> t_old_gas t2 = t_old_gas t1 -> stores_only h d t t2.
Proof. unfold stores_only. intros H -> -> -> -> ->. exact H. Qed.

Lemma send_tx_cases tx t L f g : tree_inv t L -> N.of_nat (length L) < 2 ^ 256 -> ledgers_ok t ->
  amounts t f -> gases t g -> N.of_nat (tx_get_dump_size tx) < 2 ^ 64 ->
  let s := tx_sender tx in let r := tx_receiver tx in let a := tx_amount tx in
  let gas := gas_for (N.of_nat (tx_get_dump_size tx)) in
  let '(t', o) := t_send_transaction tx t in
  if g s <? gas then t' = t /\ exists e, o = Err e
  else match mc_get_last_block (t_main t) with
  | Ok (Some b) =>
      if fee_after b + a <? 2 ^ 256 then
        if f s <? fee_after b + a then t' = t /\ exists e, o = Err e
        else if bytes_eqb s r || (f r + a <? 2 ^ 256) then
          o = Ok tt /\ amounts t' (moved f s r a) /\ gases t' (upd g s (g s - gas)) /\
          stores_only (sha256 (tx_dump tx)) (tx_dump tx) t t'
        else o = Panic /\ amounts t' f /\ gases t' g /\ stores_only (sha256 (tx_dump tx)) (tx_dump tx) t t'
      else t' = t /\ o = Panic
  | _ => t' = t /\ exists e, o = Err e
  end.
Proof.
  intros HL Hlen [Hs Hg _ _] Hf Hgs Hsz. cbv zeta. unfold t_send_transaction.
  rewrite (Hgs (tx_sender tx)), (Hf (tx_sender tx)). cbn [bind].
  assert (Hm : u256_mul BYTE_GAS_PRICE (N.of_nat (tx_get_dump_size tx)) = Ok (gas_for (N.of_nat (tx_get_dump_size tx)))).
  { unfold u256_mul, gas_for, BYTE_GAS_PRICE. assert (H : 625000000000 * N.of_nat (tx_get_dump_size tx) < 2 ^ 256) by lia.
    apply N.ltb_lt in H. rewrite H. reflexivity. }
  rewrite Hm. cbn [bind]. destruct (g (tx_sender tx) <? gas_for _) eqn:Eg; [eauto|].
  destruct (tree_last t L HL Hlen) as [[_ Hl]|[_ Hl]]; rewrite Hl; cbn [bind unwrap_opt]; [|eauto].
  destruct (tree_last_height t L HL) as [_ Hw]. pose proof (block_info_wf _ Hw) as (_ & _ & _ & _ & [Hdl Hdo] & _).
  destruct (fee_eq (bi_difficulty (get_info (last L genesis)))) as [Hfee _]; [lia|]. rewrite Hfee, clz_spec by exact Hdo. cbn [bind].
  fold (fee_after (last L genesis)). set (fee := fee_after (last L genesis)).
  unfold u256_add. destruct (fee + tx_amount tx <? 2 ^ 256) eqn:Ea; cbn [bind]; [|auto].
  destruct (f (tx_sender tx) <? fee + tx_amount tx) eqn:Eb; cbn [bind]; [eauto|].
  apply N.ltb_ge in Eb. apply N.ltb_ge in Eg.
  set (t1 := with_main t (mc_add_transaction tx (t_main t))).
  pose proof (send_amount_eff (tx_sender tx) (tx_receiver tx) (tx_amount tx) t1 f Hs Hf) as S.
  pose proof (tx_store t tx) as Hst. fold t1 in Hst.
  destruct (t_send_amount _ _ _ t1) as [t2 o2]. destruct S as [S0 S].
  assert (Hg2 : t_gas t2 = t_gas t) by (rewrite S0; reflexivity).
  assert (Hst2 : stores_only (sha256 (tx_dump tx)) (tx_dump tx) t t2).
  { eapply stores_same; [exact Hst|..]; rewrite S0; reflexivity. }
  assert (Hx : (tx_amount tx <=? f (tx_sender tx)) = true) by (apply N.leb_le; lia). rewrite Hx in S. cbn [andb] in S.
  assert (Hok : forall t', amounts t2 (moved f (tx_sender tx) (tx_receiver tx) (tx_amount tx)) ->
    forall o, t_sub_gas (tx_sender tx) (gas_for (N.of_nat (tx_get_dump_size tx))) t2 = (t', o) ->
    o = Ok tt /\ amounts t' (moved f (tx_sender tx) (tx_receiver tx) (tx_amount tx)) /\
    gases t' (upd g (tx_sender tx) (g (tx_sender tx) - gas_for (N.of_nat (tx_get_dump_size tx)))) /\
    stores_only (sha256 (tx_dump tx)) (tx_dump tx) t t').
  { intros t' Ham o E. pose proof (sub_gas_eff (tx_sender tx) (gas_for (N.of_nat (tx_get_dump_size tx))) t2 g) as G.
    rewrite E in G. destruct G as [G0 G]; [rewrite Hg2; exact Hg|eapply gases_same; [exact Hg2|exact Hgs]|].
    apply N.leb_le in Eg. rewrite Eg in G. destruct G as [-> G].
    split; [reflexivity|]. split; [eapply amounts_same; [|exact Ham]; rewrite G0; reflexivity|].
    split; [exact G|]. eapply stores_same; [exact Hst2|..]; rewrite G0; reflexivity. }
  destruct (bytes_eqb (tx_sender tx) (tx_receiver tx)) eqn:Esr; cbn [orb].
  - destruct S as [-> ->]. destruct (t_sub_gas _ _ t1) as [t' o] eqn:E. apply (Hok t'); [|reflexivity].
    unfold moved. rewrite Esr. exact Hf.
  - destruct (f (tx_receiver tx) + tx_amount tx <? 2 ^ 256) eqn:Er.
    + destruct S as [-> S]. destruct (t_sub_gas _ _ t2) as [t' o] eqn:E. apply (Hok t'); [exact S|reflexivity].
    + destruct S as [-> ->]. split; [reflexivity|]. split; [exact Hf|]. split; [exact Hgs|]. exact Hst.
Qed.

(*@T C45: exactly when [send_transaction] succeeds, and all it does then.  The size is the
    predicted one: one byte more than the dump if the amount is 0 (see C13). *)
Lemma p_C45_send_transaction_ok_partial : forall ok p n t f g tx,
  reachable ok p n t -> few n -> tx_wf tx -> N.of_nat (length (tx_dump tx)) < 2 ^ 63 -> amounts t f -> gases t g ->
  let s := tx_sender tx in let r := tx_receiver tx in let a := tx_amount tx in
  let gas := gas_for (N.of_nat (length (tx_dump tx)) + (if a =? 0 then 1 else 0)) in
  let '(t', o) := t_send_transaction tx t in
  (o = Ok tt <-> gas <= g s /\ (exists b, mc_get_last_block (t_main t) = Ok (Some b) /\ fee_after b + a <= f s) /\
                 (s = r \/ f r + a < 2 ^ 256)) /\
  (o = Ok tt -> amounts t' (moved f s r a) /\ gases t' (upd g s (g s - gas)) /\
                stores_only (sha256 (tx_dump tx)) (tx_dump tx) t t').
Proof.
  intros ok p n t f g tx Hr Hn Hwf Hsz Hf Hg. cbv zeta.
  destruct (reachable_inv _ _ _ _ Hr Hn) as (L & HL & Hlen). unfold few in Hn.
  pose proof (reachable_ledgers _ _ _ _ Hr Hn) as Hl.
  pose proof (tx_dump_size tx Hwf) as Hds.
  assert (Hsize : N.of_nat (tx_get_dump_size tx) = N.of_nat (length (tx_dump tx)) + (if tx_amount tx =? 0 then 1 else 0)).
  { rewrite Hds. destruct (tx_amount tx =? 0); lia. }
  pose proof (send_tx_cases tx t L f g HL ltac:(lia) Hl Hf Hg) as S. rewrite Hsize in S.
  specialize (S ltac:(destruct (tx_amount tx =? 0); lia)). cbv zeta in S.
  destruct (p_C41_balances_readable ok p n t Hr Hn) as (f0 & g0 & Hf0 & _ & Hb). 
  assert (Hfb : f (tx_sender tx) < 2 ^ 256).
  { specialize (Hf (tx_sender tx)). specialize (Hf0 (tx_sender tx)). specialize (Hb (tx_sender tx)). rewrite Hf in Hf0. injection Hf0 as ->. apply Hb. }
  set (gas := gas_for _) in *. destruct (t_send_transaction tx t) as [t' o].
  destruct (N.ltb_spec (g (tx_sender tx)) gas) as [Hg1|Hg1].
  { destruct S as [-> (e & ->)]. split; [split; [discriminate|lia]|discriminate]. }
  destruct (mc_get_last_block (t_main t)) as [[b|]|e| |];
    try (destruct S as [-> (e' & ->)]; split; [split; [discriminate|intros (_ & (b & E & _) & _); discriminate]|discriminate]).
  destruct (N.ltb_spec (fee_after b + tx_amount tx) (2 ^ 256)) as [H1|H1].
  2:{ destruct S as [-> ->]. split; [split; [discriminate|intros (_ & (b' & E & H2) & _)]|discriminate]. injection E as <-. lia. }
  destruct (N.ltb_spec (f (tx_sender tx)) (fee_after b + tx_amount tx)) as [H2|H2].
  { destruct S as [-> (e & ->)]. split; [split; [discriminate|intros (_ & (b' & E & H3) & _)]|discriminate]. injection E as <-. lia. }
  destruct (bytes_eqb (tx_sender tx) (tx_receiver tx)) eqn:Esr; cbn [orb] in S.
  - apply bytes_eqb_eq in Esr. destruct S as (-> & S). split; [|intros _; exact S].
    split; [intros _|reflexivity]. split; [exact Hg1|]. split; [eauto|left; exact Esr].
  - apply bytes_eqb_neq in Esr. destruct (N.ltb_spec (f (tx_receiver tx) + tx_amount tx) (2 ^ 256)) as [H3|H3].
    + destruct S as (-> & S). split; [|intros _; exact S]. split; [intros _|reflexivity]. split; [exact Hg1|]. split; [eauto|right; exact H3].
    + destruct S as (-> & S). split; [|discriminate]. split; [discriminate|]. intros (_ & _ & [E|E]); [contradiction|lia].
Qed.
(*@T C45: an error leaves the tree as it was. *)
Lemma p_C45_send_transaction_err : forall ok p n t tx e,
  reachable ok p n t -> few n -> tx_wf tx -> N.of_nat (length (tx_dump tx)) < 2 ^ 63 ->
  snd (t_send_transaction tx t) = Err e -> fst (t_send_transaction tx t) = t.
Proof.
  intros ok p n t tx e Hr Hn Hwf Hsz E. destruct (p_C41_balances_readable ok p n t Hr Hn) as (f & g & Hf & Hg & _).
  destruct (reachable_inv _ _ _ _ Hr Hn) as (L & HL & Hlen). unfold few in Hn.
  pose proof (reachable_ledgers _ _ _ _ Hr Hn) as Hl. pose proof (tx_dump_size tx Hwf) as Hds.
  pose proof (send_tx_cases tx t L f g HL ltac:(lia) Hl Hf Hg) as S.
  specialize (S ltac:(rewrite Hds; destruct (tx_amount tx =? 0); lia)). cbv zeta in S.
  destruct (t_send_transaction tx t) as [t' o]. cbn [fst snd] in *. subst o.
  destruct (_ <? _); [apply S|]. destruct (mc_get_last_block (t_main t)) as [[b|]|e'| |]; try apply S.
  destruct (_ <? _); [|apply S]. destruct (_ <? _); [apply S|]. destruct (_ || _); destruct S as [S _]; discriminate.
Qed.
(*@T C45: it never returns an error half way, but it can panic half way, when the receiver's
    balance would exceed 256 bits: the transaction is then stored though no funds moved. *)
Lemma p_C45_send_transaction_panics : forall ok p n t f g tx,
  reachable ok p n t -> few n -> tx_wf tx -> N.of_nat (length (tx_dump tx)) < 2 ^ 63 -> amounts t f -> gases t g ->
  let '(t', o) := t_send_transaction tx t in
  o <> UB /\
  (o = Panic -> amounts t' f /\ gases t' g /\
     exists b, mc_get_last_block (t_main t) = Ok (Some b) /\
       (2 ^ 256 <= fee_after b + tx_amount tx /\ t' = t \/
        2 ^ 256 <= f (tx_receiver tx) + tx_amount tx /\ tx_sender tx <> tx_receiver tx /\
          stores_only (sha256 (tx_dump tx)) (tx_dump tx) t t')).
Proof.
  intros ok p n t f g tx Hr Hn Hwf Hsz Hf Hg.
  destruct (reachable_inv _ _ _ _ Hr Hn) as (L & HL & Hlen). unfold few in Hn.
  pose proof (reachable_ledgers _ _ _ _ Hr Hn) as Hl. pose proof (tx_dump_size tx Hwf) as Hds.
  pose proof (send_tx_cases tx t L f g HL ltac:(lia) Hl Hf Hg) as S.
  specialize (S ltac:(rewrite Hds; destruct (tx_amount tx =? 0); lia)). cbv zeta in S.
  destruct (t_send_transaction tx t) as [t' o].
  assert (Herr : t' = t /\ (exists e, o = Err e) -> forall P : Prop, o <> UB /\ (o = Panic -> P)).
  { intros [_ (e & ->)] P. split; discriminate. }
  destruct (_ <? _); [apply Herr, S|]. destruct (mc_get_last_block (t_main t)) as [[b|]|e'| |]; try (apply Herr, S).
  destruct (N.ltb_spec (fee_after b + tx_amount tx) (2 ^ 256)) as [H1|H1].
  2:{ destruct S as [-> ->]. split; [discriminate|]. intros _. split; [exact Hf|]. split; [exact Hg|]. exists b. auto. }
  destruct (_ <? _); [apply Herr, S|].
  destruct (bytes_eqb (tx_sender tx) (tx_receiver tx)) eqn:Esr; cbn [orb] in S; [destruct S as [-> _]; split; discriminate|].
  destruct (N.ltb_spec (f (tx_receiver tx) + tx_amount tx) (2 ^ 256)) as [H2|H2]; [destruct S as [-> _]; split; discriminate|].
  destruct S as (-> & S1 & S2 & S3). split; [discriminate|]. intros _. split; [exact S1|]. split; [exact S2|].
  exists b. split; [reflexivity|]. right. apply bytes_eqb_neq in Esr. auto.
Qed.

Lemma run_reachable ok p n t ops : reachable ok p n t -> Forall op_wf ops -> Forall ok ops -> reachable ok p (n + length ops) (run p t ops).
Proof.
  revert n t. induction ops as [|o ops IH]; intros n t Hr Hw Ho; cbn [run fold_left length]; [rewrite Nat.add_0_r; exact Hr|].
  apply Forall_cons_iff in Hw as [W1 W2]. apply Forall_cons_iff in Ho as [O1 O2].
  rewrite <- plus_n_Sm. apply (IH (S n)); try assumption. apply reach_call; assumption.
Qed.
Lemma funded_run p : funded = run p fresh fund_ops.
Proof. destruct p; reflexivity. Qed.
Lemma funded_reachable p : reachable any_op p 2 funded.
Proof.
  rewrite (funded_run p). apply (run_reachable any_op p 0 fresh fund_ops).
  - apply fresh_reachable.
  - repeat constructor; reflexivity.
  - repeat constructor.
Qed.
Lemma funded_big_reachable p a : u256_ok a -> reachable any_op p 3 (fst (step p funded (OSetAmount addrB a))).
Proof. intros Ha. apply reach_call; [apply funded_reachable|split; [repeat constructor; reflexivity|exact Ha]|exact I]. Qed.

(*@T C45 is false of the code in two ways: a zero-amount transaction pays for one byte more than its dump ... *)
Lemma p_C45_gas_refuted : forall p, exists t tx, reachable any_op p 2 t /\ tx_wf tx /\
  snd (t_send_transaction tx t) = Ok tt /\
  t_get_gas (tx_sender tx) t = Ok (10 ^ 18) /\
  t_get_gas (tx_sender tx) (fst (t_send_transaction tx t)) =
    Ok (10 ^ 18 - 625000000000 * (N.of_nat (length (tx_dump tx)) + 1)).
Proof.
  intros p. exists funded, (demo_tx 0 (repeat 7 64)). split; [apply funded_reachable|].
  split; [repeat split; try reflexivity; repeat constructor; reflexivity|].
  split; [vm_compute; reflexivity|]. split; [vm_compute; reflexivity|]. vm_compute. reflexivity.
Qed.
(*@T ... and a transaction can be stored although the call failed (by panicking) and nothing moved. *)
Lemma p_C45_atomic_refuted : forall p, exists t tx, reachable any_op p 3 t /\ tx_wf tx /\
  snd (t_send_transaction tx t) = Panic /\
  mc_transaction_exists (tx_hash tx) (t_main t) = false /\
  mc_transaction_exists (tx_hash tx) (t_main (fst (t_send_transaction tx t))) = true.
Proof.
  intros p. exists (fst (step p funded (OSetAmount addrB (2 ^ 256 - 1)))), (demo_tx 1000 (repeat 7 64)).
  split; [apply funded_big_reachable; reflexivity|].
  split; [repeat split; try reflexivity; repeat constructor; reflexivity|].
  split; [vm_compute; reflexivity|]. split; vm_compute; reflexivity.
Qed.
(*@E
Example C45_ex : let t := fst (t_send_transaction (demo_tx 1000 (repeat 7 64)) funded) in
  snd (t_send_transaction (demo_tx 1000 (repeat 7 64)) funded) = Ok tt /\
  t_get_amount addrA t = Ok 999999000 /\ t_get_amount addrB t = Ok 1000 /\
  mc_transaction_exists (tx_hash (demo_tx 1000 (repeat 7 64))) (t_main t) = true /\
  N.of_nat (length (tx_dump (demo_tx 1000 (repeat 7 64)))) < 2 ^ 63 /\
  (exists e, snd (t_send_transaction (demo_tx (10 ^ 10) (repeat 7 64)) funded) = Err e).
Proof.
  split; [vm_compute; reflexivity|]. split; [vm_compute; reflexivity|]. split; [vm_compute; reflexivity|].
  split; [vm_compute; reflexivity|]. split; [vm_compute; reflexivity|]. eexists. vm_compute. reflexivity.
Qed.
@*)

Lemma demo_wf a sig : u256_ok a -> is_array 64 sig -> tx_wf (demo_tx a sig).
Proof. intros Ha Hs. repeat split; try reflexivity; try (repeat constructor; reflexivity); try apply Hs. exact Ha. Qed.

(*@T C46: the verdict and the balances after [send_transaction] do not depend on the signature at all. *)
Lemma p_C46_signature_ignored : forall ok p n t f g tx sig, reachable ok p n t -> few n -> tx_wf tx -> is_array 64 sig ->
  N.of_nat (length (tx_dump tx)) < 2 ^ 63 -> amounts t f -> gases t g ->
  let tx' := tx_new_signed (tx_sender tx) (tx_receiver tx) (tx_timestamp tx) (tx_amount tx) (tx_data tx) sig in
  (snd (t_send_transaction tx t) = Ok tt <-> snd (t_send_transaction tx' t) = Ok tt) /\
  (snd (t_send_transaction tx t) = Ok tt ->
   forall w, t_get_amount w (fst (t_send_transaction tx' t)) = t_get_amount w (fst (t_send_transaction tx t)) /\
             t_get_gas w (fst (t_send_transaction tx' t)) = t_get_gas w (fst (t_send_transaction tx t))).
Proof.
  intros ok p n t f g tx sig Hr Hn Hwf Hs Hsz Hf Hg. cbv zeta. set (tx' := tx_new_signed _ _ _ _ _ _).
  assert (Hwf' : tx_wf tx') by (destruct Hwf as (? & ? & ? & ? & ? & ?); exact (conj H (conj H0 (conj H1 (conj Hs (conj H3 H4)))))).
  assert (Hlen : length (tx_dump tx') = length (tx_dump tx)) by (rewrite !tx_dump_length by assumption; reflexivity).
  pose proof (p_C45_send_transaction_ok_partial ok p n t f g tx Hr Hn Hwf Hsz Hf Hg) as S.
  pose proof (p_C45_send_transaction_ok_partial ok p n t f g tx' Hr Hn Hwf' ltac:(rewrite Hlen; exact Hsz) Hf Hg) as S'.
  cbv zeta in S, S'. change (tx_sender tx') with (tx_sender tx) in S'. change (tx_receiver tx') with (tx_receiver tx) in S'.
  change (tx_amount tx') with (tx_amount tx) in S'. rewrite Hlen in S'.
  destruct (t_send_transaction tx t) as [t1 o1]. destruct (t_send_transaction tx' t) as [t2 o2]. cbn [fst snd].
  destruct S as [S1 S2]. destruct S' as [S1' S2']. split; [rewrite S1, S1'; reflexivity|].
  intros E w. assert (E' : o2 = Ok tt) by (apply S1', S1, E).
  destruct (S2 E) as (A1 & A2 & _). destruct (S2' E') as (B1 & B2 & _). split.
  - rewrite (A1 w), (B1 w). reflexivity.
  - rewrite (A2 w), (B2 w). reflexivity.
Qed.
(*@T C46 is false of the code: for every signature scheme, a transaction that does not verify moves funds. *)
Lemma p_C46_authorised_refuted : forall p (E : ecdsa) sig, is_array 64 sig ->
  tx_verify E (demo_tx 1000 sig) <> Ok true ->
  exists t tx, reachable any_op p 2 t /\ tx_wf tx /\ tx_verify E tx <> Ok true /\
    snd (t_send_transaction tx t) = Ok tt /\
    t_get_amount (tx_sender tx) t = Ok 1000000000 /\
    t_get_amount (tx_sender tx) (fst (t_send_transaction tx t)) = Ok 999999000.
Proof.
  intros p E sig Hs Hv. exists funded, (demo_tx 1000 sig). split; [apply funded_reachable|].
  assert (Hwf : tx_wf (demo_tx 1000 sig)) by (apply demo_wf; [reflexivity|exact Hs]).
  split; [exact Hwf|]. split; [exact Hv|].
  destruct (p_C41_balances_readable any_op p 2 funded (funded_reachable p) ltac:(reflexivity)) as (f & g & Hf & Hg & Hb).
  assert (Hlen : length (tx_dump (demo_tx 1000 sig)) = 142%nat) by (rewrite tx_dump_length by exact Hwf; reflexivity).
  pose proof (p_C45_send_transaction_ok_partial any_op p 2 funded f g (demo_tx 1000 sig) (funded_reachable p) ltac:(reflexivity) Hwf
    ltac:(rewrite Hlen; reflexivity) Hf Hg) as S. cbv zeta in S. rewrite Hlen in S.
  change (tx_sender (demo_tx 1000 sig)) with addrA in *. change (tx_receiver (demo_tx 1000 sig)) with addrB in *.
  change (tx_amount (demo_tx 1000 sig)) with 1000 in *.
  assert (Fa : f addrA = 1000000000) by (pose proof (Hf addrA) as X; assert (Y : t_get_amount addrA funded = Ok 1000000000) by (vm_compute; reflexivity); rewrite Y in X; injection X as <-; reflexivity).
  assert (Fb : f addrB = 0) by (pose proof (Hf addrB) as X; assert (Y : t_get_amount addrB funded = Ok 0) by (vm_compute; reflexivity); rewrite Y in X; injection X as <-; reflexivity).
  assert (Ga : g addrA = 10 ^ 18) by (pose proof (Hg addrA) as X; assert (Y : t_get_gas addrA funded = Ok (10 ^ 18)) by (vm_compute; reflexivity); rewrite Y in X; injection X as <-; reflexivity).
  destruct (t_send_transaction (demo_tx 1000 sig) funded) as [t' o]. cbn [fst snd].
  destruct S as [S1 S2]. assert (Eo : o = Ok tt).
  { apply S1. rewrite Fa, Fb, Ga. split; [vm_compute; discriminate|]. split; [|right; reflexivity].
    exists (last_of funded). split; [vm_compute; reflexivity|]. vm_compute. discriminate. }
  split; [exact Eo|]. split; [rewrite Hf, Fa; reflexivity|]. destruct (S2 Eo) as (A & _). rewrite A.
  unfold moved. change (bytes_eqb addrA addrB) with false. unfold upd. change (bytes_eqb addrA addrB) with false.
  change (bytes_eqb addrA addrA) with true. cbv iota. rewrite Fa. reflexivity.
Qed.
(*@E
Example C46_ex : tx_verify toy (demo_tx 1000 (repeat 0 64)) = Ok false /\ is_array 64 (repeat 0 64) /\
  tx_wf (demo_tx 1000 (repeat 0 64)).
Proof.
  split; [vm_compute; reflexivity|]. split; [split; [reflexivity|repeat constructor; reflexivity]|].
  repeat split; try reflexivity; repeat constructor; reflexivity.
Qed.
@*)

(*@T C47, what holds: sending a transaction again stores nothing new. *)
Lemma p_C47_replay_store_partial : forall tx t h,
  snd (t_send_transaction tx t) = Ok tt ->
  let t' := fst (t_send_transaction tx t) in
  mc_get_transaction_raw h (t_main (fst (t_send_transaction tx t'))) = mc_get_transaction_raw h (t_main t').
Proof.
  intros tx t h E. cbv zeta.
  assert (Hst : forall u, snd (t_send_transaction tx u) = Ok tt ->
    mc_get_transaction_raw (sha256 (tx_dump tx)) (t_main (fst (t_send_transaction tx u))) = Some (tx_dump tx)).
  { intros u Hu. unfold t_send_transaction in *.
    match goal with |- context [match ?x with Ok _ => _ | Err _ => _ | Panic => _ | UB => _ end] => destruct x as [g|e| |] end;
      try discriminate Hu.
    set (t1 := with_main u _) in *. pose proof (send_amount_main (tx_sender tx) (tx_receiver tx) (tx_amount tx) t1) as H.
    destruct (t_send_amount _ _ _ t1) as [t2 r]. cbn [fst] in H.
    assert (H1 : mc_get_transaction_raw (sha256 (tx_dump tx)) (t_main t2) = Some (tx_dump tx)).
    { rewrite H. unfold t1, mc_get_transaction_raw. cbn [t_main with_main mc_add_transaction mc_txs]. rewrite sled_get_insert, bytes_eqb_refl. reflexivity. }
    destruct r as [v|e| |]; try discriminate Hu. unfold t_sub_gas. rewrite on_gas_main. exact H1. }
  specialize (Hst t E). set (t' := fst (t_send_transaction tx t)) in *.
  destruct (send_tx_main tx t') as [-> | ->]; [reflexivity|].
  unfold mc_get_transaction_raw in *. cbn [mc_add_transaction mc_txs]. rewrite sled_get_insert.
  destruct (bytes_eqb h (sha256 (tx_dump tx))) eqn:Eh; [|reflexivity]. apply bytes_eqb_eq in Eh as ->. symmetry. exact Hst.
Qed.
(*@T C47 is false of the code: any accepted transaction can be replayed as long as funds last, and moves them again. *)
Lemma p_C47_replay_refuted : forall ok p n t f g tx b,
  reachable ok p n t -> few (S n) -> tx_wf tx -> N.of_nat (length (tx_dump tx)) < 2 ^ 63 -> amounts t f -> gases t g ->
  let s := tx_sender tx in let r := tx_receiver tx in let a := tx_amount tx in
  s <> r -> mc_get_last_block (t_main t) = Ok (Some b) ->
  2 * gas_for (N.of_nat (length (tx_dump tx)) + 1) <= g s -> fee_after b + 2 * a <= f s -> f r + 2 * a < 2 ^ 256 ->
  let t1 := fst (t_send_transaction tx t) in let t2 := fst (t_send_transaction tx t1) in
  snd (t_send_transaction tx t) = Ok tt /\ snd (t_send_transaction tx t1) = Ok tt /\
  t_get_amount s t2 = Ok (f s - 2 * a) /\ t_get_amount r t2 = Ok (f r + 2 * a).
Proof.
  intros ok p n t f g tx b Hr Hn Hwf Hsz Hf Hg. cbv zeta. intros Hne Hl Hgas Hfee Hfit.
  assert (Hn0 : few n) by (unfold few in *; lia).
  pose proof (p_C45_send_transaction_ok_partial ok p n t f g tx Hr Hn0 Hwf Hsz Hf Hg) as S. cbv zeta in S.
  set (gas := gas_for (N.of_nat (length (tx_dump tx)) + (if tx_amount tx =? 0 then 1 else 0))) in S.
  assert (Hgas' : 2 * gas <= g (tx_sender tx)) by (unfold gas, gas_for in *; destruct (tx_amount tx =? 0); lia).
  assert (Hr1 : reachable any_op p (Datatypes.S n) (fst (step p t (OSendTx tx)))).
  { apply reach_call; [|exact Hwf|exact I]. clear -Hr. induction Hr; [apply reach_open; assumption|apply reach_call; [assumption|assumption|exact I]|eapply reach_reopen; eassumption]. }
  cbn [step ret_unit fst] in Hr1.
  destruct (t_send_transaction tx t) as [t1 o1] eqn:E1. cbn [fst snd] in *. destruct S as [S1 S2].
  assert (Eo : o1 = Ok tt) by (apply S1; split; [lia|]; split; [exists b; split; [exact Hl|lia]|right; lia]).
  split; [exact Eo|]. destruct (S2 Eo) as (A1 & A2 & A3).
  apply bytes_eqb_neq in Hne as Hneb. assert (Hne' : tx_receiver tx <> tx_sender tx) by congruence. apply bytes_eqb_neq in Hne' as Hneb'.
  pose proof (p_C45_send_transaction_ok_partial any_op p (Datatypes.S n) t1 _ _ tx Hr1 Hn Hwf Hsz A1 A2) as S'. cbv zeta in S'. fold gas in S'.
  destruct (t_send_transaction tx t1) as [t2 o2]. cbn [fst snd]. destruct S' as [S1' S2'].
  unfold moved in S1', S2'. rewrite Hneb in S1', S2'. unfold upd in S1', S2'. rewrite !bytes_eqb_refl, ?Hneb, ?Hneb' in S1', S2'.
  assert (Hl1 : mc_get_last_block (t_main t1) = Ok (Some b)).
  { destruct A3 as (_ & _ & H1 & H2 & _). unfold mc_get_last_block, mc_get_last_raw_block in *. unfold mc_get_height in H1. rewrite H1.
    destruct (u256_sub (mc_height (t_main t)) 1); cbn [bind] in *; try exact Hl. rewrite H2. exact Hl. }
  assert (Eo2 : o2 = Ok tt).
  { apply S1'. split; [lia|]. split; [exists b; split; [exact Hl1|lia]|right; lia]. }
  split; [exact Eo2|]. destruct (S2' Eo2) as (B1 & _). rewrite (B1 (tx_sender tx)), (B1 (tx_receiver tx)).
  rewrite ?bytes_eqb_refl, ?Hneb, ?Hneb'. split; f_equal; lia.
Qed.
(*@E
Example C47_ex : exists b, mc_get_last_block (t_main funded) = Ok (Some b) /\
  let tx := demo_tx 1000 (repeat 7 64) in
  tx_sender tx <> tx_receiver tx /\ 2 * gas_for (N.of_nat (length (tx_dump tx)) + 1) <= 10 ^ 18 /\
  fee_after b + 2 * 1000 <= 1000000000.
Proof.
  eexists. split; [vm_compute; reflexivity|]. split; [discriminate|]. split; vm_compute; discriminate.
Qed.
@*)

(*@T C48, what holds: amount plus fee must be covered ... *)
Lemma p_C48_fee_covered_partial : forall ok p n t f tx,
  reachable ok p n t -> few n -> tx_wf tx -> N.of_nat (length (tx_dump tx)) < 2 ^ 63 -> amounts t f ->
  snd (t_send_transaction tx t) = Ok tt ->
  exists b, mc_get_last_block (t_main t) = Ok (Some b) /\ fee_after b + tx_amount tx <= f (tx_sender tx).
Proof.
  intros ok p n t f tx Hr Hn Hwf Hsz Hf E.
  destruct (p_C41_balances_readable ok p n t Hr Hn) as (f0 & g & _ & Hg & _).
  pose proof (p_C45_send_transaction_ok_partial ok p n t f g tx Hr Hn Hwf Hsz Hf Hg) as S. cbv zeta in S.
  destruct (t_send_transaction tx t) as [t' o]. cbn [snd] in E. destruct S as [S _]. apply S in E as (_ & H & _). exact H.
Qed.
(*@T ... but C48 is false: the sender never pays the fee, whichever transaction is accepted. *)
Lemma p_C48_fee_refuted : forall ok p n t f tx,
  reachable ok p n t -> few n -> tx_wf tx -> N.of_nat (length (tx_dump tx)) < 2 ^ 63 -> amounts t f ->
  snd (t_send_transaction tx t) = Ok tt -> tx_sender tx <> tx_receiver tx ->
  t_get_amount (tx_sender tx) (fst (t_send_transaction tx t)) = Ok (f (tx_sender tx) - tx_amount tx).
Proof.
  intros ok p n t f tx Hr Hn Hwf Hsz Hf E Hne.
  destruct (p_C41_balances_readable ok p n t Hr Hn) as (f0 & g & _ & Hg & _).
  pose proof (p_C45_send_transaction_ok_partial ok p n t f g tx Hr Hn Hwf Hsz Hf Hg) as S. cbv zeta in S.
  destruct (t_send_transaction tx t) as [t' o]. cbn [fst snd] in *. destruct S as [_ S]. destruct (S E) as (A & _).
  rewrite A. unfold moved. apply bytes_eqb_neq in Hne as Hneb. rewrite Hneb. unfold upd. rewrite Hneb, bytes_eqb_refl. reflexivity.
Qed.
(*@E
Example C48_ex : fee_after (last_of funded) = 62500 /\
  t_get_amount addrA (fst (t_send_transaction (demo_tx 1000 (repeat 7 64)) funded)) = Ok (1000000000 - 1000).
Proof. split; vm_compute; reflexivity. Qed.
@*)
