(** Lemmas about threads on a shared tree. *)
From Coq Require Import Lia ZifyBool ZifyNat ZifyN Permutation.
From Verif Require Import Base Sha256 Tools Transaction Block Sled Chain Tree Spec Reach LedgerSpec Conc ConcTree ConcSpec SummaryDb.
From Verif Require Import BaseFacts ToolsFacts SledFacts ChainFacts LedgerFacts.

Local Strategy 1000 [u256_mul u256_add u256_sub BYTE_GAS_PRICE t_get_amount t_get_gas mc_decode recalculate_fee t_send_amount t_sub_gas lcall_run sled_get].

(** ** Executions *)
Lemma exec_snoc {S T} (step : S -> T -> option (S * T)) sch k st : exec step (sch ++ [k]) st = sched_step step (exec step sch st) k.
Proof. unfold exec. rewrite fold_left_app. reflexivity. Qed.
Lemma exec_app {S T} (step : S -> T -> option (S * T)) a b st : exec step (a ++ b) st = exec step b (exec step a st).
Proof. unfold exec. apply fold_left_app. Qed.

(** An invariant of single steps is an invariant of executions. *)
Lemma exec_ind {S T} (step : S -> T -> option (S * T)) (I : S -> list T -> Prop) :
  (forall s ts k th s' th', I s ts -> nth_error ts k = Some th -> step s th = Some (s', th') -> I s' (replace ts k th')) ->
  forall sch s ts, I s ts -> let '(s', ts') := exec step sch (s, ts) in I s' ts'.
Proof.
  intros H sch s ts H0. induction sch as [|k sch IH] using rev_ind; [exact H0|].
  rewrite exec_snoc. destruct (exec step sch (s, ts)) as [s1 ts1]. cbn [sched_step].
  destruct (nth_error ts1 k) as [th|] eqn:E; [|exact IH]. destruct (step s1 th) as [[s2 th2]|] eqn:Es; [|exact IH]. eapply H; eassumption.
Qed.
Lemma replace_same {A} (l : list A) k x y : nth_error l k = Some x -> nth_error (replace l k y) k = Some y.
Proof. intros H. rewrite nth_error_replace, Nat.eqb_refl. assert (k < length l)%nat by (apply nth_error_Some; congruence). destruct (Nat.ltb_spec k (length l)); [reflexivity|lia]. Qed.
Lemma replace_other {A} (l : list A) k y i : k <> i -> nth_error (replace l k y) i = nth_error l i.
Proof. intros H. rewrite nth_error_replace. destruct (Nat.eqb_spec k i); [contradiction|reflexivity]. Qed.

Lemma nth_error_all {A} (l l' : list A) : (forall i, nth_error l i = nth_error l' i) -> l = l'.
Proof.
  revert l'. induction l as [|x l IH]; intros [|y l'] H; [reflexivity|specialize (H 0%nat); discriminate H|specialize (H 0%nat); discriminate H|].
  f_equal; [specialize (H 0%nat); cbn in H; congruence|]. apply IH. intros i. exact (H (S i)).
Qed.
Lemma total_replace {A} (f : A -> N) l : forall k x y, nth_error l k = Some x -> total f (replace l k y) + f x = total f l + f y.
Proof.
  unfold total. induction l as [|a l IH]; intros [|k] x y H; try discriminate H; cbn [nth_error] in H; cbn [replace map fold_right].
  - injection H as ->. lia.
  - specialize (IH k x y H). lia.
Qed.
Lemma total_in {A} (f : A -> N) l x : In x l -> f x <= total f l.
Proof. unfold total. induction l as [|a l IH]; intros []; cbn [map fold_right]; [subst|specialize (IH H)]; lia. Qed.
Lemma flat_map_replace {A B} (f : A -> list B) l : forall k x y, nth_error l k = Some x ->
  Permutation (f x ++ flat_map f (replace l k y)) (f y ++ flat_map f l).
Proof.
  induction l as [|a l IH]; intros [|k] x y H; try discriminate H; cbn [nth_error] in H; cbn [replace flat_map].
  - injection H as ->. apply Permutation_app_swap_app.
  - rewrite Permutation_app_swap_app. rewrite (IH k x y H). apply Permutation_app_swap_app.
Qed.
Lemma in_replace {A} (l : list A) k y z : In z (replace l k y) -> z = y \/ In z l.
Proof.
  intros H. apply In_nth_error in H as (i & H). rewrite nth_error_replace in H. destruct (Nat.eqb k i).
  - destruct (i <? length l)%nat; [|discriminate H]. left. congruence.
  - right. eapply nth_error_In, H.
Qed.

(** ** What one step does to the parts *)
Definition th_call (th : thread) : call :=
  match th with
  | TStart c | TIdx c _ | TGet c _ | TDone c _ => c
  | TGas tx _ | TAmount tx _ _ | TLastIdx tx _ _ _ | TLastGet tx _ _ _ | TStore tx _ | TMove tx _ | TCharge tx _ => CSendTx tx
  | TWrite b | TRef b | TBump b => CAddBlock b
  end.
Lemma next_call c x : (forall th, x = Ok th -> th_call th = c) -> th_call (next c x) = c.
Proof. intros H. destruct x as [th| | |]; cbn [next th_call]; auto. Qed.
Lemma some_inv {A B} (a c : A) (b d : B) : Some (a, b) = Some (c, d) -> a = c /\ b = d.
Proof. intros H. inversion H. auto. Qed.
Lemma ok_inv {A} (a b : A) : Ok a = Ok b -> a = b.
Proof. intros H. inversion H. auto. Qed.
Ltac inv_bind H := repeat match type of H with
  | bind ?x _ = Ok _ => destruct x eqn:?; cbn [bind] in H; [|discriminate H..]
  | (if ?b then _ else _) = Ok _ => destruct b eqn:?; try discriminate H
  end.
Lemma step_call s th s' th' : tree_step s th = Some (s', th') -> th_call th' = th_call th.
Proof.
  intros E. destruct th as [[c|tx|b| |h|h]|tx g|tx g a|tx g a i|tx g a i|tx g|tx g|tx g|b|b|b|c i|c i|c r]; cbn [tree_step] in E.
  - destruct (lcall_run c (sh_tree s)). apply some_inv in E as [_ <-]. reflexivity.
  - apply some_inv in E as [_ <-]. apply next_call. intros th H. inv_bind H. apply ok_inv in H as <-. reflexivity.
  - destruct (sh_locked s); [discriminate E|]. destruct (negb _); apply some_inv in E as [_ <-]; reflexivity.
  - destruct (sh_locked s); [discriminate E|]. apply some_inv in E as [_ <-]. apply next_call. intros th H. inv_bind H. apply ok_inv in H as <-. reflexivity.
  - destruct (sh_locked s); [discriminate E|]. apply some_inv in E as [_ <-]. destruct (_ <? _); reflexivity.
  - apply some_inv in E as [_ <-]. destruct (sled_get _ _); [destruct (Nat.ltb _ _)|]; reflexivity.
  - apply some_inv in E as [_ <-]. apply next_call. intros th H. inv_bind H. apply ok_inv in H as <-. reflexivity.
  - destruct (sh_locked s); [discriminate E|]. apply some_inv in E as [_ <-]. apply next_call. intros th H. inv_bind H. apply ok_inv in H as <-. reflexivity.
  - destruct (sh_locked s); [discriminate E|]. apply some_inv in E as [_ <-]. destruct (_ <? _); reflexivity.
  - apply some_inv in E as [_ <-]. apply next_call. intros th H. inv_bind H. apply ok_inv in H as <-. reflexivity.
  - apply some_inv in E as [_ <-]. reflexivity.
  - destruct (t_send_amount _ _ _ _) as [t' r]. apply some_inv in E as [_ <-]. apply next_call. intros th H. inv_bind H. apply ok_inv in H as <-. reflexivity.
  - destruct (t_sub_gas _ _ _). apply some_inv in E as [_ <-]. reflexivity.
  - apply some_inv in E as [_ <-]. reflexivity.
  - apply some_inv in E as [_ <-]. reflexivity.
  - destruct (u256_add _ _); apply some_inv in E as [_ <-]; reflexivity.
  - destruct (sh_locked s); [discriminate E|]. apply some_inv in E as [_ <-]. destruct (_ <? _); reflexivity.
  - apply some_inv in E as [_ <-]. reflexivity.
  - discriminate E.
Qed.

(** Calls keep their place. *)
Lemma exec_calls sch t calls : map th_call (snd (tree_exec sch t calls)) = calls.
Proof.
  unfold tree_exec. pose proof (exec_ind tree_step (fun _ ts => map th_call ts = calls)) as H.
  assert (Hs : let '(s', ts') := exec tree_step sch (MkShared t false, map TStart calls) in map th_call ts' = calls).
  { apply H.
    - intros s ts k th s' th' HI Hk Es. apply nth_error_all. intros i. rewrite <- HI, !nth_error_map, nth_error_replace.
      destruct (Nat.eqb_spec k i) as [<-|]; [|reflexivity]. assert (k < length ts)%nat by (apply nth_error_Some; congruence).
      destruct (Nat.ltb_spec k (length ts)); [|lia]. rewrite Hk. cbn [option_map]. rewrite (step_call _ _ _ _ Es). reflexivity.
    - rewrite map_map. cbn [th_call]. apply map_id. }
  destruct (exec tree_step sch (MkShared t false, map TStart calls)). exact Hs.
Qed.

(** ** The height lock *)
Definition holds (th : thread) : N := if in_add_block th then 1 else 0.
Definition locked1 (s : shared) : N := if sh_locked s then 1 else 0.
Lemma next_holds c x : (forall th, x = Ok th -> in_add_block th = false) -> holds (next c x) = 0.
Proof. intros H. unfold holds. destruct x as [th| | |]; cbn [next]; [rewrite (H th eq_refl)|..]; reflexivity. Qed.
Lemma step_lock s th s' th' : tree_step s th = Some (s', th') -> (in_add_block th = true -> sh_locked s = true) ->
  locked1 s' + holds th = locked1 s + holds th'.
Proof.
  intros E Hl. destruct th as [[c|tx|b| |h|h]|tx g|tx g a|tx g a i|tx g a i|tx g|tx g|tx g|b|b|b|c i|c i|c r]; cbn [tree_step] in E.
  - destruct (lcall_run c (sh_tree s)). apply some_inv in E as [<- <-]. reflexivity.
  - apply some_inv in E as [<- <-]. rewrite next_holds; [reflexivity|]. intros th H. inv_bind H. apply ok_inv in H as <-. reflexivity.
  - unfold locked1 at 2. destruct (sh_locked s) eqn:El; [discriminate E|]. destruct (negb _); apply some_inv in E as [<- <-]; [unfold locked1; rewrite El|]; reflexivity.
  - destruct (sh_locked s) eqn:El; [discriminate E|]. apply some_inv in E as [<- <-]. rewrite next_holds; [reflexivity|]. intros th H. inv_bind H. apply ok_inv in H as <-. reflexivity.
  - destruct (sh_locked s) eqn:El; [discriminate E|]. apply some_inv in E as [<- <-]. destruct (_ <? _); reflexivity.
  - apply some_inv in E as [<- <-]. destruct (sled_get _ _); [destruct (Nat.ltb _ _)|]; reflexivity.
  - apply some_inv in E as [<- <-]. rewrite next_holds; [reflexivity|]. intros th H. inv_bind H. apply ok_inv in H as <-. reflexivity.
  - destruct (sh_locked s); [discriminate E|]. apply some_inv in E as [<- <-]. rewrite next_holds; [reflexivity|]. intros th H. inv_bind H. apply ok_inv in H as <-. reflexivity.
  - destruct (sh_locked s); [discriminate E|]. apply some_inv in E as [<- <-]. destruct (_ <? _); reflexivity.
  - apply some_inv in E as [<- <-]. rewrite next_holds; [reflexivity|]. intros th H. inv_bind H. apply ok_inv in H as <-. reflexivity.
  - apply some_inv in E as [<- <-]. reflexivity.
  - destruct (t_send_amount _ _ _ _) as [t' r]. apply some_inv in E as [<- <-]. rewrite next_holds; [reflexivity|]. intros th H. inv_bind H. apply ok_inv in H as <-. reflexivity.
  - destruct (t_sub_gas _ _ _). apply some_inv in E as [<- <-]. reflexivity.
  - apply some_inv in E as [<- <-]. reflexivity.
  - apply some_inv in E as [<- <-]. reflexivity.
  - unfold locked1 at 2. rewrite Hl by reflexivity. destruct (u256_add _ _); apply some_inv in E as [<- <-]; reflexivity.
  - destruct (sh_locked s); [discriminate E|]. apply some_inv in E as [<- <-]. destruct (_ <? _); reflexivity.
  - apply some_inv in E as [<- <-]. reflexivity.
  - discriminate E.
Qed.
Definition lock_inv (s : shared) (ts : list thread) : Prop := total holds ts = locked1 s.
Lemma lock_held s ts th : lock_inv s ts -> In th ts -> in_add_block th = true -> sh_locked s = true.
Proof. intros H Hin Hh. pose proof (total_in holds ts th Hin) as Ht. unfold lock_inv, locked1 in H. unfold holds at 1 in Ht. rewrite Hh in Ht. destruct (sh_locked s); [reflexivity|lia]. Qed.
Lemma lock_step s ts k th s' th' : lock_inv s ts -> nth_error ts k = Some th -> tree_step s th = Some (s', th') -> lock_inv s' (replace ts k th').
Proof.
  intros H Hk E. pose proof (step_lock s th s' th' E (lock_held s ts th H (nth_error_In _ _ Hk))) as E1.
  pose proof (total_replace holds ts k th th' Hk) as E2. unfold lock_inv in *. lia.
Qed.
Lemma lock_start t calls : lock_inv (MkShared t false) (map TStart calls).
Proof. unfold lock_inv, total. rewrite map_map. cbn. induction calls; [reflexivity|exact IHcalls]. Qed.
Lemma lock_exec sch t calls : let '(s, ts) := tree_exec sch t calls in lock_inv s ts.
Proof. apply (exec_ind tree_step lock_inv lock_step), lock_start. Qed.
(** While one thread holds the lock no other does. *)
Lemma lock_unique s ts i j a b : lock_inv s ts -> nth_error ts i = Some a -> nth_error ts j = Some b ->
  in_add_block a = true -> in_add_block b = true -> i = j.
Proof.
  intros H Hi Hj Ha Hb. destruct (Nat.eq_dec i j) as [|Hne]; [assumption|exfalso].
  pose proof (total_replace holds ts i a (TStart CLast) Hi) as E1.
  assert (Hj' : nth_error (replace ts i (TStart CLast)) j = Some b) by (rewrite replace_other by exact Hne; exact Hj).
  pose proof (total_in holds _ b (nth_error_In _ _ Hj')) as E2. unfold lock_inv, locked1 in H. unfold holds at 2 4 in E1. unfold holds at 1 in E2. rewrite Ha in E1. rewrite Hb in E2. cbn [in_add_block] in E1.
  destruct (sh_locked s); lia.
Qed.

(** ** Progress *)
Definition left_steps (th : thread) : nat :=
  match th with
  | TStart _ => 9 | TGas _ _ => 8 | TAmount _ _ _ => 7 | TLastIdx _ _ _ _ => 6 | TLastGet _ _ _ _ => 5
  | TStore _ _ => 4 | TMove _ _ => 3 | TCharge _ _ => 2
  | TWrite _ => 3 | TRef _ => 2 | TBump _ => 1 | TIdx _ _ => 2 | TGet _ _ => 1 | TDone _ _ => 0
  end.
Lemma next_left c x n : (forall th, x = Ok th -> left_steps th <= n)%nat -> (left_steps (next c x) <= n)%nat.
Proof. intros H. destruct x; cbn [next]; [apply H; reflexivity|cbn; lia..]. Qed.
Lemma step_left s th s' th' : tree_step s th = Some (s', th') -> (left_steps th' < left_steps th)%nat.
Proof.
  intros E. destruct th as [[c|tx|b| |h|h]|tx g|tx g a|tx g a i|tx g a i|tx g|tx g|tx g|b|b|b|c i|c i|c r]; cbn [tree_step] in E.
  - destruct (lcall_run c (sh_tree s)). apply some_inv in E as [<- <-]. cbn. lia.
  - apply some_inv in E as [<- <-]. apply le_n_S, next_left. intros th H. inv_bind H. apply ok_inv in H as <-. cbn. lia.
  - destruct (sh_locked s) eqn:El; [discriminate E|]. destruct (negb _); apply some_inv in E as [<- <-]; cbn; lia.
  - destruct (sh_locked s) eqn:El; [discriminate E|]. apply some_inv in E as [<- <-]. apply le_n_S, next_left. intros th H. inv_bind H. apply ok_inv in H as <-. cbn. lia.
  - destruct (sh_locked s) eqn:El; [discriminate E|]. apply some_inv in E as [<- <-]. destruct (_ <? _); cbn; lia.
  - apply some_inv in E as [<- <-]. destruct (sled_get _ _); [destruct (Nat.ltb _ _)|]; cbn; lia.
  - apply some_inv in E as [<- <-]. apply le_n_S, next_left. intros th H. inv_bind H. apply ok_inv in H as <-. cbn. lia.
  - destruct (sh_locked s); [discriminate E|]. apply some_inv in E as [<- <-]. apply le_n_S, next_left. intros th H. inv_bind H. apply ok_inv in H as <-. cbn. lia.
  - destruct (sh_locked s); [discriminate E|]. apply some_inv in E as [<- <-]. destruct (_ <? _); cbn; lia.
  - apply some_inv in E as [<- <-]. apply le_n_S, next_left. intros th H. inv_bind H. apply ok_inv in H as <-. cbn. lia.
  - apply some_inv in E as [<- <-]. cbn. lia.
  - destruct (t_send_amount _ _ _ _) as [t' r]. apply some_inv in E as [<- <-]. apply le_n_S, next_left. intros th H. inv_bind H. apply ok_inv in H as <-. cbn. lia.
  - destruct (t_sub_gas _ _ _). apply some_inv in E as [<- <-]. cbn. lia.
  - apply some_inv in E as [<- <-]. cbn. lia.
  - apply some_inv in E as [<- <-]. cbn. lia.
  - destruct (u256_add _ _); apply some_inv in E as [<- <-]; cbn; lia.
  - destruct (sh_locked s); [discriminate E|]. apply some_inv in E as [<- <-]. destruct (_ <? _); cbn; lia.
  - apply some_inv in E as [<- <-]. cbn. lia.
  - discriminate E.
Qed.
Definition done (th : thread) : bool := match th with TDone _ _ => true | _ => false end.
(** Only the lock can hold a call up, and never its holder. *)
Lemma step_able s th : done th = false -> sh_locked s = false \/ in_add_block th = true -> exists s' th', tree_step s th = Some (s', th').
Proof.
  intros Hd Hl. destruct th as [[c|tx|b| |h|h]|tx g|tx g a|tx g a i|tx g a i|tx g|tx g|tx g|b|b|b|c i|c i|c r]; cbn [tree_step in_add_block done] in *;
    try discriminate Hd; try (destruct Hl as [->|Hl]; [|discriminate Hl]); try (eexists _, _; reflexivity).
  - destruct (lcall_run c (sh_tree s)). eauto.
  - destruct (negb _); eauto.
  - destruct (t_send_amount _ _ _ _). eauto.
  - destruct (t_sub_gas _ _ _). eauto.
  - destruct (u256_add _ _); eauto.
Qed.
Lemma find_index {A} (f : A -> bool) l : (forall x, In x l -> f x = true) \/ exists k x, nth_error l k = Some x /\ f x = false.
Proof.
  induction l as [|a l [IH|(k & x & H)]]; [left; intros x []| |right; exists (S k), x; exact H].
  destruct (f a) eqn:E; [left; intros x [->|Hx]; [exact E|apply IH, Hx]|right; exists 0%nat, a; split; [reflexivity|exact E]].
Qed.
Lemma finishable n : forall s ts, lock_inv s ts -> (N.to_nat (total (fun th => N.of_nat (left_steps th)) ts) <= n)%nat ->
  exists sch, forall th, In th (snd (exec tree_step sch (s, ts))) -> done th = true.
Proof.
  induction n as [|n IH]; intros s ts HL Hn.
  - exists []. intros th Hin. cbn [exec fold_left snd] in Hin. pose proof (total_in (fun th => N.of_nat (left_steps th)) ts th Hin). destruct th; cbn [left_steps] in *; try lia. reflexivity.
  - assert (Hstep : (forall th, In th ts -> done th = true) \/ exists k th s' th', nth_error ts k = Some th /\ tree_step s th = Some (s', th')).
    { destruct (find_index done ts) as [H|(k & th & Hk & Hd)]; [left; exact H|right].
      destruct (sh_locked s) eqn:El; [|destruct (step_able s th Hd (or_introl El)) as (s' & th' & E); eauto 6].
      destruct (find_index (fun th => negb (in_add_block th)) ts) as [H|(j & h & Hj & Hh)].
      - exfalso. unfold lock_inv, locked1 in HL. rewrite El in HL. clear -H HL. assert (total holds ts = 0); [|lia]. clear HL. unfold total.
        induction ts as [|a ts IH]; [reflexivity|]. cbn [map fold_right]. rewrite IH by (intros x Hx; apply H; right; exact Hx).
        specialize (H a (or_introl eq_refl)). unfold holds. destruct (in_add_block a); [discriminate H|reflexivity].
      - apply negb_false_iff in Hh. assert (Hdh : done h = false) by (destruct h; try discriminate Hh; reflexivity).
        destruct (step_able s h Hdh (or_intror Hh)) as (s' & th' & E). eauto 6. }
    destruct Hstep as [H|(k & th & s' & th' & Hk & E)]; [exists []; exact H|].
    destruct (IH s' (replace ts k th')) as (sch & Hs).
    + eapply lock_step; eassumption.
    + pose proof (total_replace (fun th => N.of_nat (left_steps th)) ts k th th' Hk) as E1. cbn beta in E1. pose proof (step_left _ _ _ _ E). lia.
    + exists (k :: sch). cbn [exec fold_left sched_step]. rewrite Hk, E. exact Hs.
Qed.

(** ** Blocks below the height never change *)
Definition mainof (s : shared) : main_chain := t_main (sh_tree s).
Lemma as_unit_main (f : bct -> bct * out unit) t : (t_main (fst (f t)) = t_main t) -> t_main (fst (as_unit (f t))) = t_main t.
Proof. intros H. exact H. Qed.
Lemma on_summary_main f t : t_main (fst (t_on_summary f t)) = t_main t.
Proof. unfold t_on_summary. destruct (f _). reflexivity. Qed.
Lemma on_gas_main f t : t_main (fst (t_on_gas f t)) = t_main t.
Proof. unfold t_on_gas. destruct (f _). reflexivity. Qed.
Lemma send_amount_main x y a t : t_main (fst (t_send_amount x y a t)) = t_main t.
Proof. unfold t_send_amount. destruct (bytes_eqb x y); [reflexivity|apply on_summary_main]. Qed.
Lemma lcall_main c t : t_main (fst (lcall_run c t)) = t_main t.
Proof.
  destruct c; cbn [lcall_run]; unfold as_unit; cbn [fst]; try reflexivity;
    first [apply on_summary_main|apply on_gas_main|apply send_amount_main].
Qed.
(** The chain after a step, by phase. *)
Lemma step_main s th s' th' : tree_step s th = Some (s', th') ->
  match th with
  | TWrite b => mainof s' = put_block b (mainof s)
  | TRef b => mainof s' = put_ref b (mainof s)
  | TBump b => mainof s' = match u256_add (mc_height (mainof s)) 1 with Ok h => put_height h (mainof s) | _ => mainof s end
  | _ => same_chain (mainof s) (mainof s')
  end.
Proof.
  intros E. destruct th as [[c|tx|b| |h|h]|tx g|tx g a|tx g a i|tx g a i|tx g|tx g|tx g|b|b|b|c i|c i|c r]; cbn [tree_step] in E.
  - pose proof (lcall_main c (sh_tree s)) as H. destruct (lcall_run c (sh_tree s)). apply some_inv in E as [<- <-]. unfold mainof. cbn [fst sh_tree with_tree] in *. rewrite H. repeat split.
  - apply some_inv in E as [<- <-]. repeat split.
  - destruct (sh_locked s); [discriminate E|]. destruct (negb _); apply some_inv in E as [<- <-]; repeat split.
  - destruct (sh_locked s); [discriminate E|]. apply some_inv in E as [<- <-]. repeat split.
  - destruct (sh_locked s); [discriminate E|]. apply some_inv in E as [<- <-]. repeat split.
  - apply some_inv in E as [<- <-]. repeat split.
  - apply some_inv in E as [<- <-]. repeat split.
  - destruct (sh_locked s); [discriminate E|]. apply some_inv in E as [<- <-]. repeat split.
  - destruct (sh_locked s); [discriminate E|]. apply some_inv in E as [<- <-]. repeat split.
  - apply some_inv in E as [<- <-]. repeat split.
  - apply some_inv in E as [<- <-]. repeat split.
  - pose proof (send_amount_main (tx_sender tx) (tx_receiver tx) (tx_amount tx) (sh_tree s)) as H. destruct (t_send_amount _ _ _ _) as [t' r]. apply some_inv in E as [<- <-].
    unfold mainof. cbn [fst sh_tree with_tree] in *. rewrite H. repeat split.
  - pose proof (on_gas_main (led_sub (tx_sender tx) g) (sh_tree s)) as H. change (t_on_gas (led_sub (tx_sender tx) g) (sh_tree s)) with (t_sub_gas (tx_sender tx) g (sh_tree s)) in H.
    destruct (t_sub_gas _ _ _) as [t' r]. apply some_inv in E as [<- <-]. unfold mainof. cbn [fst sh_tree with_tree] in *. rewrite H. repeat split.
  - apply some_inv in E as [<- <-]. reflexivity.
  - apply some_inv in E as [<- <-]. reflexivity.
  - unfold mainof. destruct (u256_add _ _); apply some_inv in E as [<- <-]; reflexivity.
  - destruct (sh_locked s); [discriminate E|]. apply some_inv in E as [<- <-]. repeat split.
  - apply some_inv in E as [<- <-]. repeat split.
  - discriminate E.
Qed.

Definition grows (m m' : main_chain) : Prop :=
  mc_height m < 2 ^ 256 -> mc_height m <= mc_height m' < 2 ^ 256 /\
  forall i, i < mc_height m -> sled_get (height_key i) (mc_blocks m') = sled_get (height_key i) (mc_blocks m).
Lemma grows_refl m m' : same_chain m m' -> grows m m'.
Proof. intros (E1 & E2 & E3) H. rewrite E1, E3. split; [lia|reflexivity]. Qed.
Lemma grows_trans m m' m'' : grows m m' -> grows m' m'' -> grows m m''.
Proof.
  intros H1 H2 H. destruct (H1 H) as [A B]. destruct (H2 (proj2 A)) as [C D]. split; [lia|].
  intros i Hi. rewrite D by lia. apply B, Hi.
Qed.
Lemma step_grows s th s' th' : tree_step s th = Some (s', th') -> grows (mainof s) (mainof s').
Proof.
  intros E. pose proof (step_main s th s' th' E) as H. destruct th; try (apply grows_refl, H).
  - rewrite H. intros Hh. cbn [put_block mc_height mc_blocks]. split; [lia|]. intros i Hi. rewrite sled_get_insert, height_key_eqb by lia.
    destruct (N.eqb_spec i (mc_height (mainof s))); [lia|reflexivity].
  - rewrite H. intros Hh. cbn [put_ref mc_height mc_blocks]. split; [lia|reflexivity].
  - rewrite H. unfold u256_add. destruct (N.ltb_spec (mc_height (mainof s) + 1) (2 ^ 256)); [|apply grows_refl; repeat split].
    intros Hh. cbn [put_height mc_height mc_blocks]. split; [lia|reflexivity].
Qed.
Lemma exec_grows sch s ts : grows (mainof s) (mainof (fst (exec tree_step sch (s, ts)))).
Proof.
  pose proof (exec_ind tree_step (fun s' _ => grows (mainof s) (mainof s'))) as H. specialize (H ltac:(intros s1 ts1 k th s' th' H1 _ E; exact (grows_trans _ _ _ H1 (step_grows _ _ _ _ E))) sch s ts (grows_refl _ _ ltac:(repeat split))).
  destruct (exec tree_step sch (s, ts)). exact H.
Qed.
