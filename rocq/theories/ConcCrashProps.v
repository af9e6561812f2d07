(** Proofs of the statements in P_ConcCrash.v. *)
From Coq Require Import Lia ZifyBool ZifyNat ZifyN Permutation.
From Verif Require Import Base Sha256 Tools Transaction Block Sled Chain Tree Spec Reach LedgerSpec CrashSpec Conc ConcTree ConcSpec ConcFlush FlushSpec ConcCrashSpec Demo.
From Verif Require Import BaseFacts ToolsFacts CodecFacts SledFacts ChainFacts TreeFacts LedgerFacts CrashFacts CrashProps LedgerProps ConcFacts ConcProps FlushProps.

Local Strategy 1000 [u256_mul u256_add u256_sub BYTE_GAS_PRICE t_get_amount t_get_gas mc_decode recalculate_fee t_send_amount t_sub_gas lcall_run sled_get].

(** ** Every step writes at most one batch to a balance database *)
Definition two (t t' : bct) : Prop := commits (t_summary t) (t_summary t') /\ commits (t_gas t) (t_gas t').
Lemma two_same t t' : t_summary t' = t_summary t -> t_gas t' = t_gas t -> two t t'.
Proof. intros A B. split; left; assumption. Qed.
Lemma two_summary f t : (forall s, commits s (fst (f s))) -> two t (fst (t_on_summary f t)).
Proof. intros H. destruct (on_summary_commits f t H) as [A B]. split; [exact A|left; exact B]. Qed.
Lemma two_gas f t : (forall s, commits s (fst (f s))) -> two t (fst (t_on_gas f t)).
Proof. intros H. destruct (on_gas_commits f t H) as [A B]. split; [left; exact B|exact A]. Qed.
Lemma two_send x y a t : two t (fst (t_send_amount x y a t)).
Proof. destruct (send_amount_commits x y a t) as [A B]. split; [exact A|left; exact B]. Qed.
Lemma two_lcall c t : two t (fst (lcall_run c t)).
Proof.
  destruct c; cbn [lcall_run as_unit fst]; try (apply two_same; reflexivity); try apply two_send;
    first [apply two_summary | apply two_gas]; intros s; apply led_tx_commits.
Qed.
Lemma step_two s th s' th' : tree_step s th = Some (s', th') -> two (sh_tree s) (sh_tree s').
Proof.
  intros E. assert (Hid : two (sh_tree s) (sh_tree s)) by (apply two_same; reflexivity).
  destruct th as [[c|tx|b| |h|h]|tx g|tx g a|tx g a i|tx g a i|tx g|tx g|tx g|b|b|b|c i|c i|c r]; cbn [tree_step] in E.
  - pose proof (two_lcall c (sh_tree s)) as H. destruct (lcall_run c (sh_tree s)). apply some_inv in E as [<- <-]. exact H.
  - apply some_inv in E as [<- <-]. exact Hid.
  - destruct (sh_locked s); [discriminate E|]. destruct (negb _); apply some_inv in E as [<- <-]; exact Hid.
  - destruct (sh_locked s); [discriminate E|]. apply some_inv in E as [<- <-]. exact Hid.
  - destruct (sh_locked s); [discriminate E|]. apply some_inv in E as [<- <-]. exact Hid.
  - apply some_inv in E as [<- <-]. exact Hid.
  - apply some_inv in E as [<- <-]. exact Hid.
  - destruct (sh_locked s); [discriminate E|]. apply some_inv in E as [<- <-]. exact Hid.
  - destruct (sh_locked s); [discriminate E|]. apply some_inv in E as [<- <-]. exact Hid.
  - apply some_inv in E as [<- <-]. exact Hid.
  - apply some_inv in E as [<- <-]. apply two_same; reflexivity.
  - pose proof (two_send (tx_sender tx) (tx_receiver tx) (tx_amount tx) (sh_tree s)) as H. destruct (t_send_amount _ _ _ _) as [t' r]. apply some_inv in E as [<- <-]. exact H.
  - pose proof (two_gas (led_sub (tx_sender tx) g) (sh_tree s)) as H. change (t_on_gas (led_sub (tx_sender tx) g) (sh_tree s)) with (t_sub_gas (tx_sender tx) g (sh_tree s)) in H.
    destruct (t_sub_gas _ _ _) as [t' r]. apply some_inv in E as [<- <-]. apply H. intros x. apply led_tx_commits.
  - apply some_inv in E as [<- <-]. apply two_same; reflexivity.
  - apply some_inv in E as [<- <-]. apply two_same; reflexivity.
  - destruct (u256_add _ _); apply some_inv in E as [<- <-]; first [exact Hid | apply two_same; reflexivity].
  - destruct (sh_locked s); [discriminate E|]. apply some_inv in E as [<- <-]. exact Hid.
  - apply some_inv in E as [<- <-]. exact Hid.
  - discriminate E.
Qed.
Lemma fstep_two s th s' th' : flush_step s th = Some (s', th') -> two (sh_tree s) (sh_tree s').
Proof.
  intros E. destruct th; cbn [flush_step] in E.
  - destruct (tree_step s th) as [[s1 th1]|] eqn:E1; [|discriminate E]. apply some_inv in E as [-> <-]. eapply step_two, E1.
  - apply some_inv in E as [<- <-]. apply two_same; reflexivity.
  - destruct (sh_locked s); [discriminate E|]. apply some_inv in E as [<- <-]. apply two_same; reflexivity.
  - apply some_inv in E as [<- <-]. apply two_same; reflexivity.
  - apply some_inv in E as [<- <-]. apply two_same; reflexivity.
  - apply some_inv in E as [<- <-]. apply two_same; reflexivity.
  - apply some_inv in E as [<- <-]. apply two_same; reflexivity.
  - apply some_inv in E as [<- <-]. apply two_same; reflexivity.
  - discriminate E.
Qed.

(** ** What a crash leaves is the state after some number of steps *)
Lemma firstn_snoc_low {A} (l : list A) x k : (k <= length l)%nat -> firstn k (l ++ [x]) = firstn k l.
Proof. intros H. rewrite firstn_app. replace (k - length l)%nat with 0%nat by lia. cbn [firstn]. apply app_nil_r. Qed.
Lemma crash_moment {T} (stp : shared -> T -> option (shared * T)) (part : bct -> sled) :
  (forall s th s' th', stp s th = Some (s', th') -> commits (part (sh_tree s)) (part (sh_tree s'))) ->
  forall st sch, sled_ok (part (sh_tree (fst st))) -> pend (part (sh_tree (fst st))) = [] ->
  let at_ k := part (sh_tree (fst (exec stp (firstn k sch) st))) in
  sled_ok (part (sh_tree (fst (exec stp sch st)))) /\
  forall n, exists k, (k <= length sch)%nat /\ forall w, sled_get w (sled_crash n (part (sh_tree (fst (exec stp sch st))))) = sled_get w (at_ k).
Proof.
  intros Hstep st sch Hok Hp at_. subst at_. induction sch as [|i sch [IHok IH]] using rev_ind; cbn beta.
  - split; [exact Hok|]. intros n. exists 0%nat. split; [lia|]. intros w. cbn [firstn exec fold_left].
    rewrite <- (crash_full _ Hok). unfold sled_crash. rewrite Hp, !firstn_nil. reflexivity.
  - rewrite exec_snoc. set (st1 := exec stp sch st) in *.
    assert (HC : commits (part (sh_tree (fst st1))) (part (sh_tree (fst (sched_step stp st1 i))))).
    { destruct st1 as [s ts]. cbn [sched_step fst]. destruct (nth_error ts i) as [th|]; [|left; reflexivity].
      destruct (stp s th) as [[s' th']|] eqn:E; [|left; reflexivity]. eapply Hstep, E. }
    split; [destruct HC as [->|(b & ->)]; [exact IHok|apply sled_ok_commit, IHok]|].
    intros n. rewrite app_length. cbn [length]. destruct (IH n) as (k & Hk & Ek).
    destruct HC as [E|(b & E)].
    + exists k. split; [lia|]. intros w. rewrite E, firstn_snoc_low by exact Hk. apply Ek.
    + destruct (crash_commit n b _ IHok) as [G|G].
      * exists k. split; [lia|]. intros w. rewrite E, G, firstn_snoc_low by exact Hk. apply Ek.
      * exists (length sch + 1)%nat. split; [lia|]. intros w. rewrite firstn_all2 by (rewrite app_length; cbn; lia). rewrite exec_snoc. fold st1. rewrite E. apply G.
Qed.

Lemma flush_ledgers t : ledgers_ok t -> ledgers_ok (t_flush t).
Proof. intros [O1 O2 O3 O4]. split; cbn [t_flush t_summary t_old_summary t_gas t_old_gas]; apply led_ok_flush; assumption. Qed.
Lemma opened_amounts sv t t' : t_new (t_crash sv t) = Ok t' ->
  (forall w, w <> ROOT_PUBLIC_ADDRESS \/ mc_get_height (t_main t') <> 1 -> sled_get w (t_summary t') = sled_get w (sled_crash (sv_summary sv) (t_summary t))) /\
  (forall w, sled_get w (t_gas t') = sled_get w (sled_crash (sv_gas sv) (t_gas t))).
Proof.
  intros E. unfold t_new in E. destruct (mc_new (k_main (t_crash sv t))) as [m|e| |]; cbn [bind] in E; try discriminate E. injection E as <-. split.
  - intros w Hw. cbn [t_summary t_main] in *. cbn [t_crash k_summary]. destruct (N.eqb_spec (mc_get_height m) 1) as [E1|_]; [|reflexivity].
    destruct Hw as [Hw|Hw]; [|contradiction]. rewrite sled_get_commit1, (proj2 (bytes_eqb_neq _ _) Hw). reflexivity.
  - reflexivity.
Qed.

(*@T C115.  After a flush, any number of calls (transfers, transactions, block additions, reads, flushes of the main chain) run at the same time, in any schedule; the
   process is killed between any two of their steps, and any part of the unflushed writes survives.  If the directory opens again, the amounts of all accounts are those
   of one moment of this very execution, and the gas is that of one moment: no half-made transfer, no mix of several calls.  (The root account is the exception of C68.) *)
Lemma p_C115_balances_of_one_moment : forall ok p n t calls schedule sv t', reachable ok p n t -> few n ->
  let at_ k := sh_tree (fst (flush_exec (firstn k schedule) (t_flush t) calls)) in
  t_new (t_crash sv (sh_tree (fst (flush_exec schedule (t_flush t) calls)))) = Ok t' ->
  (exists k, (k <= length schedule)%nat /\ forall w, w <> ROOT_PUBLIC_ADDRESS \/ mc_get_height (t_main t') <> 1 -> t_get_amount w t' = t_get_amount w (at_ k)) /\
  (exists k, (k <= length schedule)%nat /\ forall w, t_get_gas w t' = t_get_gas w (at_ k)).
Proof.
  intros ok p n t calls sch sv t' Hr Hn at_ E. pose proof (flush_ledgers t (reachable_ledgers _ _ _ _ Hr Hn)) as [O1 O2 _ _].
  destruct (opened_amounts _ _ _ E) as [A B]. unfold flush_exec in *.
  destruct (crash_moment flush_step t_summary (fun s th s' th' H => proj1 (fstep_two s th s' th' H)) (MkShared (t_flush t) false, map fstart calls) sch (proj1 O1) eq_refl) as [_ IS].
  destruct (crash_moment flush_step t_gas (fun s th s' th' H => proj2 (fstep_two s th s' th' H)) (MkShared (t_flush t) false, map fstart calls) sch (proj1 O2) eq_refl) as [_ IG].
  destruct (IS (sv_summary sv)) as (k & Hk & Ek). destruct (IG (sv_gas sv)) as (k' & Hk' & Ek'). split.
  - exists k. split; [exact Hk|]. intros w Hw. unfold t_get_amount, led_get. rewrite A by exact Hw. rewrite Ek. reflexivity.
  - exists k'. split; [exact Hk'|]. intros w. unfold t_get_gas, led_get. rewrite B, Ek'. reflexivity.
Qed.
(*@E
(** Two transfers and a flush of the main chain at the same time, killed when all have returned: the first transfer survives. *)
Example C115_ex_balances :
  let calls := [FCall (CLedger (LSend addrA addrB 5)); FFlush; FCall (CLedger (LSend addrA addrB 7))] in
  let s := sh_tree (fst (flush_exec [1; 1; 0; 1; 2; 1; 1; 1; 1]%nat (t_flush funded) calls)) in
  map (fun k => match t_new (t_crash (svs 0 0 0 3 k 0) s) with Ok t' => (t_get_amount addrA t', t_get_amount addrB t') | _ => (Panic, Panic) end) [0; 1; 2]%nat =
  [(Ok 1000000000, Ok 0); (Ok 999999995, Ok 5); (Ok 999999988, Ok 12)].
Proof. vm_compute. reflexivity. Qed.
@*)

(** ** Which transfers survive *)
Lemma sub_gas_no_err w g t e : snd (t_sub_gas w g t) <> Err e.
Proof. unfold t_sub_gas, t_on_gas, led_sub, led_tx. destruct (let! prev := _ in _); discriminate. Qed.
Lemma past_step s th s' th' : tree_step s th = Some (s', th') -> past_transfer th = true -> past_transfer th' = true.
Proof.
  intros E H. destruct th; try discriminate H; cbn [tree_step] in E; [|discriminate E].
  pose proof (sub_gas_no_err (tx_sender tx) gas_required (sh_tree s)) as N. destruct (t_sub_gas _ _ _) as [t' r]. apply some_inv in E as [_ <-].
  unfold ended. destruct r as [u|e| |]; try reflexivity. exfalso. exact (N e eq_refl).
Qed.
Lemma past_exec sch s ts i th th' : nth_error ts i = Some th -> past_transfer th = true ->
  nth_error (snd (exec tree_step sch (s, ts))) i = Some th' -> past_transfer th' = true.
Proof.
  intros Hi Hp.
  pose proof (exec_ind tree_step (fun _ ts => exists th, nth_error ts i = Some th /\ past_transfer th = true)) as H.
  specialize (fun P Q => H P sch s ts Q). destruct (exec tree_step sch (s, ts)) as [s' ts']. cbn [snd]. intros Hi'.
  destruct H as (x & Hx & Px); [|eauto|congruence].
  intros s1 ts1 k y s2 y' (z & Hz & Pz) Hk E. destruct (Nat.eq_dec k i) as [->|Hne].
  - exists y'. split; [eapply replace_same, Hk|]. rewrite Hz in Hk. apply (past_step _ _ _ _ E). congruence.
  - exists z. split; [rewrite replace_other by exact Hne; exact Hz|exact Pz].
Qed.
Lemma marked_past th : thread_ok th true -> past_transfer th = true.
Proof. destruct th as [c| | | | | | | | | | | | |c r]; cbn [thread_ok past_transfer]; try (intros []; discriminate); try discriminate; [reflexivity|destruct r; [reflexivity|discriminate|reflexivity..]]. Qed.

(*@T C115.  Calls that create or destroy nothing (transfers, transactions, block additions, reads), killed in the middle: the amounts after reopening are those
   before the calls with some of the transfers made, each as a whole, and only such as had been made when the process was killed, never one of a call that had returned an error; so the sum over any accounts
   containing all parties is what it was.  The gas is what it was less the charges of the transactions that had been accepted at some moment.
   (The root account is the exception of C68.) *)
Lemma p_C115_conserved : forall ok p n t calls schedule sv t', reachable ok p n t -> few n -> Forall keeps_funds calls ->
  let threads k := snd (tree_exec (firstn k schedule) (t_flush t) calls) in
  t_new (t_crash sv (sh_tree (fst (tree_exec schedule (t_flush t) calls)))) = Ok t' ->
  exists f g f' g' done k, amounts t f /\ gases t g /\
    (forall w, w <> ROOT_PUBLIC_ADDRESS \/ mc_get_height (t_main t') <> 1 -> t_get_amount w t' = Ok (f' w)) /\ gases t' g' /\
    length done = length calls /\
    (forall w, f' w + total (sent w) (combine done calls) = f w + total (received w) (combine done calls)) /\
    (forall i th, nth_error (threads (length schedule)) i = Some th -> nth_error done i = Some true -> past_transfer th = true) /\
    (forall A, NoDup A -> (forall c x y a, In c calls -> transfer c = Some (x, y, a) -> In x A /\ In y A) -> sum_over f' A = sum_over f A) /\
    (k <= length schedule)%nat /\ (forall w, g w = g' w + total (paid w) (threads k)).
Proof.
  intros ok p n t calls sch sv t' Hr Hn Hk threads E. pose proof (flush_ledgers t (reachable_ledgers _ _ _ _ Hr Hn)) as [O1 O2 _ _].
  destruct (opened_amounts _ _ _ E) as [A B]. unfold tree_exec in *. subst threads. cbn beta. rewrite firstn_all.
  set (st0 := (MkShared (t_flush t) false, map TStart calls)) in *.
  destruct (crash_moment tree_step t_summary (fun s th s' th' H => proj1 (step_two s th s' th' H)) st0 sch (proj1 O1) eq_refl) as [_ IS].
  destruct (crash_moment tree_step t_gas (fun s th s' th' H => proj2 (step_two s th s' th' H)) st0 sch (proj1 O2) eq_refl) as [_ IG].
  destruct (IS (sv_summary sv)) as (k & Hkl & Ek). destruct (IG (sv_gas sv)) as (k' & Hkl' & Ek').
  assert (HI : forall j, let '(s, ts) := exec tree_step (firstn j sch) st0 in funds_inv (t_flush t) calls s ts).
  { intros j. exact (exec_ind tree_step (funds_inv (t_flush t) calls) (funds_step _ calls Hk) (firstn j sch) _ _ (funds_start _ calls O1 O2)). }
  pose proof (HI k) as Ik. pose proof (HI k') as Ik'. clear HI.
  assert (Hrest : exec tree_step sch st0 = exec tree_step (skipn k sch) (exec tree_step (firstn k sch) st0)) by (rewrite <- exec_app, firstn_skipn; reflexivity).
  rewrite Hrest. destruct (exec tree_step (firstn k sch) st0) as [s ts]. destruct (exec tree_step (firstn k' sch) st0) as [sg tsg] eqn:Eg.
  destruct Ik as (Hc & H1 & _ & _ & ms & Hl & Hms & Hb). destruct Ik' as (_ & _ & H2 & Hgas & _).
  exists (bal (t_summary t)), (bal (t_gas t)), (bal (t_summary (sh_tree s))), (bal (t_gas (sh_tree sg))), ms, k'.
  pose proof (reachable_ledgers _ _ _ _ Hr Hn) as [P1 P2 _ _]. cbn [fst snd] in *.
  split; [apply amounts_bal, P1|]. split; [apply gases_bal, P2|].
  split. { intros w Hw. unfold t_get_amount, led_get. rewrite A, Ek by exact Hw. apply (led_get_bal _ w H1). }
  split. { intros w. unfold t_get_gas, led_get. rewrite B, Ek'. apply (led_get_bal _ w H2). }
  split; [exact Hl|]. split; [exact Hb|]. split.
  { intros i th Hi Hd. assert (Hil : (i < length ms)%nat) by (apply nth_error_Some; congruence).
    destruct (nth_error ts i) as [th0|] eqn:E0; [|apply nth_error_None in E0; rewrite Hl, <- Hc, map_length in Hil; lia].
    eapply past_exec; [exact E0|apply marked_past, (Hms i); assumption|exact Hi]. }
  split.
  { intros X Hd HA. assert (Es : sum_over (fun w => bal (t_summary (sh_tree s)) w + total (sent w) (combine ms calls)) X = sum_over (fun w => bal (t_summary t) w + total (received w) (combine ms calls)) X).
    { apply sum_over_ext. intros w _. apply Hb. }
    rewrite !sum_add in Es. rewrite (total_sum (fun w => total (sent w) (combine ms calls)) X (combine ms calls) sent (fun w => eq_refl)) in Es.
    rewrite (total_sum (fun w => total (received w) (combine ms calls)) X (combine ms calls) received (fun w => eq_refl)) in Es.
    assert (E2 : total (fun x => sum_over (fun w => sent w x) X) (combine ms calls) = total (fun x => sum_over (fun w => received w x) X) (combine ms calls)).
    { unfold total. f_equal. apply map_ext_in. intros [m c] Hin. apply in_combine_r in Hin. cbn [sent received]. destruct m; [|rewrite !sum_zero; reflexivity].
      destruct (transfer c) as [[[x y] a]|] eqn:Et; [|rewrite !sum_zero; reflexivity]. destruct (HA c x y a Hin Et). rewrite !sum_one by assumption. reflexivity. }
    lia. }
  split; [exact Hkl'|]. intros w. rewrite Eg. cbn [snd]. exact (Hgas w).
Qed.
(*@E
(** Two transactions, killed when both have moved their amounts and one has paid: the crash can keep one of the transfers and no payment. *)
Example C115_ex_conserved : let tx1 := demo_tx 3 (repeat 1 64) in let tx2 := demo_tx 4 (repeat 1 64) in
  let '(s, ts) := tree_exec (concat (repeat [0; 1]%nat 7) ++ [1]%nat) (t_flush funded) [CSendTx tx1; CSendTx tx2] in
  map past_transfer ts = [true; true] /\
  match t_new (t_crash (svs 0 0 0 3 1 0) (sh_tree s)) with
  | Ok t' => (t_get_amount addrA t', t_get_amount addrB t', t_get_gas addrA t') | _ => (Panic, Panic, Panic) end = (Ok 999999997, Ok 3, Ok (10 ^ 18)).
Proof. vm_compute. split; reflexivity. Qed.
@*)

(** ** Flushed blocks *)
Definition keeps (h0 : N) (d : bytes) (m0 : main_chain) (cfg : file) (s : shared) (_ : list thread) : Prop :=
  sled_ok (mc_blocks (mainof s)) /\ sled_ok (mc_txs (mainof s)) /\ h0 <= mc_height (mainof s) < 2 ^ 256 /\
  phase h0 d m0 (mainof s) FDone /\ mc_cfg (mainof s) = cfg.
Lemma keeps_step h0 d m0 cfg : forall s ts k th s' th', keeps h0 d m0 cfg s ts -> nth_error ts k = Some th -> tree_step s th = Some (s', th') ->
  keeps h0 d m0 cfg s' (replace ts k th').
Proof.
  intros s ts k th s' th' (K1 & K2 & K3 & K4 & K5) _ E. destruct (single_tree h0 d m0 s th s' th' K1 K2 K3 E) as (T1 & T2 & T3 & _ & T5).
  destruct (step_cfg s th s' th' E) as (F1 & _). split; [exact T1|]. split; [exact T2|]. split; [exact T3|]. split; [apply (T5 FDone K4)|congruence].
Qed.

(*@T C115.  After a flush whose file writes have reached the disk, any number of calls (none of them a flush) in any schedule, killed between any two steps, whatever
   survives: the directory opens again at the flushed height, with every flushed block unchanged, the same last block, and every flushed transaction. *)
Lemma p_C115_flushed_survive : forall ok p n t calls schedule sv, reachable ok p n t -> few n ->
  exists t', t_new (t_crash sv (sh_tree (fst (tree_exec schedule (t_settle (t_flush t)) calls)))) = Ok t' /\
    mc_get_height (t_main t') = mc_get_height (t_main t) /\
    (forall i, i < mc_get_height (t_main t) -> mc_find_raw_by_height i (t_main t') = mc_find_raw_by_height i (t_main t) /\ mc_find_raw_by_height i (t_main t') <> None) /\
    mc_get_last_block (t_main t') = mc_get_last_block (t_main t) /\
    (forall h, mc_transaction_exists h (t_main t) = true -> mc_transaction_exists h (t_main t') = true).
Proof.
  intros ok p n t calls sch sv Hr Hn. destruct (reachable_crash _ _ _ _ Hr Hn) as (L & HL & Hlen & HC). unfold few in Hn.
  pose proof (tree_inv_ne _ _ HL) as Hne. assert (0 < N.of_nat (length L)) by (destruct L; [contradiction|cbn [length]; lia]).
  pose proof (flush_tree t L HL) as HL1. destruct (dur_start t L HL) as [[D1 D2 _] HT]. set (t1 := t_settle (t_flush t)) in *.
  destruct (crash_inv_flush _ _ (ti_main _ _ HL) HC) as [F1 F2 F3 _ _]. pose proof (mi_height _ _ (ti_main _ _ HL)) as Hh. pose proof (mi_height _ _ (ti_main _ _ HL1)) as Hh1.
  set (cfg := mc_cfg (t_main t1)) in *.
  assert (K0 : keeps (N.of_nat (length L)) BEGINNING_DIFFICULTY (t_main t1) cfg (MkShared t1 false) (map TStart calls)).
  { unfold keeps. change (mainof (MkShared t1 false)) with (t_main t1). split; [exact F1|]. split; [exact F3|]. split; [lia|]. split; [|reflexivity].
    split; [|intros x Hx; apply HT, Hx]. exists (N.of_nat (length L)). split; [split; [lia|unfold file_bytes; fold cfg; rewrite D1; reflexivity]|].
    intros i k Hi. change (mc_blocks (t_main t1)) with (sled_flush (mc_blocks (t_main t))). rewrite crash_flush. reflexivity. }
  pose proof (exec_ind tree_step _ (keeps_step _ _ _ _) sch _ _ K0) as K.
  assert (G : grows (t_main t1) (mainof (fst (exec tree_step sch (MkShared t1 false, map TStart calls))))).
  { pose proof (exec_ind tree_step (fun s' _ => grows (t_main t1) (mainof s'))) as H0.
    specialize (H0 ltac:(intros s1 ts1 k th s' th' H1 _ E; exact (grows_trans _ _ _ H1 (step_grows _ _ _ _ E))) sch (MkShared t1 false) (map TStart calls) (grows_refl _ _ ltac:(repeat split))).
    destruct (exec tree_step sch (MkShared t1 false, map TStart calls)). exact H0. }
  unfold tree_exec. destruct (exec tree_step sch (MkShared t1 false, map TStart calls)) as [s ts]. cbn [fst] in *.
  destruct K as (_ & _ & K3 & ((h & [Hhh _] & Hd) & Ht) & K5).
  destruct (G ltac:(lia)) as [_ G2].
  unfold t_new. cbn [t_crash k_main].
  rewrite (mc_new_settled (mc_crash sv (t_main (sh_tree s))) (N.of_nat (length L)) BEGINNING_DIFFICULTY);
    [|cbn [mc_crash md_cfg]; change (t_main (sh_tree s)) with (mainof s); rewrite K5, D1; apply file_crash_settled|lia|reflexivity].
  cbn [bind]. eexists. split; [reflexivity|]. unfold mc_get_height. cbn [t_main mc_height].
  assert (Hb : forall i, i < N.of_nat (length L) -> sled_get (height_key i) (sled_crash (sv_blocks sv) (mc_blocks (t_main (sh_tree s)))) = sled_get (height_key i) (mc_blocks (t_main t)) /\
    sled_get (height_key i) (mc_blocks (t_main t)) <> None).
  { intros i Hi. change (t_main (sh_tree s)) with (mainof s). rewrite Hd by lia. rewrite G2 by lia.
    change (sled_get (height_key i) (mc_blocks (t_main t1))) with (sled_get (height_key i) (mc_blocks (t_main t))). split; [reflexivity|].
    rewrite (mi_blocks _ _ (ti_main _ _ HL)) by lia. destruct (nthN_ex L i Hi) as (b & ->). discriminate. }
  split; [congruence|]. split; [|split].
  - intros i Hi. unfold mc_find_raw_by_height. cbn [mc_height mc_blocks mc_crash md_blocks]. rewrite Hh in *.
    destruct (N.ltb_spec (N.of_nat (length L)) i); [lia|]. destruct (Hb i Hi) as [-> Hx]. split; [reflexivity|exact Hx].
  - unfold mc_get_last_block, mc_get_last_raw_block, mc_find_raw_by_height, u256_sub. cbn [mc_height mc_blocks mc_crash md_blocks]. rewrite Hh.
    destruct (N.leb_spec 1 (N.of_nat (length L))); [|lia]. cbn [bind]. destruct (N.ltb_spec (N.of_nat (length L)) (N.of_nat (length L) - 1)); [lia|].
    rewrite (proj1 (Hb (N.of_nat (length L) - 1) ltac:(lia))). reflexivity.
  - intros x Hx. unfold mc_transaction_exists, sled_contains. cbn [mc_txs mc_crash md_txs]. pose proof (Ht x Hx (sv_txs sv)) as Gx.
    change (t_main (sh_tree s)) with (mainof s). destruct (sled_get x _); [reflexivity|contradiction].
Qed.
(*@E
(** A block half added (written, not yet referenced) and a transaction stored, after a flush at height 1. *)
Example C115_ex_blocks : let b := emitted Debug fresh emit_good in
  let '(s, ts) := tree_exec [0; 0]%nat (t_settle (t_flush fresh)) [CAddBlock b] in
  ts = [TRef b] /\ map (fun k => match t_new (t_crash (svs k 0 0 3 0 0) (sh_tree s)) with
    | Ok t' => (mc_get_height (t_main t'), bytes_eqb (block_dump (last_of t')) (block_dump genesis), match mc_find_raw_by_height 1 (t_main t') with Some _ => true | None => false end)
    | _ => (0, false, false) end) [0; 1]%nat = [(1, true, false); (1, true, true)].
Proof. vm_compute. split; reflexivity. Qed.
@*)
