(** Proofs of the statements in P_Book.v: every account is the sum of what the answered calls reported. *)
From Coq Require Import Lia ZifyBool ZifyNat ZifyN.
From Verif Require Import Base Sha256 Merkle Tools Transaction Block Sled Chain Tree Spec Reach LedgerSpec NodeSpec Conc ConcSpec BookSpec Demo.
From Verif Require Import BaseFacts NodeFacts NodeProps ObsFacts.

Local Strategy 1000 [sha256 block_dump tx_dump build_tree block_hash to_be root_of].

Definition good {A} (r : out A) : bool := match r with Ok _ => true | _ => false end.
Lemma held_put v w x l : held v (put w x l) = if bytes_eqb v w then x else held v l.
Proof. unfold held. rewrite entry_put. destruct (bytes_eqb v w); reflexivity. Qed.
Lemma same_good r a : same_answer r a -> good r = good a.
Proof. destruct r as [[]| | |], a as [[]| | |]; cbn; try contradiction; reflexivity. Qed.

(** The four numbers only look at whether the call succeeded. *)
Definition with_ok (f : op * out result -> N) (o : op) (b : bool) : N := f (o, if b then Ok RUnit else Panic).
Lemma gas_in_ok w o r : gas_in w (o, r) = with_ok (gas_in w) o (good r).
Proof. destruct o, r; reflexivity. Qed.
Lemma gas_out_ok w o r : gas_out w (o, r) = with_ok (gas_out w) o (good r).
Proof. destruct o, r; reflexivity. Qed.
Lemma coins_in_ok w o r : coins_in w (o, r) = with_ok (coins_in w) o (good r).
Proof. destruct o, r; reflexivity. Qed.
Lemma coins_out_ok w o r : coins_out w (o, r) = with_ok (coins_out w) o (good r).
Proof. destruct o, r; reflexivity. Qed.

Lemma give_held w v a l l' : give v a l = Some l' -> held w l' = held w l + if_account w v a.
Proof.
  unfold give, if_account. destruct (_ <? _); [|discriminate]. intros E. injection E as <-. rewrite held_put.
  destruct (bytes_eqb w v) eqn:Ew; [apply bytes_eqb_eq in Ew as ->|]; lia.
Qed.
Lemma take_held w v a l l' : take v a l = Some l' -> held w l' + if_account w v a = held w l.
Proof.
  unfold take, if_account. destruct (N.leb_spec a (held v l)); [|discriminate]. intros E. injection E as <-. rewrite held_put.
  destruct (bytes_eqb w v) eqn:Ew; [apply bytes_eqb_eq in Ew as ->|]; lia.
Qed.
Lemma move_held w v u a l l' : move v u a l = Some l' ->
  held w l' + (if bytes_eqb v u then 0 else if_account w v a) = held w l + if_account w u a.
Proof.
  unfold move, if_account. destruct (N.leb_spec a (held v l)); [|discriminate]. cbn [andb]. destruct (_ <? _); [|discriminate]. intros E. injection E as <-. rewrite !held_put.
  destruct (bytes_eqb v u) eqn:Ev.
  - apply bytes_eqb_eq in Ev as ->. destruct (bytes_eqb w u) eqn:Eu; [apply bytes_eqb_eq in Eu as ->|]; lia.
  - destruct (bytes_eqb w u) eqn:Eu; destruct (bytes_eqb w v) eqn:Ew; try (apply bytes_eqb_eq in Eu as ->); try (apply bytes_eqb_eq in Ew as ->); try rewrite bytes_eqb_refl in Ev; try discriminate Ev; lia.
Qed.
Lemma do_gas_same f n : n_amounts (fst (do_gas f n)) = n_amounts n.
Proof. unfold do_gas. destruct (f _); reflexivity. Qed.
Lemma do_amounts_same f n : n_gas (fst (do_amounts f n)) = n_gas n.
Proof. unfold do_amounts. destruct (f _); reflexivity. Qed.

Lemma gas_step p n o w : let '(n', a) := n_step p n o in
  held w (n_gas n') + with_ok (gas_out w) o (good a) = held w (n_gas n) + with_ok (gas_in w) o (good a).
Proof.
  destruct o as [v a|v a|v a|v u a|v a|v a|v u a|tx|pow founder txs ts|pow founder ts|v|b txs|txs|v i| | |v]; cbn [n_step]; unfold with_ok.
  - pose proof (do_amounts_same (give v a) n) as E. destruct (do_amounts _ n) as [n' r]. cbn [fst] in E. rewrite E. destruct r; cbn; lia.
  - pose proof (do_amounts_same (fun l => Some (put v a l)) n) as E. destruct (do_amounts _ n) as [n' r]. cbn [fst] in E. rewrite E. destruct r; cbn; lia.
  - pose proof (do_amounts_same (take v a) n) as E. destruct (do_amounts _ n) as [n' r]. cbn [fst] in E. rewrite E. destruct r; cbn; lia.
  - destruct (bytes_eqb v u); [cbn; lia|]. pose proof (do_amounts_same (move v u a) n) as E. destruct (do_amounts _ n) as [n' r]. cbn [fst] in E. rewrite E. destruct r; cbn; lia.
  - unfold do_gas. destruct (give v a (n_gas n)) as [l|] eqn:E; cbn [with_gases n_gas good]; [rewrite (give_held w _ _ _ _ E)|]; cbn [gas_in gas_out]; lia.
  - unfold do_gas. destruct (take v a (n_gas n)) as [l|] eqn:E; cbn [with_gases n_gas good]; [pose proof (take_held w _ _ _ _ E)|]; cbn [gas_in gas_out]; lia.
  - unfold do_gas. destruct (move v u a (n_gas n)) as [l|] eqn:E; cbn [with_gases n_gas good]; [pose proof (move_held w _ _ _ _ _ E)|]; cbn [gas_in gas_out]; lia.
  - unfold n_send. set (g := gas_for _). destruct (N.ltb_spec (held (tx_sender tx) (n_gas n)) g) as [|Hg]; [cbn; lia|]. destruct (_ <=? _); [cbn; lia|]. destruct (_ <? _); [cbn; lia|].
    assert (K : held w (put (tx_sender tx) (held (tx_sender tx) (n_gas n) - g) (n_gas n)) + if_account w (tx_sender tx) g = held w (n_gas n)).
    { rewrite held_put. unfold if_account. destruct (bytes_eqb w (tx_sender tx)) eqn:Ew; [apply bytes_eqb_eq in Ew as ->|]; lia. }
    destruct (bytes_eqb _ _); cbn [with_txs with_gases n_gas good gas_in gas_out]; [fold (gas_charge tx) in g; unfold gas_charge in *; fold g; lia|].
    destruct (move _ _ _ _); cbn [with_txs with_gases with_amounts n_gas good gas_in gas_out]; [fold (gas_charge tx) in g; unfold gas_charge in *; fold g; lia|lia].
  - unfold n_emit. cbv zeta. destruct (n_header _ _ _ _ _ _ _ _ _); cbn; try lia. destruct (_ =? 0); destruct txs; cbn; lia.
  - unfold n_emit_side. cbv zeta. destruct (match snd (n_chain founder n) with [] => _ | _ :: _ => _ end); cbn; lia.
  - cbn; lia.
  - destruct (_ =? _); cbn; lia.
  - cbn; lia.
  - destruct (negb _); [cbn; lia|]. destruct (_ =? _); cbn; lia.
  - cbn; lia.
  - cbn; lia.
  - cbn; lia.
Qed.
Lemma coins_step p n o w : w <> ROOT_PUBLIC_ADDRESS -> not_set w o -> let '(n', a) := n_step p n o in
  held w (n_amounts n') + with_ok (coins_out w) o (good a) = held w (n_amounts n) + with_ok (coins_in w) o (good a).
Proof.
  intros Hr Hset. destruct o as [v a|v a|v a|v u a|v a|v a|v u a|tx|pow founder txs ts|pow founder ts|v|b txs|txs|v i| | |v]; cbn [n_step]; unfold with_ok.
  - unfold do_amounts. destruct (give v a (n_amounts n)) as [l|] eqn:E; cbn [with_amounts n_amounts good]; [rewrite (give_held w _ _ _ _ E)|]; cbn [coins_in coins_out]; lia.
  - cbn. rewrite held_put. cbn [not_set] in Hset. rewrite (proj2 (bytes_eqb_neq w v)) by congruence. reflexivity.
  - unfold do_amounts. destruct (take v a (n_amounts n)) as [l|] eqn:E; cbn [with_amounts n_amounts good]; [pose proof (take_held w _ _ _ _ E)|]; cbn [coins_in coins_out]; lia.
  - destruct (bytes_eqb v u) eqn:Ev; [cbn [good coins_in coins_out]; rewrite Ev; lia|]. unfold do_amounts. destruct (move v u a (n_amounts n)) as [l|] eqn:E; cbn [with_amounts n_amounts good]; [pose proof (move_held w _ _ _ _ _ E) as M; rewrite Ev in M|]; cbn [coins_in coins_out]; rewrite ?Ev; lia.
  - pose proof (do_gas_same (give v a) n) as E. destruct (do_gas _ n) as [n' r]. cbn [fst] in E. rewrite E. destruct r; cbn; lia.
  - pose proof (do_gas_same (take v a) n) as E. destruct (do_gas _ n) as [n' r]. cbn [fst] in E. rewrite E. destruct r; cbn; lia.
  - pose proof (do_gas_same (move v u a) n) as E. destruct (do_gas _ n) as [n' r]. cbn [fst] in E. rewrite E. destruct r; cbn; lia.
  - unfold n_send. destruct (_ <? _); [cbn; lia|]. destruct (_ <=? _); [cbn; lia|]. destruct (_ <? _); [cbn; lia|].
    destruct (bytes_eqb (tx_sender tx) (tx_receiver tx)) eqn:Ev; cbn [with_txs with_gases n_amounts good coins_in coins_out]; [rewrite Ev; lia|].
    destruct (move _ _ _ _) as [l|] eqn:E; cbn [with_txs with_gases with_amounts n_amounts good coins_in coins_out]; [|lia].
    pose proof (move_held w _ _ _ _ _ E) as M. rewrite Ev in *. cbn [with_txs n_amounts] in M. lia.
  - unfold n_emit. cbv zeta. destruct (n_header _ _ _ _ _ _ _ _ _); cbn [good coins_in coins_out]; try lia. destruct (_ =? 0); destruct txs; cbn [n_amounts with_blocks good coins_in coins_out]; try lia.
    rewrite held_put, (proj2 (bytes_eqb_neq _ _) Hr). lia.
  - unfold n_emit_side. cbv zeta. destruct (match snd (n_chain founder n) with [] => _ | _ :: _ => _ end); cbn; lia.
  - cbn; lia.
  - destruct (_ =? _); cbn; lia.
  - cbn; lia.
  - destruct (negb _); [cbn; lia|]. destruct (_ =? _); cbn; lia.
  - cbn; lia.
  - cbn; lia.
  - cbn; lia.
Qed.
Lemma restart_held w n : w <> ROOT_PUBLIC_ADDRESS -> held w (n_amounts (n_restart n)) = held w (n_amounts n).
Proof. intros H. unfold n_restart. cbn [n_amounts]. destruct (_ =? 1); [|reflexivity]. rewrite held_put, (proj2 (bytes_eqb_neq _ _) H). reflexivity. Qed.

Lemma total_cons {A} (f : A -> N) x l : total f (x :: l) = f x + total f l.
Proof. reflexivity. Qed.
Lemma run_gas p w evs : forall n rs, Forall2 same_answer rs (snd (n_run p n evs)) ->
  held w (n_gas (fst (n_run p n evs))) + total (gas_out w) (statement evs rs) = held w (n_gas n) + total (gas_in w) (statement evs rs).
Proof.
  induction evs as [|e evs IH]; intros n rs H; cbn [n_run] in *; [reflexivity|]. destruct e as [o|]; cbn [n_run] in *.
  - pose proof (gas_step p n o w) as S. destruct (n_step p n o) as [n1 a]. specialize (IH n1). destruct (n_run p n1 evs) as [n2 l]. cbn [fst snd] in *.
    inversion H as [|r ? rs' ? Hr Hrs]; subst. specialize (IH rs' Hrs). unfold statement in *. cbn [calls_of flat_map app combine]. fold (calls_of evs). rewrite !total_cons, gas_out_ok, gas_in_ok, (same_good _ _ Hr). lia.
  - specialize (IH (n_restart n) rs H). cbn [n_restart n_gas] in IH. exact IH.
Qed.
Lemma run_coins p w evs : w <> ROOT_PUBLIC_ADDRESS -> Forall (not_set w) (calls_of evs) -> forall n rs, Forall2 same_answer rs (snd (n_run p n evs)) ->
  held w (n_amounts (fst (n_run p n evs))) + total (coins_out w) (statement evs rs) = held w (n_amounts n) + total (coins_in w) (statement evs rs).
Proof.
  intros Hw. induction evs as [|e evs IH]; intros Hs n rs H; cbn [n_run] in *; [reflexivity|]. destruct e as [o|]; cbn [n_run] in *.
  - cbn [calls_of flat_map app] in Hs. inversion Hs as [|? ? Ho Hs']; subst.
    pose proof (coins_step p n o w Hw Ho) as S. destruct (n_step p n o) as [n1 a]. specialize (IH Hs' n1). destruct (n_run p n1 evs) as [n2 l]. cbn [fst snd] in *.
    inversion H as [|r ? rs' ? Hr Hrs]; subst. specialize (IH rs' Hrs). unfold statement in *. cbn [calls_of flat_map app combine]. fold (calls_of evs). rewrite !total_cons, coins_out_ok, coins_in_ok, (same_good _ _ Hr). lia.
  - specialize (IH Hs (n_restart n) rs H). rewrite (restart_held w n Hw) in IH. exact IH.
Qed.
Lemma run_length p evs : forall n, length (snd (n_run p n evs)) = length (calls_of evs).
Proof.
  induction evs as [|[o|] evs IH]; intros n; cbn [n_run calls_of flat_map app length]; [reflexivity| |apply IH].
  destruct (n_step p n o) as [n1 a]. specialize (IH n1). destruct (n_run p n1 evs). cbn [snd length] in *. f_equal. exact IH.
Qed.
Lemma F2_length {A B} (R : A -> B -> Prop) l m : Forall2 R l m -> length l = length m.
Proof. induction 1; [reflexivity|cbn [length]; congruence]. Qed.

(*@T C119, gas.  After any history of calls and careful restarts the gas of every account is what the successful calls gave it minus what the successful calls and
    transactions took from it; one result belongs to each call. *)
Lemma p_C119_gas : forall p evs t t' rs, few (length evs) -> Forall (sane p) evs -> t_new disk_empty = Ok t -> code_run p t evs = Some (t', rs) ->
  length rs = length (calls_of evs) /\
  forall w, exists g, t_get_gas w t' = Ok g /\ g + total (gas_out w) (statement evs rs) = total (gas_in w) (statement evs rs).
Proof.
  intros p evs t t' rs Hf Hs Et Er. destruct (p_C111_refinement p evs Hf Hs) as (t1 & t2 & rs2 & E1 & E2 & R). rewrite Et in E1. apply ok_inj in E1 as <-. rewrite Er in E2. injection E2 as <- <-.
  pose proof (run_length p evs n_start) as Hl. pose proof (fun w => run_gas p w evs n_start rs) as G. destruct (n_run p n_start evs) as [n l]. destruct R as [R1 R2]. cbn [fst snd] in *.
  split; [rewrite <- Hl; apply (F2_length _ _ _ R1)|]. intros w. exists (held w (n_gas n)). destruct R2 as (_ & _ & _ & _ & _ & _ & Ha & _). split; [apply Ha|]. specialize (G w R1). exact G.
Qed.

(*@T C119, coins.  The same for the coins of every account but the root account, whose amount is set when an epoch ends, and when it is not overwritten by [set_amount]. *)
Lemma p_C119_coins : forall p evs t t' rs w, few (length evs) -> Forall (sane p) evs -> t_new disk_empty = Ok t -> code_run p t evs = Some (t', rs) ->
  w <> ROOT_PUBLIC_ADDRESS -> Forall (not_set w) (calls_of evs) ->
  exists a, t_get_amount w t' = Ok a /\ a + total (coins_out w) (statement evs rs) = total (coins_in w) (statement evs rs).
Proof.
  intros p evs t t' rs w Hf Hs Et Er Hw Hn. destruct (p_C111_refinement p evs Hf Hs) as (t1 & t2 & rs2 & E1 & E2 & R). rewrite Et in E1. apply ok_inj in E1 as <-. rewrite Er in E2. injection E2 as <- <-.
  pose proof (run_coins p w evs Hw Hn n_start rs) as G. destruct (n_run p n_start evs) as [n l]. destruct R as [R1 R2]. cbn [fst snd] in *.
  exists (held w (n_amounts n)). destruct R2 as (_ & _ & _ & _ & _ & _ & Ha & _). split; [apply Ha|]. specialize (G R1).
  assert (Z : held w (n_amounts n_start) = 0).
  { unfold n_start, held, entry. cbn [n_amounts find fst]. rewrite (proj2 (bytes_eqb_neq _ _) Hw). reflexivity. }
  rewrite Z in G. exact G.
Qed.
(*@E
(** Two transfers, a transaction, an overdraft that panics, a transfer of gas, a restart in between. *)
Example C119_ex :
  let evs := [Call (OAddAmount addrA 1000000000); Call (OAddGas addrA (10 ^ 18)); Call (OSendTx (demo_tx 1000 (repeat 7 64))); Restart;
    Call (OSubGas addrB 5); Call (OSendGas addrA addrB 77); Call (OSendAmount addrB addrA 400)] in
  few (length evs) /\ Forall (sane Debug) evs /\
  let '(n, l) := n_run Debug n_start evs in
  map (fun a => match a with Ok _ => true | _ => false end) l = [true; true; true; false; true; true] /\
  held addrA (n_amounts n) = 1000000000 - 1000 + 400 /\ held addrB (n_amounts n) = 1000 - 400 /\
  held addrB (n_gas n) = 77 /\ held addrA (n_gas n) + 77 + gas_charge (demo_tx 1000 (repeat 7 64)) = 10 ^ 18.
Proof.
  cbv zeta. split; [reflexivity|]. split.
  - repeat (apply Forall_cons; [repeat split; try reflexivity; repeat constructor; reflexivity|]). constructor.
  - vm_compute. repeat split.
Qed.
Example C119_ex_coins : addrA <> ROOT_PUBLIC_ADDRESS /\ Forall (not_set addrA) (calls_of [Call (OAddAmount addrA 5); Restart; Call (OSetAmount addrB 7)]).
Proof. split; [vm_compute; discriminate|]. repeat constructor. vm_compute. discriminate. Qed.
@*)

(** ** All accounts together *)
Lemma sum_zero f A : (forall w, In w A -> f w = 0) -> sum_over f A = 0.
Proof. intros H. unfold sum_over. induction A as [|x A IH]; cbn [map fold_right]; [reflexivity|]. rewrite (H x (or_introl eq_refl)), IH; [reflexivity|]. intros w Hw. apply H. right. exact Hw. Qed.
Lemma sum_plus f g A : sum_over (fun w => f w + g w) A = sum_over f A + sum_over g A.
Proof. unfold sum_over. induction A as [|x A IH]; cbn [map fold_right]; [reflexivity|lia]. Qed.
Lemma sum_eq f g A : (forall w, In w A -> f w = g w) -> sum_over f A = sum_over g A.
Proof. intros H. unfold sum_over. induction A as [|x A IH]; cbn [map fold_right]; [reflexivity|]. rewrite (H x (or_introl eq_refl)), IH; [reflexivity|]. intros w Hw. apply H. right. exact Hw. Qed.
Lemma sum_one v a A : NoDup A -> In v A -> sum_over (fun w => if_account w v a) A = a.
Proof.
  unfold sum_over. induction A as [|x A IH]; intros Hd Hi; [destruct Hi|]. apply NoDup_cons_iff in Hd as [Hx Hd]. cbn [map fold_right]. unfold if_account at 1. destruct (bytes_eqb x v) eqn:E.
  - apply bytes_eqb_eq in E as ->. pose proof (sum_zero (fun w => if_account w v a) A) as Z. unfold sum_over in Z. rewrite Z; [lia|].
    intros w Hw. unfold if_account. destruct (bytes_eqb w v) eqn:Ew; [apply bytes_eqb_eq in Ew as ->; contradiction|reflexivity].
  - destruct Hi as [->|Hi]; [rewrite bytes_eqb_refl in E; discriminate E|]. rewrite (IH Hd Hi). reflexivity.
Qed.
Lemma sum_total {X} (h : bytes -> X -> N) l A : sum_over (fun w => total (h w) l) A = total (fun x => sum_over (fun w => h w x) A) l.
Proof.
  induction l as [|x l IH]; [apply sum_zero; reflexivity|]. rewrite total_cons, <- IH, <- sum_plus. reflexivity.
Qed.
Lemma call_balance A x : NoDup A -> incl (gas_accounts (fst x)) A ->
  sum_over (fun w => gas_in w x) A + gas_removed x = sum_over (fun w => gas_out w x) A + gas_added x.
Proof.
  intros Hd Hi. destruct x as [o r]. cbn [fst] in Hi. rewrite (sum_eq (fun w => gas_in w (o, r)) (fun w => with_ok (gas_in w) o (good r)) A (fun w _ => gas_in_ok w o r)).
  rewrite (sum_eq (fun w => gas_out w (o, r)) (fun w => with_ok (gas_out w) o (good r)) A (fun w _ => gas_out_ok w o r)).
  assert (Z : sum_over (fun _ => 0) A = 0) by (apply sum_zero; reflexivity).
  assert (I1 : forall v, In v (gas_accounts o) -> forall a, sum_over (fun w => if_account w v a) A = a) by (intros v Hv a; apply sum_one; [exact Hd|apply Hi, Hv]).
  destruct r as [u| | |]; unfold with_ok; cbn [good]; destruct o as [v a|v a|v a|v u' a|v a|v a|v u' a|tx|pow founder txs ts|pow founder ts|v|b txs|txs|v i| | |v];
    cbn [gas_in gas_out gas_added gas_removed gas_accounts] in *; rewrite ?Z; try lia.
  - rewrite I1 by (left; reflexivity). lia.
  - rewrite I1 by (left; reflexivity). lia.
  - rewrite I1 by (right; left; reflexivity). destruct (bytes_eqb v u'); rewrite ?Z; [lia|]. rewrite I1 by (left; reflexivity). lia.
  - rewrite I1 by (left; reflexivity). lia.
Qed.
Lemma total_eq {A} (f g : A -> N) l : (forall x, In x l -> f x = g x) -> total f l = total g l.
Proof. intros H. induction l as [|x l IH]; [reflexivity|]. rewrite !total_cons, (H x (or_introl eq_refl)), IH; [reflexivity|]. intros y Hy. apply H. right. exact Hy. Qed.
Lemma total_plus {A} (f g : A -> N) l : total (fun x => f x + g x) l = total f l + total g l.
Proof. induction l as [|x l IH]; [reflexivity|]. rewrite !total_cons, IH. lia. Qed.

(*@T C119, all gas.  The gas of all accounts together is what was added, and what accounts sent to themselves, minus what was subtracted and what transactions were charged:
    transfers between accounts, blocks of all kinds, epochs and restarts neither make nor destroy gas. *)
Lemma p_C119_all_gas : forall p evs t t' rs A, few (length evs) -> Forall (sane p) evs -> t_new disk_empty = Ok t -> code_run p t evs = Some (t', rs) ->
  NoDup A -> incl (flat_map gas_accounts (calls_of evs)) A ->
  exists g, gases t' g /\ (forall w, g w <> 0 -> In w A) /\
    sum_over g A + total gas_removed (statement evs rs) = total gas_added (statement evs rs).
Proof.
  intros p evs t t' rs A Hf Hs Et Er Hd Hi. destruct (p_C119_gas p evs t t' rs Hf Hs Et Er) as [Hl G].
  set (l := statement evs rs) in *. set (g := fun w => match t_get_gas w t' with Ok x => x | _ => 0 end).
  assert (Hg : forall w, t_get_gas w t' = Ok (g w) /\ g w + total (gas_out w) l = total (gas_in w) l).
  { intros w. destruct (G w) as (x & E & B). unfold g. rewrite E. auto. }
  assert (Hacc : forall x, In x l -> incl (gas_accounts (fst x)) A).
  { intros [o r] Hx. apply in_combine_l in Hx. intros w Hw. apply Hi, in_flat_map. exists o. auto. }
  exists g. split; [intros w; apply Hg|]. split.
  - intros w Hw. destruct (in_dec (list_eq_dec N.eq_dec) w A) as [H|H]; [exact H|]. exfalso. apply Hw. destruct (Hg w) as [_ B].
    assert (Z : total (gas_in w) l = 0); [|lia]. clear -Hacc H. induction l as [|x l IH]; [reflexivity|]. rewrite total_cons, IH by (intros y Hy; apply Hacc; right; exact Hy).
    specialize (Hacc x (or_introl eq_refl)). destruct x as [o r].
    assert (N : forall v a, In v (gas_accounts o) -> if_account w v a = 0).
    { intros v a Hv. unfold if_account. destruct (bytes_eqb w v) eqn:E; [|reflexivity]. apply bytes_eqb_eq in E as ->. destruct (H (Hacc v Hv)). }
    destruct o, r; cbn [gas_in gas_accounts] in *; try reflexivity; rewrite N; try reflexivity; [left; reflexivity|right; left; reflexivity].
  - assert (S : sum_over g A + sum_over (fun w => total (gas_out w) l) A = sum_over (fun w => total (gas_in w) l) A).
    { rewrite <- sum_plus. apply sum_eq. intros w _. apply Hg. }
    rewrite !(sum_total (fun w => gas_out w)), !(sum_total (fun w => gas_in w)) in S.
    assert (T : total (fun x => sum_over (fun w => gas_in w x) A) l + total gas_removed l = total (fun x => sum_over (fun w => gas_out w x) A) l + total gas_added l).
    { rewrite <- !total_plus. apply total_eq. intros x Hx. apply call_balance; [exact Hd|apply Hacc, Hx]. }
    lia.
Qed.
(*@E
Example C119_all_gas_ex : let evs := [Call (OAddGas addrA 100); Restart; Call (OSendGas addrA addrB 30); Call (OSubGas addrB 10)] in
  few (length evs) /\ Forall (sane Release) evs /\ NoDup [addrA; addrB] /\ incl (flat_map gas_accounts (calls_of evs)) [addrA; addrB] /\
  let '(n, l) := n_run Release n_start evs in held addrA (n_gas n) = 70 /\ held addrB (n_gas n) = 20.
Proof.
  cbv zeta. split; [reflexivity|]. split; [repeat (apply Forall_cons; [repeat split; try reflexivity; repeat constructor; reflexivity|]); constructor|].
  split; [constructor; [intros [E|[]]; vm_compute in E; discriminate E|constructor; [intros []|constructor]]|].
  split; [cbn; intros w Hw; cbn in *; tauto|]. vm_compute. split; reflexivity.
Qed.
@*)

(*@T C119 is not conservation: an account that sends itself gas gains it.  Gas [a] becomes [(k + 1) * a] in [k] calls, each of which succeeds. *)
Lemma p_C119_forged_refuted : forall p w a k, bytes_ok w -> few (S k) -> (N.of_nat k + 1) * a < 2 ^ 256 ->
  exists t t', t_new disk_empty = Ok t /\
  code_run p t (Call (OAddGas w a) :: repeat (Call (OSendGas w w a)) k) = Some (t', repeat (Ok RUnit) (S k)) /\
  t_get_gas w t' = Ok ((N.of_nat k + 1) * a).
Proof.
  intros p w a k Hw Hf Hk. set (evs := Call (OAddGas w a) :: repeat (Call (OSendGas w w a)) k).
  assert (Ha : u256_ok a) by (unfold u256_ok; nia).
  assert (Hs : Forall (sane p) evs).
  { constructor; [repeat split; assumption|]. apply Forall_forall. intros e He. apply repeat_spec in He as ->. repeat split; assumption. }
  destruct (p_C111_refinement p evs) as (t & t' & rs & E1 & E2 & R); [subst evs; cbn [length]; rewrite repeat_length; exact Hf|exact Hs|].
  assert (K : forall j n, held w (n_gas n) + N.of_nat j * a < 2 ^ 256 -> a <= held w (n_gas n) -> let '(n', l) := n_run p n (repeat (Call (OSendGas w w a)) j) in
    l = repeat (Ok AUnit) j /\ held w (n_gas n') = held w (n_gas n) + N.of_nat j * a).
  { clear. intros j. induction j as [|j IH]; intros n H Hle; cbn [repeat n_run]; [split; [reflexivity|lia]|].
    cbn [n_step]. unfold do_gas, move. destruct (N.leb_spec a (held w (n_gas n))); [|lia]. cbn [andb]. destruct (N.ltb_spec (held w (n_gas n) + a) (2 ^ 256)); [|nia].
    set (n1 := with_gases n _). assert (Hn1 : held w (n_gas n1) = held w (n_gas n) + a) by (cbn [n1 with_gases n_gas]; rewrite held_put, bytes_eqb_refl; reflexivity).
    specialize (IH n1 ltac:(rewrite Hn1; nia) ltac:(lia)). destruct (n_run p n1 _) as [n2 l]. destruct IH as [-> ->]. split; [reflexivity|rewrite Hn1; nia]. }
  exists t, t'. split; [exact E1|]. rewrite E2. cbn [n_run n_step evs] in R. unfold do_gas, give in R. change (held w (n_gas n_start)) with 0 in R. cbn [N.add] in R.
  destruct (N.ltb_spec a (2 ^ 256)); [|unfold u256_ok in Ha; lia].
  match type of R with context [n_run p ?x _] => set (n1 := x) in R end. assert (Hn1 : held w (n_gas n1) = a) by (cbn [n1 with_gases n_gas]; rewrite held_put, bytes_eqb_refl; reflexivity).
  specialize (K k n1 ltac:(rewrite Hn1; nia) ltac:(lia)). destruct (n_run p n1 _) as [n2 l]. destruct K as [-> K2]. destruct R as [R1 R2]. split.
  - f_equal. f_equal. change (Ok AUnit :: repeat (Ok AUnit) k) with (repeat (Ok AUnit) (S k)) in R1. clear -R1. revert rs R1. generalize (S k) as m. intros m. induction m as [|m IH]; intros rs R1; cbn [repeat] in *; inversion R1 as [|r ? rs' ? Hr Hrs]; subst; [reflexivity|].
    rewrite (IH rs' Hrs). destruct r as [[]| | |]; cbn in Hr; try contradiction. reflexivity.
  - destruct R2 as (_ & _ & _ & _ & _ & _ & Ha' & _). destruct (Ha' w) as (_ & -> & _). f_equal. rewrite K2, Hn1. lia.
Qed.
(*@E
Example C119_forged_ex : bytes_ok addrA /\ few 4 /\ (N.of_nat 3 + 1) * 5 < 2 ^ 256 /\
  held addrA (n_gas (fst (n_run Debug n_start (Call (OAddGas addrA 5) :: repeat (Call (OSendGas addrA addrA 5)) 3)))) = 20.
Proof. split; [repeat constructor|]. split; [reflexivity|]. split; [reflexivity|vm_compute; reflexivity]. Qed.
@*)
