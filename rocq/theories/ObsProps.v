(** C113, C114: calls without a trace, calls that can be swapped. *)
From Coq Require Import Lia ZifyBool ZifyNat ZifyN.
From Verif Require Import Base Sha256 Merkle Tools Transaction Block Sled Chain Tree Spec Reach LedgerSpec NodeSpec ProfileSpec ObsSpec Demo.
From Verif Require Import BaseFacts DerivFacts NodeProps ObsFacts.

Local Strategy 1000 [sha256 block_dump tx_dump build_tree block_hash to_be root_of].

Lemma forall2_length {A B} (R : A -> B -> Prop) l l' : Forall2 R l l' -> length l = length l'.
Proof. induction 1; cbn [length]; congruence. Qed.

(** ** Calls without a trace *)
Lemma open_step p n o w : is_open w (fst (n_step p n o)) =
  match o with OGetDeriv x | OEmitDeriv _ x _ => is_open w n || bytes_eqb w x | _ => is_open w n end.
Proof.
  destruct o; cbn [n_step].
  1-7: unfold do_amounts, do_gas; repeat match goal with |- context [if ?x then _ else _] => destruct x end;
    try match goal with |- context [match ?x with Some _ => _ | None => _ end] => destruct x end; reflexivity.
  - unfold n_send. destruct (_ <? _); [reflexivity|]. destruct (_ <=? _); [reflexivity|]. destruct (_ <? _); [reflexivity|].
    destruct (bytes_eqb _ _); [reflexivity|]. destruct (move _ _ _ _); reflexivity.
  - unfold n_emit. destruct (n_header _ _ _ _ _ _ _ _ _); try reflexivity. destruct (_ =? 0), txs; reflexivity.
  - unfold n_emit_side. match goal with |- context [match ?x with Ok _ => _ | _ => _ end] => destruct x end; cbn [fst]; rewrite is_open_with_chain; apply Bool.orb_comm.
  - cbn [fst]. rewrite is_open_with_chain. apply Bool.orb_comm.
  - destruct (_ =? _); reflexivity.
  - reflexivity.
  - destruct (is_open owner n) eqn:E; [|reflexivity]. cbn [negb]. destruct (_ =? _); [|reflexivity]. cbn [fst]. rewrite is_open_with_chain.
    destruct (bytes_eqb w owner) eqn:F; [|reflexivity]. apply bytes_eqb_eq in F. subst w. rewrite E. reflexivity.
  - reflexivity.
  - reflexivity.
  - reflexivity.
Qed.
Lemma open_run p w evs : forall n, is_open w (fst (n_run p n evs)) = asked w evs (is_open w n).
Proof.
  induction evs as [|[o|] evs IH]; intros n; [reflexivity| |].
  - rewrite run_call. cbn [fst asked]. rewrite IH, open_step. destruct o; reflexivity.
  - cbn [n_run asked]. rewrite IH. reflexivity.
Qed.
Lemma same_reopened n w : good n -> is_open w n = true -> same n (with_chain n w (n_chain w n)).
Proof.
  intros G E q. destruct q as [x|x| |h|x]; try stay. cbn [agree]. rewrite chain_with_chain, is_open_with_chain.
  destruct (bytes_eqb x w) eqn:F; [|split; reflexivity]. apply bytes_eqb_eq in F. subst x. rewrite E. split; [|reflexivity].
  unfold n_chain. pose proof (go_open _ G w E). destruct (assoc_get w (n_chains n)); [reflexivity|contradiction].
Qed.
Definition afailed (a : out answer) : Prop := match a with Ok _ => False | _ => True end.
Lemma failed_answer r a : same_answer r a -> failed r -> afailed a.
Proof. destruct r as [[]|e| |], a as [[]|e'| |]; cbn; tauto. Qed.

Lemma no_trace p n o before r a : good n -> (forall w, is_open w n = asked w before false) -> a = snd (n_step p n o) ->
  same_answer r a -> traceless before o r -> same n (fst (n_step p n o)).
Proof.
  intros G HO Ha HS HT. destruct o; cbn [traceless] in HT; try (apply (failed_answer _ _ HS) in HT); cbn [n_step] in *.
  1-7: unfold do_amounts, do_gas in *; repeat match goal with H : context [if ?x then _ else _] |- _ => destruct x end;
    try match goal with H : context [match ?x with Some _ => _ | None => _ end] |- _ => destruct x end; subst a; try contradiction; apply same_refl.
  - destruct HT as [e ->]. unfold n_send in *. destruct (_ <? _); [apply same_refl|]. destruct (_ <=? _); [apply same_refl|].
    destruct (_ <? _); [apply same_refl|]. destruct (bytes_eqb _ _); [subst a; contradiction|]. destruct (move _ _ _ _); subst a; contradiction.
  - unfold n_emit in *. destruct (n_header _ _ _ _ _ _ _ _ _); try apply same_refl. destruct (_ =? 0), txs; try apply same_refl; subst a; contradiction.
  - destruct HT as [HF HT]. apply (failed_answer _ _ HS) in HF. rewrite <- HO in HT. unfold n_emit_side in *.
    match goal with |- context [match ?x with Ok _ => _ | _ => _ end] => destruct x end; [subst a; contradiction|..]; apply same_reopened; assumption.
  - rewrite <- HO in HT. apply same_reopened; assumption.
  - destruct (_ =? _); [subst a; contradiction|apply same_refl].
  - subst a. contradiction.
  - destruct (negb _); [apply same_refl|]. destruct (_ =? _); [subst a; contradiction|apply same_refl].
  - apply same_refl.
  - apply same_refl.
  - apply same_refl.
Qed.

(*@T C113: take any history and any call in it that is a flush, or that failed, or that asked for a chain already asked for in this process.
    Without that call all later calls return the same and afterwards no query tells the two trees apart.  Excepted are transactions that
    panic and failing emissions of derivative blocks for an owner whose chain was not asked for before. *)
Lemma p_C113_no_trace_partial : forall p before o after, few (length (before ++ Call o :: after)) -> Forall (sane p) (before ++ Call o :: after) ->
  exists t t1 t2 rs0 r rs1 rs0' rs1', t_new disk_empty = Ok t /\
  code_run p t (before ++ Call o :: after) = Some (t1, rs0 ++ r :: rs1) /\ length rs0 = length (calls before) /\
  code_run p t (before ++ after) = Some (t2, rs0' ++ rs1') /\ Forall2 alike_result rs0 rs0' /\
  (traceless before o r -> Forall2 alike_result rs1 rs1' /\ alike t1 t2).
Proof.
  intros p before o after Hf Hs. destruct (p_C111_refinement p _ Hf Hs) as (t & t1 & rs & Et & E1 & H1).
  assert (Hf2 : few (length (before ++ after))) by (unfold few in *; rewrite app_length in *; cbn [length] in Hf; lia).
  assert (Hs2 : Forall (sane p) (before ++ after)).
  { apply Forall_app in Hs as [S1 S2]. inversion S2; subst. apply Forall_app. auto. }
  destruct (p_C111_refinement p _ Hf2 Hs2) as (t' & t2 & rs' & Et' & E2 & H2). assert (t' = t) by congruence. subst t'.
  rewrite run_app, run_call in H1. rewrite run_app in H2. cbn [fst snd] in H1, H2.
  pose proof (good_run p before n_start good_start) as G. pose proof (fun w => open_run p w before n_start) as HO.
  assert (Hlen : length (snd (n_run p n_start before)) = length (calls before)).
  { clear. generalize n_start as n. induction before as [|[o|] l IH]; intros n; [reflexivity| |].
    - rewrite run_call. cbn [snd length calls flat_map app]. rewrite IH. reflexivity.
    - cbn [n_run]. apply IH. }
  destruct (n_run p n_start before) as [n0 l0]. cbn [fst snd] in *. destruct H1 as [F1 A1]. destruct H2 as [F2 A2].
  apply Forall2_app_inv_r in F1 as (rs0 & rr & F0 & F1 & ->). inversion F1 as [|r a rs1 ? HS F1' Ea Eb]. subst rr. clear F1. 
  apply Forall2_app_inv_r in F2 as (rs0' & rs1' & F0' & F2 & ->).
  exists t, t1, t2, rs0, r, rs1, rs0', rs1'. split; [exact Et|]. split; [exact E1|].
  split; [rewrite (forall2_length _ _ _ F0); exact Hlen|]. split; [exact E2|]. split; [eapply alike_from_answers; eassumption|].
  intros HT. pose proof (no_trace p n0 o before r _ G HO eq_refl HS HT) as SM. pose proof (good_step p n0 o G) as G1.
  destruct (same_run p after _ _ G G1 SM) as [R1 R2]. split.
  - eapply alike_from_answers; [exact F1'|]. rewrite <- R1. exact F2.
  - eapply alike_from_node; [apply good_run, G1|apply good_run, G|exact A1|exact A2|]. intros q. apply agree_sym, R2.
Qed.

(*@T C113: the exceptions are real.  A transaction whose transfer panics (the receiver would have more than 2^256-1) has not moved anything
    and is stored all the same ... *)
Lemma p_C113_transaction_refuted : exists evs tx t t1 t2 rs, t_new disk_empty = Ok t /\ Forall (sane Debug) (evs ++ [Call (OSendTx tx)]) /\
  code_run Debug t (evs ++ [Call (OSendTx tx)]) = Some (t1, rs ++ [Panic]) /\ code_run Debug t evs = Some (t2, rs) /\
  mc_transaction_exists (sha256 (tx_dump tx)) (t_main t1) = true /\ mc_transaction_exists (sha256 (tx_dump tx)) (t_main t2) = false /\
  forall w, t_get_amount w t1 = t_get_amount w t2 /\ t_get_gas w t1 = t_get_gas w t2.
Proof.
  pose (evs := [Call (OAddAmount addrA 1000000000); Call (OAddGas addrA (10 ^ 18)); Call (OSetAmount addrB (2 ^ 256 - 1))]).
  pose (tx := demo_tx 1000 (repeat 7 64)). pose (t1 := match code_run Debug fresh (evs ++ [Call (OSendTx tx)]) with Some (t, _) => t | None => fresh end).
  pose (t2 := match code_run Debug fresh evs with Some (t, _) => t | None => fresh end).
  exists evs, tx, fresh, t1, t2, [Ok RUnit; Ok RUnit; Ok RUnit]. split; [vm_compute; reflexivity|]. split.
  { repeat (apply Forall_cons; [repeat split; try reflexivity; repeat constructor; reflexivity|]). constructor. }
  split; [vm_compute; reflexivity|]. split; [vm_compute; reflexivity|]. split; [vm_compute; reflexivity|]. split; [vm_compute; reflexivity|].
  assert (E1 : t_summary t1 = t_summary t2) by (vm_compute; reflexivity). assert (E2 : t_gas t1 = t_gas t2) by (vm_compute; reflexivity).
  intros w. unfold t_get_amount, t_get_gas. rewrite E1, E2. split; reflexivity.
Qed.
(*@T ... and an emission of a derivative block that is refused for lack of work still ties the owner's chain to the main block that was last then. *)
Lemma p_C113_derivative_refuted : exists o w t c c', t_new disk_empty = Ok t /\ sane Debug (Call o) /\ snd (step Debug t o) = Err ETreeWrongPow /\
  (exists t1 rs, code_run Debug t [Call o; Call emit_good] = Some (t1, rs) /\ snd (t_get_derivative_chain w t1) = Ok c) /\
  (exists t2 rs, code_run Debug t [Call emit_good] = Some (t2, rs) /\ snd (t_get_derivative_chain w t2) = Ok c') /\
  dc_genesis c = block_hash (last_of t) /\ dc_genesis c' <> dc_genesis c.
Proof.
  pose (o := OEmitDeriv (repeat 4 32) addrA 1597926000).
  pose (tree_of := fun evs => match code_run Debug fresh evs with Some (t, _) => t | None => fresh end).
  pose (results_of := fun evs => match code_run Debug fresh evs with Some (_, rs) => rs | None => [] end).
  pose (chain_of := fun evs => match snd (t_get_derivative_chain addrA (tree_of evs)) with Ok c => c | _ => MkDeriv sled_empty sled_empty 0 [] [] file_absent end).
  exists o, addrA, fresh, (chain_of [Call o; Call emit_good]), (chain_of [Call emit_good]). split; [vm_compute; reflexivity|].
  split; [repeat split; try reflexivity; repeat constructor; reflexivity|]. split; [vm_compute; reflexivity|].
  split; [exists (tree_of [Call o; Call emit_good]), (results_of [Call o; Call emit_good]); split; vm_compute; reflexivity|].
  split; [exists (tree_of [Call emit_good]), (results_of [Call emit_good]); split; vm_compute; reflexivity|].
  split; [vm_compute; reflexivity|]. intros E. vm_compute in E. discriminate E.
Qed.
(*@E
(* A refused transfer, a refused block, a flush and asking again for an open chain: all without a trace. *)
Example C113_ex : let before := [Call (OAddAmount addrA 7); Call (OGetDeriv addrA)] in
  traceless before (OSubAmount addrA 9) (snd (step Debug (run Debug fresh [OAddAmount addrA 7; OGetDeriv addrA]) (OSubAmount addrA 9))) /\
  traceless before emit_bad (snd (step Debug (run Debug fresh [emit_good]) emit_bad)) /\
  traceless before OFlush (Ok RUnit) /\ traceless before (OGetDeriv addrA) (Ok RUnit) /\
  ~ traceless before (OAddAmount addrA 7) (snd (step Debug fresh (OAddAmount addrA 7))) /\
  ~ traceless [Restart] (OGetDeriv addrA) (Ok RUnit).
Proof. cbv zeta. split; [exact I|]. split; [vm_compute; exact I|]. split; [exact I|]. split; [reflexivity|]. split; [intros H; exact H|discriminate]. Qed.
@*)

(** ** Swapping *)
Lemma swap_steps p n a b : good n -> unrelated a b ->
  let na := fst (n_step p n a) in let nb := fst (n_step p n b) in
  snd (n_step p nb a) = snd (n_step p n a) /\ snd (n_step p na b) = snd (n_step p n b) /\
  same (fst (n_step p na b)) (fst (n_step p nb a)).
Proof.
  intros G U na nb. pose proof (good_step p n a G : good na) as Ga. pose proof (good_step p n b G : good nb) as Gb.
  assert (La : local p a n nb).
  { apply local_step; [exact G|exact Gb|]. intros q Hq. apply frame_step. intros T. destruct (U q) as [U1 U2]. tauto. }
  assert (Lb : local p b n na).
  { apply local_step; [exact G|exact Ga|]. intros q Hq. apply frame_step. intros T. destruct (U q) as [U1 U2]. tauto. }
  destruct La as [La1 La2], Lb as [Lb1 Lb2]. split; [symmetry; exact La1|]. split; [symmetry; exact Lb1|]. intros q. destruct (U q) as [U1 U2].
  destruct (touches_dec a q) as [Ta|Ta].
  - assert (Tb : ~ touches b q) by tauto. eapply agree_trans; [apply agree_sym, frame_step, Tb|]. apply La2, Ta.
  - eapply agree_trans; [|apply frame_step, Ta]. destruct (touches_dec b q) as [Tb|Tb].
    + apply agree_sym, Lb2, Tb.
    + eapply agree_trans; [apply agree_sym, frame_step, Tb|]. eapply agree_trans; [apply agree_sym, frame_step, Ta|apply frame_step, Tb].
Qed.

(*@T C114: two neighbouring calls that work on different parts of the node can be swapped in any history: both return the same as before,
    all other calls return the same, and afterwards no query tells the two trees apart. *)
Lemma p_C114_swap : forall p before a b after, unrelated a b ->
  few (length (before ++ Call a :: Call b :: after)) -> Forall (sane p) (before ++ Call a :: Call b :: after) ->
  exists t t1 t2 rs0 ra rb rs1 rs0' ra' rb' rs1', t_new disk_empty = Ok t /\
  code_run p t (before ++ Call a :: Call b :: after) = Some (t1, rs0 ++ ra :: rb :: rs1) /\ length rs0 = length (calls before) /\
  code_run p t (before ++ Call b :: Call a :: after) = Some (t2, rs0' ++ rb' :: ra' :: rs1') /\
  Forall2 alike_result (rs0 ++ ra :: rb :: rs1) (rs0' ++ ra' :: rb' :: rs1') /\ alike t1 t2.
Proof.
  intros p before a b after U Hf Hs. destruct (p_C111_refinement p _ Hf Hs) as (t & t1 & rs & Et & E1 & H1).
  assert (Hf2 : few (length (before ++ Call b :: Call a :: after))) by (unfold few in *; rewrite app_length in *; exact Hf).
  assert (Hs2 : Forall (sane p) (before ++ Call b :: Call a :: after)).
  { apply Forall_app in Hs as [S1 S2]. inversion S2 as [|? ? X1 X2]; subst. inversion X2; subst. apply Forall_app. auto. }
  destruct (p_C111_refinement p _ Hf2 Hs2) as (t' & t2 & rs' & Et' & E2 & H2). assert (t' = t) by congruence. subst t'.
  rewrite run_app, !run_call in H1. rewrite run_app, !run_call in H2. cbn [fst snd] in H1, H2.
  pose proof (good_run p before n_start good_start) as G.
  assert (Hlen : length (snd (n_run p n_start before)) = length (calls before)).
  { clear. generalize n_start as n. induction before as [|[o|] l IH]; intros n; [reflexivity| |].
    - rewrite run_call. cbn [snd length calls flat_map app]. rewrite IH. reflexivity.
    - cbn [n_run]. apply IH. }
  destruct (n_run p n_start before) as [n0 l0]. cbn [fst snd] in *. destruct H1 as [F1 A1]. destruct H2 as [F2 A2].
  destruct (swap_steps p n0 a b G U) as (W1 & W2 & W3). rewrite W1 in F2. rewrite W2 in F1.
  pose proof (good_step p _ b (good_step p n0 a G)) as G1. pose proof (good_step p _ a (good_step p n0 b G)) as G2.
  destruct (same_run p after _ _ G1 G2 W3) as [R1 R2]. rewrite <- R1 in F2.
  apply Forall2_app_inv_r in F1 as (rs0 & rr & F0 & F1 & ->). inversion F1 as [|ra ? rr1 ? HA F1']. subst. inversion F1' as [|rb ? rs1 ? HB F1'']. subst.
  apply Forall2_app_inv_r in F2 as (rs0' & rr' & F0' & F2 & ->). inversion F2 as [|rb' ? rr1' ? HB' F2']. subst. inversion F2' as [|ra' ? rs1' ? HA' F2'']. subst.
  exists t, t1, t2, rs0, ra, rb, rs1, rs0', ra', rb', rs1'. split; [exact Et|]. split; [exact E1|].
  split; [rewrite (forall2_length _ _ _ F0); exact Hlen|]. split; [exact E2|]. split.
  - apply Forall2_app; [eapply alike_from_answers; eassumption|]. constructor; [eapply alike_from_answer; eassumption|].
    constructor; [eapply alike_from_answer; eassumption|]. eapply alike_from_answers; eassumption.
  - eapply alike_from_node; [apply good_run, G1|apply good_run, G2|exact A1|exact A2|exact R2].
Qed.
(*@E
(* Transfers and gas of different accounts, a transfer and a derivative block, two transactions of different senders; and two calls
   that are related and do not commute. *)
Example C114_ex : unrelated (OAddAmount addrA 5) (OSetAmount addrB 7) /\ unrelated (OSendAmount addrA addrB 5) (OSubGas addrA 3) /\
  unrelated deriv_1 (OSendAmount addrA addrB 5) /\ unrelated emit_good (OAddAmount addrA 5) /\
  (forall tx tx', tx_sender tx <> tx_sender tx' -> tx_sender tx <> tx_receiver tx' -> tx_receiver tx <> tx_sender tx' -> tx_receiver tx <> tx_receiver tx' ->
    sha256 (tx_dump tx) <> sha256 (tx_dump tx') -> unrelated (OSendTx tx) (OSendTx tx')) /\
  ~ unrelated (OAddAmount addrA 5) (OSetAmount addrA 7) /\
  t_get_amount addrA (run Debug fresh [OAddAmount addrA 5; OSetAmount addrA 7]) <> t_get_amount addrA (run Debug fresh [OSetAmount addrA 7; OAddAmount addrA 5]).
Proof.
  assert (N : addrA <> addrB) by (vm_compute; discriminate).
  split; [intros []; cbn; intuition congruence|]. split; [intros []; cbn; intuition congruence|]. split; [intros []; cbn; intuition congruence|].
  split; [intros []; cbn; intuition congruence|]. split; [intros tx tx' H1 H2 H3 H4 H5 []; cbn; intuition congruence|].
  split; [|vm_compute; discriminate]. intros U. destruct (U (PAmount addrA)) as [U1 _]. apply U1. cbn. auto.
Qed.
@*)
