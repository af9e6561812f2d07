(** Proofs of the statements in P_Slice.v. *)
From Coq Require Import Lia ZifyBool ZifyNat ZifyN.
From Verif Require Import Base Sha256 Tools Transaction Block Sled Chain Tree Spec Reach LedgerSpec NodeSpec ProfileSpec ObsSpec SliceSpec Demo.
From Verif Require Import BaseFacts ToolsFacts SledFacts ChainFacts TreeFacts LedgerFacts NodeFacts NodeProps ObsFacts.

Section Slice.
Variable Q : part -> Prop.
Definition agrees (n n' : anode) : Prop := forall q, Q q -> agree q n n'.
Lemma keep_step p n n' o : good n -> good n' -> agrees n n' -> may_keep Q o ->
  snd (n_step p n o) = snd (n_step p n' o) /\ agrees (fst (n_step p n o)) (fst (n_step p n' o)).
Proof.
  intros G G' H K. destruct (local_step p o n n' G G' (fun q Hq => H q (K q Hq))) as [L1 L2]. split; [exact L1|]. intros q Hq.
  destruct (touches_dec o q) as [T|T]; [apply L2, T|].
  eapply agree_trans; [apply agree_sym, frame_step, T|]. eapply agree_trans; [apply H, Hq|apply frame_step, T].
Qed.
Lemma drop_step p n n' o : agrees n n' -> may_drop Q o -> agrees (fst (n_step p n o)) n'.
Proof. intros H D q Hq. eapply agree_trans; [apply agree_sym, frame_step|apply H, Hq]. intros T. exact (D q T Hq). Qed.
Lemma restart_agrees n n' : Q PBlocks \/ ~ Q (PAmount ROOT_PUBLIC_ADDRESS) -> agrees n n' -> agrees (n_restart n) (n_restart n').
Proof.
  intros C H q Hq. pose proof (H q Hq) as A. destruct q; cbn [agree n_restart] in *; auto.
  - unfold n_restart. cbn [n_amounts]. destruct C as [C|C].
    + rewrite (height_local _ _ (H PBlocks C)). destruct (_ =? 1); [|exact A]. rewrite !entry_put, A. reflexivity.
    + assert (E : w <> ROOT_PUBLIC_ADDRESS) by (intros ->; contradiction). apply bytes_eqb_neq in E.
      destruct (n_height n =? 1), (n_height n' =? 1); rewrite ?entry_put, ?E; exact A.
  - destruct A as [A _]. split; [exact A|reflexivity].
Qed.
Lemma slice_run p l : sliced Q l -> forall n n', good n -> good n' -> agrees n n' ->
  snd (n_run p n' (remaining l)) = remaining_results l (snd (n_run p n (map snd l))) /\
  agrees (fst (n_run p n (map snd l))) (fst (n_run p n' (remaining l))).
Proof.
  induction 1 as [|[k [o|]] l Hk _ IH]; intros n n' G G' H.
  - split; [reflexivity|exact H].
  - cbn [map snd]. rewrite run_call. cbn [fst snd]. pose proof (good_step p n o G) as G1. destruct k; unfold remaining in *; cbn [filter fst map snd].
    + destruct (keep_step p n n' o G G' H Hk) as [K1 K2]. pose proof (good_step p n' o G') as G1'. destruct (IH _ _ G1 G1' K2) as [I1 I2].
      rewrite run_call. cbn [fst snd remaining_results]. rewrite <- K1, I1. split; [reflexivity|exact I2].
    + cbn [remaining_results]. apply IH; [exact G1|exact G'|]. apply drop_step; assumption.
  - destruct Hk as [-> C]. unfold remaining in *. cbn [filter fst map snd n_run remaining_results].
    apply IH; [apply good_restart, G|apply good_restart, G'|apply restart_agrees; assumption].
Qed.
End Slice.

Lemma remaining_in l e : In e (remaining l) -> In e (map snd l).
Proof. unfold remaining. intros H. apply in_map_iff in H as (x & <- & Hx). apply filter_In in Hx as [Hx _]. apply in_map, Hx. Qed.
Lemma remaining_length l : (length (remaining l) <= length (map snd l))%nat.
Proof. unfold remaining. rewrite !map_length. induction l as [|[[] e] l IH]; cbn [filter fst length]; lia. Qed.
Lemma forall2_remaining {A B} (R : A -> B -> Prop) l : forall rs xs, Forall2 R rs xs -> Forall2 R (remaining_results l rs) (remaining_results l xs).
Proof.
  induction l as [|[[] [o|]] l IH]; intros rs xs H; cbn [remaining_results]; try (destruct H; constructor; auto; fail); auto.
  destruct H; [constructor|auto].
Qed.
Lemma alike_part_from q t t' n n' : answers t n -> answers t' n' -> agree q n n' -> (forall w, q = PSide w -> agree PBlocks n n') -> alike_part q t t'.
Proof.
  intros (A1 & A2 & A3 & A4 & A5 & A6 & A7 & A8 & A9) (B1 & B2 & B3 & B4 & B5 & B6 & B7 & B8 & B9) H C.
  destruct q; cbn [alike_part].
  - destruct (A7 w) as (X & _), (B7 w) as (Y & _). rewrite X, Y. rewrite (held_entry _ _ _ H). reflexivity.
  - destruct (A7 w) as (_ & X & _), (B7 w) as (_ & Y & _). rewrite X, Y. rewrite (held_entry _ _ _ H). reflexivity.
  - pose proof (last_local _ _ H) as HL. pose proof (height_local _ _ H) as HH. destruct H as (HB & HO1 & HO2).
    split; [congruence|]. split; [intros i; destruct (A2 i), (B2 i); rewrite HB in *; congruence|].
    split; [intros h; destruct (A3 h), (B3 h); rewrite HB in *; congruence|]. split; [congruence|].
    intros w. destruct (A7 w) as (_ & _ & X3 & X4), (B7 w) as (_ & _ & Y3 & Y4). rewrite HO1, HO2 in *. split; congruence.
  - destruct (A6 h) as (_ & X & _), (B6 h) as (_ & Y & _). cbn [agree] in H. rewrite H in *. congruence.
  - intros Hw. destruct (A9 w Hw) as (c & -> & X), (B9 w Hw) as (c' & -> & Y). cbn [bind alike_result].
    rewrite (chain_local w _ _ (C w eq_refl) H) in X. exact (alike_from_chain _ _ _ X Y).
Qed.

(*@T C116.  Take any set of parts of a node (amounts and gas of accounts, the main chain, transactions, derivative chains) and any history in which every call is either confined to
   these parts or changes none of them.  Leaving out the calls of the second sort changes neither the results of the others nor, at the end, anything one can ask about these parts.
   (The place where a new derivative chain starts is the main chain's last block, so a set with derivative chains must contain the main chain.) *)
Lemma p_C116_independent : forall p Q l, sliced Q l -> (forall w, Q (PSide w) -> Q PBlocks) -> few (length l) -> Forall (sane p) (map snd l) ->
  exists t t1 t2 rs rs', t_new disk_empty = Ok t /\ code_run p t (map snd l) = Some (t1, rs) /\ code_run p t (remaining l) = Some (t2, rs') /\
    Forall2 alike_result (remaining_results l rs) rs' /\ forall q, Q q -> alike_part q t1 t2.
Proof.
  intros p Q l S C Hf Hs. destruct (p_C111_refinement p (map snd l)) as (t & t1 & rs & Et & E1 & H1); [rewrite map_length; exact Hf|exact Hs|].
  destruct (p_C111_refinement p (remaining l)) as (t' & t2 & rs' & Et' & E2 & H2).
  { pose proof (remaining_length l) as R. rewrite map_length in R. unfold few in *. lia. }
  { rewrite Forall_forall in *. intros e He. apply Hs, remaining_in, He. }
  assert (t' = t) by congruence. subst t'. exists t, t1, t2, rs, rs'. split; [exact Et|]. split; [exact E1|]. split; [exact E2|].
  destruct (slice_run Q p l S n_start n_start good_start good_start (fun q _ => agree_refl q n_start)) as [R1 R2].
  destruct (n_run p n_start (map snd l)) as [n1 x1]. destruct (n_run p n_start (remaining l)) as [n2 x2]. cbn [fst snd] in *. destruct H1 as [F1 A1]. destruct H2 as [F2 A2]. subst x2. split.
  - eapply alike_from_answers; [apply forall2_remaining, F1|exact F2].
  - intros q Hq. eapply alike_part_from; [exact A1|exact A2|apply R2, Hq|]. intros w ->. apply R2, (C w), Hq.
Qed.
(*@E
(* What happens to the amounts of two accounts does not depend on the block, the derivative block and the gifts to a third account made in between. *)
Example C116_ex :
  let Q := fun q => q = PAmount addrA \/ q = PAmount addrB in
  let l := [(true, Call (OAddAmount addrA 100)); (false, Call emit_good); (true, Call (OSendAmount addrA addrB 30)); (false, Call (OAddAmount ROOT_PUBLIC_ADDRESS 5));
            (true, Restart); (false, Call deriv_1); (true, Call (OSubAmount addrB 31)); (false, Call (OAddGas addrA 3))] in
  sliced Q l /\ (forall w, Q (PSide w) -> Q PBlocks) /\ few (length l) /\ Forall (sane Debug) (map snd l) /\
  remaining l = [Call (OAddAmount addrA 100); Call (OSendAmount addrA addrB 30); Restart; Call (OSubAmount addrB 31)] /\
  held addrA (n_amounts (fst (n_run Debug n_start (map snd l)))) = 70 /\ n_height (fst (n_run Debug n_start (map snd l))) = 2 /\
  ~ may_keep Q emit_good /\ ~ may_drop Q (OSendAmount addrA ROOT_PUBLIC_ADDRESS 1).
Proof.
  assert (NA : addrA <> ROOT_PUBLIC_ADDRESS) by (vm_compute; discriminate). assert (NB : addrB <> ROOT_PUBLIC_ADDRESS) by (vm_compute; discriminate).
  cbv zeta. split.
  { unfold sliced. repeat (apply Forall_cons; [first [split; [reflexivity|right; intros [E|E]; congruence] | intros []; cbn; intuition congruence]|]). constructor. }
  split; [intros w [E|E]; discriminate|]. split; [reflexivity|]. split.
  { cbn [map snd]. repeat (apply Forall_cons; [repeat split; try reflexivity; repeat constructor; reflexivity|]). constructor. }
  split; [reflexivity|]. split; [vm_compute; reflexivity|]. split; [vm_compute; reflexivity|]. split.
  - intros K. destruct (K PBlocks (or_introl I)) as [E|E]; discriminate.
  - intros D. exact (D (PAmount addrA) (or_introl eq_refl) (or_introl eq_refl)).
Qed.
@*)
