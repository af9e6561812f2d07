(** The abstract node part by part. *)
From Coq Require Import Lia ZifyBool ZifyNat ZifyN Sorted.
From Verif Require Import Base Sha256 Merkle Tools Transaction Block Sled Chain Tree Spec Reach LedgerSpec NodeSpec ObsSpec.
From Verif Require Import BaseFacts DerivFacts NodeProps.

Local Strategy 1000 [sha256 block_dump tx_dump build_tree block_hash to_be root_of].

(** ** Accounts *)
Definition asorted (l : accounts) : Prop := StronglySorted (fun a b => bytes_cmp (fst a) (fst b) = Lt) l.
Lemma entry_put k w x l : entry k (put w x l) = if bytes_eqb k w then Some x else entry k l.
Proof.
  unfold entry. induction l as [|e l IH]; cbn [put find fst].
  - destruct (bytes_eqb k w); reflexivity.
  - destruct (bytes_cmp w (fst e)) eqn:C; cbn [find fst].
    + apply bytes_cmp_eq in C. rewrite C. destruct (bytes_eqb k (fst e)); reflexivity.
    + destruct (bytes_eqb k w); reflexivity.
    + destruct (bytes_eqb k (fst e)) eqn:E; [|exact IH]. apply bytes_eqb_eq in E. destruct (bytes_eqb k w) eqn:F; [|reflexivity].
      apply bytes_eqb_eq in F. rewrite F in E. rewrite <- E, bytes_cmp_refl in C. discriminate.
Qed.
Lemma put_sorted w x l : asorted l -> asorted (put w x l).
Proof.
  unfold asorted. induction l as [|e l IH]; cbn [put]; intros H; [repeat constructor|]. inversion H as [|? ? H1 H2]; subst.
  destruct (bytes_cmp w (fst e)) eqn:C.
  - apply bytes_cmp_eq in C. subst w. constructor; [exact H1|]. exact H2.
  - constructor; [exact H|]. constructor; [exact C|]. rewrite Forall_forall in *. intros y Hy. eapply bytes_cmp_trans; [exact C|apply H2, Hy].
  - constructor; [apply IH, H1|]. rewrite bytes_cmp_antisym in C. assert (C' : bytes_cmp (fst e) w = Lt) by (destruct (bytes_cmp (fst e) w); [discriminate|reflexivity|discriminate]).
    clear IH H H1 C. induction l as [|f l IH]; cbn [put]; [repeat constructor; exact C'|]. inversion H2; subst.
    destruct (bytes_cmp w (fst f)); constructor; try assumption; try (constructor; assumption). apply IH; assumption.
Qed.
Lemma entry_none w l : (forall e, In e l -> bytes_cmp w (fst e) = Lt) -> entry w l = None.
Proof.
  intros H. unfold entry. destruct (find _ l) as [e|] eqn:E; [|reflexivity]. apply find_some in E as [E1 E2]. apply bytes_eqb_eq in E2.
  apply H in E1. rewrite E2, bytes_cmp_refl in E1. discriminate.
Qed.
Lemma entry_head w x l : entry w ((w, x) :: l) = Some x.
Proof. unfold entry. cbn [find fst]. rewrite bytes_eqb_refl. reflexivity. Qed.
Lemma entry_tail w e l : w <> fst e -> entry w (e :: l) = entry w l.
Proof. intros H. unfold entry. cbn [find]. apply bytes_eqb_neq in H. rewrite H. reflexivity. Qed.
Lemma entry_ext l : forall l', asorted l -> asorted l' -> (forall w, entry w l = entry w l') -> l = l'.
Proof.
  unfold asorted. induction l as [|[k x] l IH]; intros [|[k' x'] l'] S S' H; [reflexivity| | |].
  - specialize (H k'). rewrite entry_head in H. discriminate.
  - specialize (H k). rewrite entry_head in H. discriminate.
  - inversion S as [|? ? S1 S2]; inversion S' as [|? ? S1' S2']; subst. rewrite Forall_forall in S2, S2'. cbn [fst] in *.
    assert (K : k = k').
    { destruct (bytes_cmp k k') eqn:C.
      - apply bytes_cmp_eq, C.
      - pose proof (H k) as G. rewrite entry_head in G. rewrite entry_none in G; [discriminate|].
        intros e [<-|He]; [exact C|]. eapply bytes_cmp_trans; [exact C|apply S2', He].
      - rewrite bytes_cmp_antisym in C. assert (C' : bytes_cmp k' k = Lt) by (destruct (bytes_cmp k' k); [discriminate|reflexivity|discriminate]).
        pose proof (H k') as G. rewrite entry_head in G. rewrite entry_none in G; [discriminate|].
        intros e [<-|He]; [exact C'|]. eapply bytes_cmp_trans; [exact C'|apply S2, He]. }
    subst k'. pose proof (H k) as G. rewrite !entry_head in G. injection G as ->. f_equal. apply IH; [exact S1|exact S1'|].
    intros w. destruct (bytes_eqb w k) eqn:E.
    + apply bytes_eqb_eq in E. subst w. rewrite !entry_none by assumption. reflexivity.
    + apply bytes_eqb_neq in E. specialize (H w). rewrite !entry_tail in H by exact E. exact H.
Qed.
Lemma held_entry w l l' : entry w l = entry w l' -> held w l = held w l'.
Proof. intros H. unfold held. rewrite H. reflexivity. Qed.

(** ** Agreement on a part *)
Definition agree (q : part) (n n' : anode) : Prop :=
  match q with
  | PAmount w => entry w (n_amounts n) = entry w (n_amounts n')
  | PGas w => entry w (n_gas n) = entry w (n_gas n')
  | PBlocks => n_blocks n = n_blocks n' /\ n_old_amounts n = n_old_amounts n' /\ n_old_gas n = n_old_gas n'
  | PTx h => tx_by_hash h n = tx_by_hash h n'
  | PSide w => assoc_get w (n_chains n) = assoc_get w (n_chains n') /\ is_open w n = is_open w n'
  end.
Definition same (n n' : anode) : Prop := forall q, agree q n n'.
Lemma agree_refl q n : agree q n n.
Proof. destruct q; cbn [agree]; auto. Qed.
Lemma agree_sym q n n' : agree q n n' -> agree q n' n.
Proof. destruct q; cbn [agree]; try congruence; intros H; decompose [and] H; repeat split; congruence. Qed.
Lemma agree_trans q n n' n'' : agree q n n' -> agree q n' n'' -> agree q n n''.
Proof. destruct q; cbn [agree]; try congruence; intros H H'; decompose [and] H; decompose [and] H'; repeat split; congruence. Qed.

Record good (n : anode) : Prop := MkGood {
  go_amounts : asorted (n_amounts n);
  go_gas : asorted (n_gas n);
  go_open : forall w, is_open w n = true -> assoc_get w (n_chains n) <> None
}.

Lemma is_open_with_chain w n x c : is_open w (with_chain n x c) = bytes_eqb w x || is_open w n.
Proof. reflexivity. Qed.
Lemma chain_with_chain w n x c : assoc_get w (n_chains (with_chain n x c)) = if bytes_eqb w x then Some c else assoc_get w (n_chains n).
Proof. cbn [with_chain n_chains]. rewrite assoc_get_set. reflexivity. Qed.
Lemma good_with_chain n x c : good n -> good (with_chain n x c).
Proof.
  intros [G1 G2 G3]. split; [exact G1|exact G2|]. intros w. rewrite is_open_with_chain, chain_with_chain. destruct (bytes_eqb w x); [discriminate|apply G3].
Qed.
Lemma agree_with_chain q n n' x c : agree q n n' -> agree q (with_chain n x c) (with_chain n' x c).
Proof.
  destruct q; cbn [agree]; auto. intros [H1 H2]. rewrite !chain_with_chain, !is_open_with_chain, H1, H2. auto.
Qed.

Lemma give_entry w a l l' : give w a l = Some l' -> exists x, l' = put w x l.
Proof. unfold give. destruct (_ <? _); [|discriminate]. intros [= <-]. eauto. Qed.
Lemma take_entry w a l l' : take w a l = Some l' -> exists x, l' = put w x l.
Proof. unfold take. destruct (_ <=? _); [|discriminate]. intros [= <-]. eauto. Qed.
Lemma move_entry x y a l l' : move x y a l = Some l' -> exists u v, l' = put y u (put x v l).
Proof. unfold move. destruct (_ && _)%bool; [|discriminate]. intros [= <-]. eauto. Qed.

Lemma good_amounts n l : good n -> asorted l -> good (with_amounts n l).
Proof. intros [G1 G2 G3] H. split; assumption. Qed.
Lemma good_gases n l : good n -> asorted l -> good (with_gases n l).
Proof. intros [G1 G2 G3] H. split; assumption. Qed.
Lemma good_txs n l : good n -> good (with_txs n l).
Proof. intros [G1 G2 G3]. split; assumption. Qed.
Lemma good_blocks n l : good n -> good (with_blocks n l).
Proof. intros [G1 G2 G3]. split; assumption. Qed.
#[local] Hint Resolve good_amounts good_gases good_txs good_blocks put_sorted good_with_chain go_amounts go_gas : gd.

Lemma good_step p n o : good n -> good (fst (n_step p n o)).
Proof.
  intros G. destruct o; cbn [n_step].
  - unfold do_amounts. destruct (give _ _ _) as [l|] eqn:E; [|exact G]. apply give_entry in E as [x ->]. cbn [fst]. auto with gd.
  - unfold do_amounts. cbn [fst]. auto with gd.
  - unfold do_amounts. destruct (take _ _ _) as [l|] eqn:E; [|exact G]. apply take_entry in E as [x ->]. cbn [fst]. auto with gd.
  - destruct (bytes_eqb from to); [exact G|]. unfold do_amounts. destruct (move _ _ _ _) as [l|] eqn:E; [|exact G]. apply move_entry in E as (u & v & ->). cbn [fst]. auto with gd.
  - unfold do_gas. destruct (give _ _ _) as [l|] eqn:E; [|exact G]. apply give_entry in E as [x ->]. cbn [fst]. auto with gd.
  - unfold do_gas. destruct (take _ _ _) as [l|] eqn:E; [|exact G]. apply take_entry in E as [x ->]. cbn [fst]. auto with gd.
  - unfold do_gas. destruct (move _ _ _ _) as [l|] eqn:E; [|exact G]. apply move_entry in E as (u & v & ->). cbn [fst]. auto with gd.
  - unfold n_send. destruct (_ <? _); [exact G|]. destruct (_ <=? _); [exact G|]. destruct (_ <? _); [exact G|].
    destruct (bytes_eqb _ _); [apply good_gases; [auto with gd|apply put_sorted, (go_gas _ G)]|].
    destruct (move _ _ _ _) as [l|] eqn:E; [|cbn [fst]; auto with gd]. apply move_entry in E as (u & v & ->). cbn [fst].
    apply good_amounts; [apply good_gases; [auto with gd|apply put_sorted, (go_gas _ G)]|]. apply put_sorted, put_sorted, (go_amounts _ G).
  - unfold n_emit. destruct (n_header _ _ _ _ _ _ _ _ _) as [i|e| |]; try exact G. destruct (_ =? 0).
    + destruct txs; [|exact G]. cbn [fst]. destruct G as [G1 G2 G3]. split; [apply put_sorted, G1|exact G2|exact G3].
    + destruct txs; [exact G|]. cbn [fst]. auto with gd.
  - unfold n_emit_side. match goal with |- context [match ?x with Ok _ => _ | _ => _ end] => destruct x end; cbn [fst]; auto with gd.
  - cbn [fst]. auto with gd.
  - destruct (_ =? _); [|exact G]. cbn [fst]. auto with gd.
  - cbn [fst]. auto with gd.
  - destruct (negb _); [exact G|]. destruct (_ =? _); [|exact G]. cbn [fst]. auto with gd.
  - exact G.
  - exact G.
  - exact G.
Qed.
Lemma good_restart n : good n -> good (n_restart n).
Proof.
  intros [G1 G2 G3]. split; cbn [n_restart n_amounts n_gas n_chains]; [destruct (_ =? 1); [apply put_sorted|]; exact G1|exact G2|discriminate].
Qed.
Lemma good_start : good n_start.
Proof. split; [repeat constructor|constructor|discriminate]. Qed.

(** ** Transactions found *)
Lemma find_app {A} f (a b : list A) : find f (a ++ b) = match find f a with Some x => Some x | None => find f b end.
Proof. induction a as [|x a IH]; [reflexivity|]. cbn [app find]. destruct (f x); [reflexivity|exact IH]. Qed.
Lemma find_rev_txs h txs : In h (map (fun x => sha256 (tx_dump x)) txs) -> find (fun x => bytes_eqb h (sha256 (tx_dump x))) (rev txs) <> None.
Proof.
  intros H E. apply in_map_iff in H as (x & Hx & Hi). apply in_rev in Hi. pose proof (find_none _ _ E x Hi) as F. cbn beta in F.
  rewrite Hx, bytes_eqb_refl in F. discriminate.
Qed.
Lemma find_not_txs h txs : ~ In h (map (fun x => sha256 (tx_dump x)) txs) -> find (fun x => bytes_eqb h (sha256 (tx_dump x))) (rev txs) = None.
Proof.
  intros H. destruct (find _ _) as [x|] eqn:E; [|reflexivity]. apply find_some in E as [E1 E2]. apply bytes_eqb_eq in E2. exfalso. apply H.
  apply in_map_iff. exists x. split; [congruence|]. apply in_rev, E1.
Qed.

(** ** Frame: parts not touched stay *)
Ltac entries := cbn [with_amounts with_gases with_txs with_blocks n_amounts n_gas n_blocks n_txs n_old_amounts n_old_gas n_chains n_open] in *.
Lemma frame_put w x y l : w <> y -> entry w l = entry w (put y x l).
Proof. intros H. rewrite entry_put. apply bytes_eqb_neq in H. rewrite H. reflexivity. Qed.
Lemma frame_txs h txs n : ~ In h (map (fun x => sha256 (tx_dump x)) txs) -> tx_by_hash h n = tx_by_hash h (with_txs n (rev txs ++ n_txs n)).
Proof. intros H. unfold tx_by_hash. entries. rewrite find_app, find_not_txs by exact H. reflexivity. Qed.
Lemma frame_chain w n x c : w <> x -> agree (PSide w) n (with_chain n x c).
Proof. intros H. cbn [agree]. rewrite chain_with_chain, is_open_with_chain. apply bytes_eqb_neq in H. rewrite H. split; reflexivity. Qed.

Ltac stay := solve [apply agree_refl | cbn [agree fst]; unfold tx_by_hash, is_open, with_chain; entries; repeat split; reflexivity].
Lemma frame_step p n o q : ~ touches o q -> agree q n (fst (n_step p n o)).
Proof.
  intros H. destruct o; cbn [n_step].
  - unfold do_amounts. destruct (give _ _ _) as [l|] eqn:E; [|apply agree_refl]. apply give_entry in E as [x ->].
    destruct q; try stay. cbn [touches] in H. apply frame_put, H.
  - cbn [do_amounts fst]. unfold do_amounts. cbn [fst]. destruct q; try stay. cbn [touches] in H. apply frame_put, H.
  - unfold do_amounts. destruct (take _ _ _) as [l|] eqn:E; [|apply agree_refl]. apply take_entry in E as [x ->].
    destruct q; try stay. cbn [touches] in H. apply frame_put, H.
  - destruct (bytes_eqb from to); [apply agree_refl|]. unfold do_amounts. destruct (move _ _ _ _) as [l|] eqn:E; [|apply agree_refl].
    apply move_entry in E as (u & v & ->). destruct q; try stay. cbn [touches] in H. cbn [fst agree]. entries.
    rewrite <- !frame_put by tauto. reflexivity.
  - unfold do_gas. destruct (give _ _ _) as [l|] eqn:E; [|apply agree_refl]. apply give_entry in E as [x ->].
    destruct q; try stay. cbn [touches] in H. apply frame_put, H.
  - unfold do_gas. destruct (take _ _ _) as [l|] eqn:E; [|apply agree_refl]. apply take_entry in E as [x ->].
    destruct q; try stay. cbn [touches] in H. apply frame_put, H.
  - unfold do_gas. destruct (move _ _ _ _) as [l|] eqn:E; [|apply agree_refl].
    apply move_entry in E as (u & v & ->). destruct q; try stay. cbn [touches] in H. cbn [fst agree]. entries.
    rewrite <- !frame_put by tauto. reflexivity.
  - unfold n_send. destruct (_ <? _); [apply agree_refl|]. destruct (_ <=? _); [apply agree_refl|]. destruct (_ <? _); [apply agree_refl|].
    assert (T : forall h, h <> sha256 (tx_dump tx) -> tx_by_hash h n = tx_by_hash h (with_txs n (tx :: n_txs n))).
    { intros h Hh. unfold tx_by_hash. entries. cbn [find]. apply bytes_eqb_neq in Hh. rewrite Hh. reflexivity. }
    destruct (bytes_eqb (tx_sender tx) (tx_receiver tx)).
    + destruct q; try stay; cbn [touches] in H; cbn [fst agree]; entries; [apply frame_put, H|exact (T h H)].
    + destruct (move _ _ _ _) as [l|] eqn:E.
      * apply move_entry in E as (u & v & ->). destruct q; try stay; cbn [touches] in H; cbn [fst agree]; entries;
          [rewrite <- !frame_put by tauto; reflexivity|apply frame_put, H|exact (T h H)].
      * destruct q; try stay. cbn [touches] in H. exact (T h H).
  - unfold n_emit. destruct (n_header _ _ _ _ _ _ _ _ _) as [i|e| |]; try stay. destruct (_ =? 0).
    + destruct txs as [|h l]; [|apply agree_refl]. destruct q; try stay; cbn [touches] in H; tauto.
    + destruct txs as [|h l]; [apply agree_refl|]. destruct q; try stay. cbn [touches] in H; tauto.
  - unfold n_emit_side. match goal with |- context [match ?x with Ok _ => _ | _ => _ end] => destruct x end; cbn [fst];
      (destruct q; try stay; cbn [touches] in H; apply frame_chain, H).
  - cbn [fst]. destruct q; try stay. cbn [touches] in H; apply frame_chain, H.
  - destruct (_ =? _); [|apply agree_refl]. cbn [fst]. destruct q; try stay; cbn [touches] in H; [tauto|]. exact (frame_txs h txs (with_blocks n _) H).
  - cbn [fst]. destruct q; try stay. cbn [touches] in H. exact (frame_txs h txs n H).
  - destruct (negb _); [apply agree_refl|]. destruct (_ =? _); [|apply agree_refl]. cbn [fst]. destruct q; try stay. cbn [touches] in H. apply frame_chain, H.
  - apply agree_refl.
  - apply agree_refl.
  - apply agree_refl.
Qed.

(** ** Locality: the result and the parts touched depend only on parts touched or looked at *)
Lemma give_local w a l l' : entry w l = entry w l' ->
  match give w a l, give w a l' with Some x, Some y => entry w x = entry w y | None, None => True | _, _ => False end.
Proof. intros H. unfold give. rewrite (held_entry _ _ _ H). destruct (_ <? _); [|exact I]. rewrite !entry_put, bytes_eqb_refl. reflexivity. Qed.
Lemma take_local w a l l' : entry w l = entry w l' ->
  match take w a l, take w a l' with Some x, Some y => entry w x = entry w y | None, None => True | _, _ => False end.
Proof. intros H. unfold take. rewrite (held_entry _ _ _ H). destruct (_ <=? _); [|exact I]. rewrite !entry_put, bytes_eqb_refl. reflexivity. Qed.
Lemma move_local x y a l l' : entry x l = entry x l' -> entry y l = entry y l' ->
  match move x y a l, move x y a l' with
  | Some u, Some v => entry x u = entry x v /\ entry y u = entry y v | None, None => True | _, _ => False end.
Proof.
  intros H H'. unfold move. rewrite (held_entry _ _ _ H), (held_entry _ _ _ H'). destruct (_ && _)%bool; [|exact I].
  rewrite !entry_put, !bytes_eqb_refl. split; reflexivity.
Qed.
Lemma last_local n n' : agree PBlocks n n' -> n_last n = n_last n'.
Proof. intros (H & _). unfold n_last. rewrite H. reflexivity. Qed.
Lemma height_local n n' : agree PBlocks n n' -> n_height n = n_height n'.
Proof. intros (H & _). unfold n_height. rewrite H. reflexivity. Qed.
Lemma chain_local w n n' : agree PBlocks n n' -> agree (PSide w) n n' -> n_chain w n = n_chain w n'.
Proof. intros H (H' & _). unfold n_chain. rewrite H', (last_local _ _ H). reflexivity. Qed.

Definition local (p : profile) (o : op) (n n' : anode) : Prop :=
  snd (n_step p n o) = snd (n_step p n' o) /\ forall q, touches o q -> agree q (fst (n_step p n o)) (fst (n_step p n' o)).

Lemma local_step p o n n' : good n -> good n' -> (forall q, touches o q \/ looks o q -> agree q n n') -> local p o n n'.
Proof.
  intros G G' H. unfold local. destruct o; cbn [n_step].
  - pose proof (give_local owner a _ _ (H (PAmount owner) (or_introl eq_refl))) as L. unfold do_amounts.
    destruct (give owner a (n_amounts n)), (give owner a (n_amounts n')); try contradiction; (split; [reflexivity|]);
      intros [] Hq; cbn [touches] in Hq; try contradiction; subst; [exact L|]. apply (H (PAmount _)). left. reflexivity.
  - unfold do_amounts. split; [reflexivity|]. intros [] Hq; cbn [touches] in Hq; try contradiction; subst. cbn [fst agree]. entries.
    rewrite !entry_put, !bytes_eqb_refl. reflexivity.
  - pose proof (take_local owner a _ _ (H (PAmount owner) (or_introl eq_refl))) as L. unfold do_amounts.
    destruct (take owner a (n_amounts n)), (take owner a (n_amounts n')); try contradiction; (split; [reflexivity|]);
      intros [] Hq; cbn [touches] in Hq; try contradiction; subst; [exact L|]. apply (H (PAmount _)). left. reflexivity.
  - destruct (bytes_eqb from to); [split; [reflexivity|]; intros q Hq; apply H; left; exact Hq|].
    pose proof (move_local from to a _ _ (H (PAmount from) (or_introl (or_introl eq_refl))) (H (PAmount to) (or_introl (or_intror eq_refl)))) as L.
    unfold do_amounts. destruct (move from to a (n_amounts n)), (move from to a (n_amounts n')); try contradiction; (split; [reflexivity|]).
    + intros [] Hq; cbn [touches] in Hq; try contradiction. destruct Hq; subst; apply L.
    + intros q Hq. apply H. left. exact Hq.
  - pose proof (give_local owner a _ _ (H (PGas owner) (or_introl eq_refl))) as L. unfold do_gas.
    destruct (give owner a (n_gas n)), (give owner a (n_gas n')); try contradiction; (split; [reflexivity|]);
      intros [] Hq; cbn [touches] in Hq; try contradiction; subst; [exact L|]. apply (H (PGas _)). left. reflexivity.
  - pose proof (take_local owner a _ _ (H (PGas owner) (or_introl eq_refl))) as L. unfold do_gas.
    destruct (take owner a (n_gas n)), (take owner a (n_gas n')); try contradiction; (split; [reflexivity|]);
      intros [] Hq; cbn [touches] in Hq; try contradiction; subst; [exact L|]. apply (H (PGas _)). left. reflexivity.
  - pose proof (move_local from to a _ _ (H (PGas from) (or_introl (or_introl eq_refl))) (H (PGas to) (or_introl (or_intror eq_refl)))) as L.
    unfold do_gas. destruct (move from to a (n_gas n)), (move from to a (n_gas n')); try contradiction; (split; [reflexivity|]).
    + intros [] Hq; cbn [touches] in Hq; try contradiction. destruct Hq; subst; apply L.
    + intros q Hq. apply H. left. exact Hq.
  - assert (HS : entry (tx_sender tx) (n_amounts n) = entry (tx_sender tx) (n_amounts n')) by (apply (H (PAmount _)); left; left; reflexivity).
    assert (HR : entry (tx_receiver tx) (n_amounts n) = entry (tx_receiver tx) (n_amounts n')) by (apply (H (PAmount _)); left; right; reflexivity).
    assert (HG : entry (tx_sender tx) (n_gas n) = entry (tx_sender tx) (n_gas n')) by (apply (H (PGas _)); left; reflexivity).
    assert (HB : agree PBlocks n n') by (apply H; right; exact I).
    unfold n_send. rewrite (last_local _ _ HB), (held_entry _ _ _ HS), (held_entry _ _ _ HG).
    destruct (_ <? _); [split; [reflexivity|]; intros q Hq; apply H; left; exact Hq|].
    destruct (_ <=? _); [split; [reflexivity|]; intros q Hq; apply H; left; exact Hq|].
    destruct (_ <? _); [split; [reflexivity|]; intros q Hq; apply H; left; exact Hq|].
    assert (T : forall m m' : anode, tx_by_hash (sha256 (tx_dump tx)) (with_txs m (tx :: n_txs m)) = tx_by_hash (sha256 (tx_dump tx)) (with_txs m' (tx :: n_txs m'))).
    { intros m m'. unfold tx_by_hash. entries. cbn [find]. rewrite bytes_eqb_refl. reflexivity. }
    destruct (bytes_eqb (tx_sender tx) (tx_receiver tx)).
    + split; [reflexivity|]. intros [] Hq; cbn [touches] in Hq; try contradiction; cbn [fst agree]; entries.
      * destruct Hq; subst; assumption.
      * subst. rewrite !entry_put, !bytes_eqb_refl, (held_entry _ _ _ HG). reflexivity.
      * subst h. exact (T n n').
    + pose proof (move_local _ _ (tx_amount tx) _ _ HS HR) as L. cbn [with_txs n_amounts].
      destruct (move _ _ _ (n_amounts n)), (move _ _ _ (n_amounts n')); try contradiction; (split; [reflexivity|]);
        intros [] Hq; cbn [touches] in Hq; try contradiction; cbn [fst agree]; entries.
      * destruct Hq; subst; apply L.
      * subst. rewrite !entry_put, !bytes_eqb_refl, (held_entry _ _ _ HG). reflexivity.
      * subst h. exact (T n n').
      * destruct Hq; subst; assumption.
      * subst. exact HG.
      * subst h. exact (T n n').
  - assert (HB : agree PBlocks n n') by (apply H; left; destruct txs; exact I). pose proof (last_local _ _ HB) as HL. pose proof (height_local _ _ HB) as HH.
    unfold n_emit. rewrite HL, HH. destruct (n_header _ _ _ _ _ _ _ _ _) as [i|e| |];
      [|split; [reflexivity|]; intros q Hq; apply H; left; exact Hq..].
    destruct HB as (HB1 & HB2 & HB3). destruct (_ =? 0).
    + destruct txs as [|h l]; [|split; [reflexivity|]; intros q Hq; apply H; left; exact Hq].
      assert (EA : n_amounts n = n_amounts n').
      { apply entry_ext; [apply G|apply G'|]. intros w. apply (H (PAmount w)). left. exact I. }
      assert (EG : n_gas n = n_gas n').
      { apply entry_ext; [apply G|apply G'|]. intros w. apply (H (PGas w)). right. exact I. }
      unfold summary_leaves. rewrite HB1, EA, EG. split; [reflexivity|].
      intros [] Hq; cbn [touches] in Hq; try contradiction; cbn [fst agree]; entries; auto.
    + destruct txs as [|h l]; [split; [reflexivity|]; intros q Hq; apply H; left; exact Hq|]. rewrite HB1.
      split; [reflexivity|]. intros [] Hq; cbn [touches] in Hq; try contradiction; cbn [fst agree]; entries; auto.
  - assert (HB : agree PBlocks n n') by (apply H; right; exact I). assert (HC : agree (PSide founder) n n') by (apply H; left; reflexivity).
    unfold n_emit_side. rewrite (chain_local founder _ _ HB HC). destruct HB as (HB1 & _). rewrite HB1.
    match goal with |- context [match ?x with Ok _ => _ | _ => _ end] => destruct x end; (split; [reflexivity|]); cbn [fst];
      intros [] Hq; cbn [touches] in Hq; try contradiction; subst; apply agree_with_chain, HC.
  - assert (HB : agree PBlocks n n') by (apply H; right; exact I). assert (HC : agree (PSide owner) n n') by (apply H; left; reflexivity).
    rewrite (chain_local owner _ _ HB HC). split; [reflexivity|]. cbn [fst].
    intros [] Hq; cbn [touches] in Hq; try contradiction; subst; apply agree_with_chain, HC.
  - assert (HB : agree PBlocks n n') by (apply H; left; exact I). rewrite (height_local _ _ HB).
    destruct (_ =? _); [|split; [reflexivity|]; intros q Hq; apply H; left; exact Hq]. split; [reflexivity|]. destruct HB as (HB1 & HB2 & HB3).
    intros [] Hq; cbn [touches] in Hq; try contradiction; cbn [fst agree]; entries; [rewrite HB1; auto|].
    unfold tx_by_hash. entries. rewrite !find_app. pose proof (find_rev_txs h txs Hq). destruct (find _ (rev txs)); [reflexivity|contradiction].
  - split; [reflexivity|]. intros [] Hq; cbn [touches] in Hq; try contradiction; cbn [fst agree].
    unfold tx_by_hash. entries. rewrite !find_app. pose proof (find_rev_txs h txs Hq). destruct (find _ (rev txs)); [reflexivity|contradiction].
  - assert (HC : agree (PSide owner) n n') by (apply H; left; reflexivity). pose proof HC as (HC1 & HC2). rewrite HC2.
    destruct (is_open owner n') eqn:EO; [|split; [reflexivity|]; intros q Hq; apply H; left; exact Hq]. cbn [negb].
    assert (EC : n_chain owner n = n_chain owner n').
    { unfold n_chain. rewrite HC1. pose proof (go_open _ G' owner EO). destruct (assoc_get owner (n_chains n')); [reflexivity|contradiction]. }
    rewrite EC. destruct (_ =? _); [|split; [reflexivity|]; intros q Hq; apply H; left; exact Hq]. split; [reflexivity|].
    cbn [fst]. intros [] Hq; cbn [touches] in Hq; try contradiction; subst; apply agree_with_chain, HC.
  - split; [reflexivity|]. intros q Hq. destruct q; contradiction.
  - split; [reflexivity|]. intros q Hq. destruct q; contradiction.
  - split; [reflexivity|]. intros q Hq. destruct q; contradiction.
Qed.

Lemma bytes_dec (a b : bytes) : {a = b} + {a <> b}.
Proof. apply list_eq_dec, N.eq_dec. Qed.
Lemma touches_dec o q : touches o q \/ ~ touches o q.
Proof.
  assert (E : forall a b : bytes, a = b \/ a <> b) by (intros a b; destruct (bytes_dec a b); auto).
  assert (E2 : forall a b c : bytes, (a = b \/ a = c) \/ ~ (a = b \/ a = c)) by (intros a b c; destruct (bytes_dec a b), (bytes_dec a c); tauto).
  assert (E3 : forall (h : bytes) l, In h l \/ ~ In h l) by (intros h l; destruct (in_dec bytes_dec h l); auto).
  destruct o, q; cbn [touches]; auto; destruct txs; cbn [touches]; auto.
Qed.

(** ** Same nodes *)
Lemma same_refl n : same n n.
Proof. intros q. apply agree_refl. Qed.
Lemma same_step p n n' o : good n -> good n' -> same n n' ->
  snd (n_step p n o) = snd (n_step p n' o) /\ same (fst (n_step p n o)) (fst (n_step p n' o)).
Proof.
  intros G G' H. destruct (local_step p o n n' G G' (fun q _ => H q)) as [L1 L2]. split; [exact L1|]. intros q.
  destruct (touches_dec o q) as [T|T]; [apply L2, T|].
  eapply agree_trans; [apply agree_sym, frame_step, T|]. eapply agree_trans; [apply H|apply frame_step, T].
Qed.
Lemma same_restart n n' : same n n' -> same (n_restart n) (n_restart n').
Proof.
  intros H q. pose proof (H q) as Hq. pose proof (height_local _ _ (H PBlocks)) as HH. destruct q; cbn [agree n_restart] in *; entries; auto.
  - unfold n_restart. cbn [n_amounts]. rewrite HH. destruct (_ =? 1); [|exact Hq]. rewrite !entry_put, Hq. reflexivity.
  - unfold is_open. cbn [n_open]. destruct Hq. auto.
Qed.
Lemma good_run p evs : forall n, good n -> good (fst (n_run p n evs)).
Proof.
  induction evs as [|[o|] evs IH]; intros n G; cbn [n_run]; [exact G| |].
  - pose proof (good_step p n o G) as G1. destruct (n_step p n o) as [n1 a]. pose proof (IH n1 G1). destruct (n_run p n1 evs). assumption.
  - apply IH, good_restart, G.
Qed.
Lemma same_run p evs : forall n n', good n -> good n' -> same n n' ->
  snd (n_run p n evs) = snd (n_run p n' evs) /\ same (fst (n_run p n evs)) (fst (n_run p n' evs)).
Proof.
  induction evs as [|[o|] evs IH]; intros n n' G G' H; cbn [n_run]; [auto| |].
  - pose proof (good_step p n o G) as G1. pose proof (good_step p n' o G') as G1'. destruct (same_step p n n' o G G' H) as [S1 S2].
    destruct (n_step p n o) as [n1 a], (n_step p n' o) as [n1' a']. cbn [fst snd] in *. subst a'. destruct (IH n1 n1' G1 G1' S2) as [R1 R2].
    destruct (n_run p n1 evs), (n_run p n1' evs). cbn [fst snd] in *. subst. auto.
  - apply IH; [apply good_restart, G|apply good_restart, G'|apply same_restart, H].
Qed.
Lemma run_app p a : forall n b, n_run p n (a ++ b) =
  (fst (n_run p (fst (n_run p n a)) b), snd (n_run p n a) ++ snd (n_run p (fst (n_run p n a)) b)).
Proof.
  induction a as [|[o|] a IH]; intros n b; cbn [app n_run].
  - cbn [fst snd app]. destruct (n_run p n b); reflexivity.
  - destruct (n_step p n o) as [n1 x]. rewrite IH. destruct (n_run p n1 a) as [n2 l]. reflexivity.
  - apply IH.
Qed.
Lemma run_call p n o b : n_run p n (Call o :: b) =
  (fst (n_run p (fst (n_step p n o)) b), snd (n_step p n o) :: snd (n_run p (fst (n_step p n o)) b)).
Proof. cbn [n_run]. destruct (n_step p n o) as [n1 x]. cbn [fst snd]. destruct (n_run p n1 b); reflexivity. Qed.

(** ** From nodes to trees *)
Lemma alike_from_chain c c' s : chain_answers c s -> chain_answers c' s -> alike_chain c c'.
Proof.
  intros (A1 & A2 & A3 & A4 & A5 & A6 & A7) (B1 & B2 & B3 & B4 & B5 & B6 & B7). repeat split; try congruence.
  - destruct (A4 i), (B4 i). congruence.
  - destruct (A4 i), (B4 i). congruence.
  - destruct (A5 h), (B5 h). congruence.
  - destruct (A5 h), (B5 h). congruence.
Qed.
Lemma alike_from_answer r r' a : same_answer r a -> same_answer r' a -> alike_result r r'.
Proof.
  destruct r as [[|b|c]|e| |], r' as [[|b'|c']|e'| |], a as [[|x|s]|y| |]; cbn; try contradiction; try reflexivity; try (intros; congruence).
  apply alike_from_chain.
Qed.
Lemma alike_from_answers l : forall rs rs', Forall2 same_answer rs l -> Forall2 same_answer rs' l -> Forall2 alike_result rs rs'.
Proof.
  induction l as [|a l IH]; intros rs rs' H H'; inversion H; inversion H'; subst; constructor; eauto using alike_from_answer.
Qed.
Lemma alike_from_node t t' n n' : good n -> good n' -> answers t n -> answers t' n' -> same n n' -> alike t t'.
Proof.
  intros G G' (A1 & A2 & A3 & A4 & A5 & A6 & A7 & A8 & A9) (B1 & B2 & B3 & B4 & B5 & B6 & B7 & B8 & B9) H.
  pose proof (H PBlocks) as (HB & HO1 & HO2). pose proof (last_local _ _ (H PBlocks)) as HL. pose proof (height_local _ _ (H PBlocks)) as HH.
  assert (EA : n_amounts n = n_amounts n') by (apply entry_ext; [apply G|apply G'|intros w; apply (H (PAmount w))]).
  assert (EG : n_gas n = n_gas n') by (apply entry_ext; [apply G|apply G'|intros w; apply (H (PGas w))]).
  unfold alike. split; [congruence|]. split; [|split; [|split; [|split; [|split; [|split; [|split]]]]]].
  - intros i. destruct (A2 i), (B2 i). rewrite HB in *. split; congruence.
  - intros h. destruct (A3 h), (B3 h). rewrite HB in *. split; congruence.
  - congruence.
  - congruence.
  - intros h. pose proof (H (PTx h)) as HT. cbn [agree] in HT. destruct (A6 h) as (X1 & X2 & X3), (B6 h) as (Y1 & Y2 & Y3). rewrite HT in *. repeat split; congruence.
  - intros w. destruct (A7 w) as (X1 & X2 & X3 & X4), (B7 w) as (Y1 & Y2 & Y3 & Y4). rewrite EA, EG, HO1, HO2 in *. repeat split; congruence.
  - unfold summary_leaves in *. rewrite EA, EG in *. congruence.
  - intros w Hw. destruct (A9 w Hw) as (c & -> & X), (B9 w Hw) as (c' & -> & Y). cbn [bind alike_result].
    rewrite (chain_local w _ _ (H PBlocks) (H (PSide w))) in X. exact (alike_from_chain _ _ _ X Y).
Qed.
