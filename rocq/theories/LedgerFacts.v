(** Lemmas on the amount and gas databases. *)
From Coq Require Import Lia ZifyBool ZifyNat ZifyN.
From Verif Require Import Base Sha256 Merkle Tools Transaction Block Sled Chain Tree Spec Reach LedgerSpec.
From Verif Require Import BaseFacts ToolsFacts MerkleFacts DiffFacts CodecFacts SledFacts ChainFacts TreeFacts.

(** Every stored value is the dump of a 256-bit number. *)
Definition led_ok (s : sled) : Prop :=
  sled_ok s /\ forall k v, sled_get k s = Some v -> exists x, u256_ok x /\ v = led_encode x.

Lemma led_encode_eq x : led_encode x = enc x.
Proof. unfold led_encode. rewrite dump_u256_eq. reflexivity. Qed.
Lemma led_decode_encode x : u256_ok x -> led_decode (Some (led_encode x)) = Ok x.
Proof.
  intros H. unfold led_decode. rewrite led_encode_eq, <- (app_nil_r (enc x)), load_enc by exact H. reflexivity.
Qed.

Definition bal (s : sled) (w : bytes) : N := match led_get w s with Ok x => x | _ => 0 end.
Lemma led_get_bal s w : led_ok s -> led_get w s = Ok (bal s w) /\ u256_ok (bal s w).
Proof.
  intros [_ H]. unfold bal, led_get. destruct (sled_get w s) as [v|] eqn:E.
  - destruct (H _ _ E) as (x & Hx & ->). rewrite led_decode_encode by exact Hx. auto.
  - cbn. split; reflexivity.
Qed.

Lemma led_ok_empty : led_ok sled_empty.
Proof. split; [apply sled_ok_empty|]. intros k v E. discriminate. Qed.
Lemma led_ok_commit1 k x s : led_ok s -> u256_ok x -> led_ok (sled_commit [(k, led_encode x)] s).
Proof.
  intros [H1 H2] Hx. split; [apply sled_ok_commit, H1|]. intros k' v. rewrite sled_get_commit1.
  destruct (bytes_eqb k' k); [intros E; injection E as <-; eauto|apply H2].
Qed.
Lemma led_ok_commit2 k x k2 x2 s : led_ok s -> u256_ok x -> u256_ok x2 ->
  led_ok (sled_commit [(k, led_encode x); (k2, led_encode x2)] s).
Proof.
  intros [H1 H2] Hx Hx2. split; [apply sled_ok_commit, H1|]. intros k' v. rewrite sled_get_commit2.
  destruct (bytes_eqb k' k2); [intros E; injection E as <-; eauto|].
  destruct (bytes_eqb k' k); [intros E; injection E as <-; eauto|apply H2].
Qed.
Lemma led_ok_flush s : led_ok s -> led_ok (sled_flush s).
Proof. intros [H1 H2]. split; [apply sled_ok_flush, H1|exact H2]. Qed.

Lemma bal_commit1 k x s w : u256_ok x -> bal (sled_commit [(k, led_encode x)] s) w = upd (bal s) k x w.
Proof.
  intros Hx. unfold bal, upd, led_get. rewrite sled_get_commit1. destruct (bytes_eqb w k); [|reflexivity].
  rewrite led_decode_encode by exact Hx. reflexivity.
Qed.
Lemma bal_commit2 k x k2 x2 s w : u256_ok x -> u256_ok x2 ->
  bal (sled_commit [(k, led_encode x); (k2, led_encode x2)] s) w = upd (upd (bal s) k x) k2 x2 w.
Proof.
  intros Hx Hx2. unfold bal, upd, led_get. rewrite sled_get_commit2.
  destruct (bytes_eqb w k2); [rewrite led_decode_encode by exact Hx2; reflexivity|].
  destruct (bytes_eqb w k); [rewrite led_decode_encode by exact Hx; reflexivity|reflexivity].
Qed.
Lemma bal_flush s w : bal (sled_flush s) w = bal s w.
Proof. reflexivity. Qed.

(** The four calls on one database. *)
Lemma led_add_spec w a s : led_ok s -> led_add w a s =
  if bal s w + a <? 2 ^ 256 then (sled_commit [(w, led_encode (bal s w + a))] s, Ok tt) else (s, Panic).
Proof.
  intros H. unfold led_add. destruct (led_get_bal s w H) as [-> _]. cbn [bind].
  unfold u256_add. destruct (bal s w + a <? 2 ^ 256); reflexivity.
Qed.
Lemma led_sub_spec w a s : led_ok s -> led_sub w a s =
  if a <=? bal s w then (sled_commit [(w, led_encode (bal s w - a))] s, Ok tt) else (s, Panic).
Proof.
  intros H. unfold led_sub. destruct (led_get_bal s w H) as [-> _]. cbn [bind].
  unfold u256_sub. rewrite N.leb_antisym. destruct (bal s w <? a) eqn:E; [reflexivity|].
  reflexivity.
Qed.
Lemma led_send_spec x y a s : led_ok s -> led_send x y a s =
  if (a <=? bal s x) && (bal s y + a <? 2 ^ 256)
  then (sled_commit [(x, led_encode (bal s x - a)); (y, led_encode (bal s y + a))] s, Ok tt) else (s, Panic).
Proof.
  intros H. unfold led_send. destruct (led_get_bal s x H) as [-> _]. destruct (led_get_bal s y H) as [-> _]. cbn [bind].
  unfold u256_sub, u256_add. rewrite N.leb_antisym. destruct (bal s x <? a) eqn:E; [reflexivity|].
  cbn [negb andb bind]. destruct (bal s y + a <? 2 ^ 256); reflexivity.
Qed.

(** ** The four databases of a tree under every call *)
Record ledgers_ok (t : bct) : Prop := {
  lo_summary : led_ok (t_summary t);
  lo_gas : led_ok (t_gas t);
  lo_old_summary : led_ok (t_old_summary t);
  lo_old_gas : led_ok (t_old_gas t)
}.

(** Calls that do not touch the ledgers. *)
Lemma get_deriv_ledgers owner t : let t' := fst (t_get_derivative_chain owner t) in
  t_summary t' = t_summary t /\ t_gas t' = t_gas t /\ t_old_summary t' = t_old_summary t /\ t_old_gas t' = t_old_gas t.
Proof.
  unfold t_get_derivative_chain. destruct (assoc_get owner (t_derivs t)); [auto|].
  destruct (let! last := _ in _); auto.
Qed.
Lemma emit_deriv_ledgers p pow founder ts t : let t' := fst (t_emmit_new_derivative_block p pow founder ts t) in
  t_summary t' = t_summary t /\ t_gas t' = t_gas t /\ t_old_summary t' = t_old_summary t /\ t_old_gas t' = t_old_gas t.
Proof.
  unfold t_emmit_new_derivative_block. pose proof (get_deriv_ledgers founder t) as H.
  destruct (t_get_derivative_chain founder t) as [t1 rc]. cbn [fst] in H.
  destruct rc as [dc|e| |]; try exact H.
  match goal with |- context [match ?x with Ok _ => _ | Err _ => _ | Panic => _ | UB => _ end] => destruct x as [info|e| |] end; try exact H.
  destruct (dc_add_block info dc) as [dc' ra]. exact H.
Qed.
Lemma add_new_block_ledgers b txs t : let t' := fst (t_add_new_block b txs t) in
  t_summary t' = t_summary t /\ t_gas t' = t_gas t /\ t_old_summary t' = t_old_summary t /\ t_old_gas t' = t_old_gas t.
Proof.
  unfold t_add_new_block. destruct (mc_add_block b (t_main t)) as [m [u|e| |]]; cbn; auto.
Qed.

Lemma ledgers_same t t' : ledgers_ok t ->
  t_summary t' = t_summary t /\ t_gas t' = t_gas t /\ t_old_summary t' = t_old_summary t /\ t_old_gas t' = t_old_gas t ->
  ledgers_ok t'.
Proof. intros [] (E1 & E2 & E3 & E4). split; congruence. Qed.

Lemma on_summary_ok f t : (forall s, led_ok s -> led_ok (fst (f s))) -> ledgers_ok t -> ledgers_ok (fst (t_on_summary f t)).
Proof.
  intros Hf [H1 H2 H3 H4]. specialize (Hf _ H1). unfold t_on_summary. destruct (f (t_summary t)). split; assumption.
Qed.
Lemma on_gas_ok f t : (forall s, led_ok s -> led_ok (fst (f s))) -> ledgers_ok t -> ledgers_ok (fst (t_on_gas f t)).
Proof.
  intros Hf [H1 H2 H3 H4]. specialize (Hf _ H2). unfold t_on_gas. destruct (f (t_gas t)). split; assumption.
Qed.
Lemma led_add_ok w a s : led_ok s -> led_ok (fst (led_add w a s)).
Proof.
  intros H. rewrite led_add_spec by exact H. destruct (N.ltb_spec (bal s w + a) (2 ^ 256)); [|exact H]. apply led_ok_commit1; assumption.
Qed.
Lemma led_sub_ok w a s : led_ok s -> led_ok (fst (led_sub w a s)).
Proof.
  intros H. rewrite led_sub_spec by exact H. destruct (N.leb_spec a (bal s w)); [|exact H].
  destruct (led_get_bal s w H) as [_ Hb]. unfold u256_ok in Hb. apply led_ok_commit1; [exact H|]. unfold u256_ok. lia.
Qed.
Lemma led_send_ok x y a s : led_ok s -> led_ok (fst (led_send x y a s)).
Proof.
  intros H. rewrite led_send_spec by exact H. destruct (N.leb_spec a (bal s x)); [|exact H].
  destruct (N.ltb_spec (bal s y + a) (2 ^ 256)); [|exact H].
  destruct (led_get_bal s x H) as [_ Hb]. unfold u256_ok in Hb. apply led_ok_commit2; [exact H|unfold u256_ok; lia|assumption].
Qed.
Lemma led_set_ok w a s : u256_ok a -> led_ok s -> led_ok (fst (led_set w a s)).
Proof. intros Ha H. apply led_ok_commit1; assumption. Qed.
Lemma send_amount_ok x y a t : ledgers_ok t -> ledgers_ok (fst (t_send_amount x y a t)).
Proof.
  intros H. unfold t_send_amount. destruct (bytes_eqb x y); [exact H|]. apply on_summary_ok; [|exact H].
  intros s. apply led_send_ok.
Qed.

Lemma rotated_ok t : ledgers_ok t -> ledgers_ok (rotated t).
Proof.
  intros [H1 H2 H3 H4]. split; cbn [rotated t_summary t_gas t_old_summary t_old_gas with_summary t_rotate_dbs t_flush].
  - apply (led_ok_commit1 ROOT_PUBLIC_ADDRESS COINS_PER_CYCLE); [apply led_ok_flush, H1|reflexivity].
  - apply led_ok_flush, H2.
  - apply led_ok_flush, led_ok_flush, H1.
  - apply led_ok_flush, led_ok_flush, H2.
Qed.

Lemma step_ledgers p t o L : tree_inv t L -> op_wf o -> N.of_nat (length L) + 1 < 2 ^ 256 ->
  ledgers_ok t -> ledgers_ok (fst (step p t o)).
Proof.
  intros HL Hwf Hlen H. destruct o; cbn [step ret_unit ret_block fst].
  - apply on_summary_ok; [intros s; apply led_add_ok|exact H].
  - apply on_summary_ok; [intros s; apply led_set_ok, Hwf|exact H].
  - apply on_summary_ok; [intros s; apply led_sub_ok|exact H].
  - apply send_amount_ok, H.
  - apply on_gas_ok; [intros s; apply led_add_ok|exact H].
  - apply on_gas_ok; [intros s; apply led_sub_ok|exact H].
  - apply on_gas_ok; [intros s; apply led_send_ok|exact H].
  - unfold t_send_transaction. match goal with |- context [match ?x with Ok _ => _ | Err _ => _ | Panic => _ | UB => _ end] => destruct x as [g|e| |] end;
      try exact H.
    set (t1 := with_main t _). assert (H1 : ledgers_ok t1) by (apply (ledgers_same t); [exact H|repeat split]).
    pose proof (send_amount_ok (tx_sender tx) (tx_receiver tx) (tx_amount tx) t1 H1) as H2.
    destruct (t_send_amount _ _ _ t1) as [t2 r]. cbn [fst] in H2.
    destruct r as [u|e| |]; try exact H2. apply on_gas_ok; [intros s; apply led_sub_ok|exact H2].
  - destruct (t_emmit_new_main_block p pow founder txs ts t) as [t' r] eqn:E.
    destruct Hwf as (W1 & W2 & W3 & W4).
    pose proof (emit_main_tree p t L _ _ _ _ _ _ HL Hlen W1 W2 W3 W4 E) as S. cbn [fst].
    destruct r as [b|e| |]; try (subst t'; exact H). destruct S as (_ & _ & _ & _ & _ & _ & _ & _ & ->).
    apply (ledgers_same (emit_base b t)); [|repeat split]. destruct b; try exact H. apply rotated_ok, H.
  - eapply ledgers_same; [exact H|apply emit_deriv_ledgers].
  - pose proof (get_deriv_ledgers owner t) as E. destruct (t_get_derivative_chain owner t) as [t' r]. eapply ledgers_same; [exact H|exact E].
  - eapply ledgers_same; [exact H|apply add_new_block_ledgers].
  - eapply ledgers_same; [exact H|repeat split].
  - destruct (assoc_get owner (t_derivs t)); [|exact H]. destruct (dc_add_block i d). eapply ledgers_same; [exact H|repeat split].
  - destruct H as [H1 H2 H3 H4]. split; cbn; apply led_ok_flush; assumption.
  - eapply ledgers_same; [exact H|repeat split].
  - destruct (assoc_get owner (t_derivs t)); [|exact H]. eapply ledgers_same; [exact H|repeat split].
Qed.

Lemma open_ledgers t : t_new disk_empty = Ok t -> ledgers_ok t.
Proof.
  unfold t_new. cbn [k_main disk_empty]. rewrite mc_new_empty. cbn [bind]. intros E. injection E as <-.
  split; cbn [t_summary t_gas t_old_summary t_old_gas k_summary k_gas k_old_summary k_old_gas disk_empty]; try apply led_ok_empty.
  change (mc_get_height mc_fresh =? 1) with true. cbv iota. apply led_ok_commit1; [apply led_ok_empty|reflexivity].
Qed.

Lemma reachable_ledgers ok p n t : reachable ok p n t -> few n -> ledgers_ok t.
Proof.
  unfold few. induction 1 as [t E|n t o Hr IH Hwf _|n t t' Hr IH E]; intros Hn.
  - apply open_ledgers, E.
  - destruct (reachable_inv _ _ _ _ Hr) as (L & HL & Hlen); [unfold few; lia|].
    apply (step_ledgers p t o L HL Hwf); [lia|]. apply IH. lia.
  - destruct (reachable_inv _ _ _ _ Hr Hn) as (L & HL & Hlen). destruct (reopen_main t L HL ltac:(lia)) as
      (t1 & E1 & _ & _ & _ & _ & _ & S1 & S2 & S3 & S4 & _). rewrite E in E1. injection E1 as <-.
    destruct (IH Hn) as [H1 H2 H3 H4].
    split; rewrite ?S1, ?S2, ?S3, ?S4; try (apply led_ok_flush; assumption).
    destruct (mc_height (t_main t) =? 1); [apply led_ok_commit1; [|reflexivity]|]; apply led_ok_flush; assumption.
Qed.

Lemma amounts_bal t : led_ok (t_summary t) -> amounts t (bal (t_summary t)).
Proof. intros H w. apply led_get_bal, H. Qed.
Lemma amounts_eq t f : amounts t f -> forall w, f w = bal (t_summary t) w.
Proof. intros H w. unfold bal. specialize (H w). unfold t_get_amount in H. rewrite H. reflexivity. Qed.
Lemma gases_bal t : led_ok (t_gas t) -> gases t (bal (t_gas t)).
Proof. intros H w. apply led_get_bal, H. Qed.
Lemma gases_eq t f : gases t f -> forall w, f w = bal (t_gas t) w.
Proof. intros H w. unfold bal. specialize (H w). unfold t_get_gas in H. rewrite H. reflexivity. Qed.
