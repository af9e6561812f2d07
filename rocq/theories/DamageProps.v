(** Account entries that were not written by the node. *)
From Coq Require Import Lia ZifyBool ZifyNat ZifyN.
From Verif Require Import Base Sha256 Merkle Tools Transaction Block Sled Chain Tree Spec Reach LedgerSpec DamageSpec Demo.
From Verif Require Import BaseFacts ToolsFacts MerkleFacts CodecFacts SledFacts ChainFacts TreeFacts LedgerFacts.

Local Strategy 1000 [u256_mul u256_add u256_sub BYTE_GAS_PRICE recalculate_fee recalculate_difficulty check_pow load_u256 dump_u256 mc_get_last_block build_tree get_root].

Lemma load_reads v x n : load_u256 v = Ok (x, n) -> reads_as v x.
Proof.
  intros H. apply load_u256_ok in H as (b & t & -> & -> & H1 & H2 & ->). exists (firstn (N.to_nat b) t), (skipn (N.to_nat b) t).
  assert (E : length (firstn (N.to_nat b) t) = N.to_nat b) by (rewrite firstn_length; lia). rewrite E, Nnat.N2Nat.id, firstn_skipn, be_val_from_be. auto.
Qed.
Lemma reads_load v x : reads_as v x -> load_u256 v = Ok (x, N.to_nat (hd 0 v)).
Proof.
  intros (l & rest & -> & Hl & ->). unfold load_u256. cbn [index nth_error bind hd]. rewrite Nnat.Nat2N.id.
  destruct (Nat.ltb_spec 32 (length l)); [lia|]. cbn [length]. rewrite app_length. destruct (Nat.ltb_spec (S (length l + length rest)) (length l)); [lia|].
  rewrite slice_in; [|lia|cbn [length]; rewrite app_length; lia]. cbn [bind skipn]. replace (1 + length l - 1)%nat with (length l) by lia.
  rewrite firstn_app, firstn_all, Nat.sub_diag. cbn [firstn]. rewrite app_nil_r, be_val_from_be. reflexivity.
Qed.
Lemma load_no_ub v : load_u256 v <> UB.
Proof.
  unfold load_u256. destruct v as [|b t]; [discriminate|]. cbn [index nth_error bind]. destruct (Nat.ltb 32 (N.to_nat b)); [discriminate|]. destruct (Nat.ltb _ _); [discriminate|].
  unfold slice. destruct (_ && _)%bool; discriminate.
Qed.
Lemma decode_reading e : reading e (led_decode e).
Proof.
  destruct e as [v|]; [right|left; auto]. cbn [led_decode]. destruct (load_u256 v) as [[x n]|e| |] eqn:E; cbn [unwrap bind fst].
  - left. exists v, x. split; [reflexivity|]. split; [exact (load_reads _ _ _ E)|reflexivity].
  - right. exists v. split; [reflexivity|]. split; [|reflexivity]. intros x H. apply reads_load in H. congruence.
  - right. exists v. split; [reflexivity|]. split; [|reflexivity]. intros x H. apply reads_load in H. congruence.
  - destruct (load_no_ub v E).
Qed.
Lemma decode_damaged v : damaged v -> led_decode (Some v) = Panic.
Proof. intros D. destruct (decode_reading (Some v)) as [[H _]|[(v' & x & H & R & _)|(v' & _ & _ & H)]]; [discriminate H| |exact H]. injection H as <-. destruct (D x R). Qed.
Lemma decode_cases e : (exists x, led_decode e = Ok x) \/ led_decode e = Panic.
Proof. destruct (decode_reading e) as [[_ H]|[(v' & x & _ & _ & H)|(v' & _ & _ & H)]]; eauto. Qed.

(*@T C125: whatever the databases hold, reading an account gives 0 without an entry, the amount of an entry that stands for one, and panics for every other entry; it never reports an error. *)
Lemma p_C125_reading : forall w t, reading (amount_entry w t) (t_get_amount w t) /\ reading (gas_entry w t) (t_get_gas w t).
Proof. intros w t. split; apply decode_reading. Qed.

(** *** Calls that read a damaged entry *)
Lemma led_get_damaged w s v : sled_get w s = Some v -> damaged v -> led_get w s = Panic.
Proof. intros E D. unfold led_get. rewrite E. apply decode_damaged, D. Qed.
Lemma led_add_damaged w a s v : sled_get w s = Some v -> damaged v -> led_add w a s = (s, Panic).
Proof. intros E D. unfold led_add. rewrite (led_get_damaged _ _ _ E D). reflexivity. Qed.
Lemma led_sub_damaged w a s v : sled_get w s = Some v -> damaged v -> led_sub w a s = (s, Panic).
Proof. intros E D. unfold led_sub. rewrite (led_get_damaged _ _ _ E D). reflexivity. Qed.
Lemma led_send_damaged w x y a s v : sled_get w s = Some v -> damaged v -> x = w \/ y = w -> led_send x y a s = (s, Panic).
Proof.
  intros E D [->| ->]; unfold led_send; rewrite (led_get_damaged _ _ _ E D); [reflexivity|].
  unfold led_get. destruct (decode_cases (sled_get x s)) as [[z ->]| ->]; reflexivity.
Qed.
Lemma with_summary_same t : with_summary t (t_summary t) = t. Proof. destruct t. reflexivity. Qed.
Lemma with_gas_same t : with_gas t (t_gas t) = t. Proof. destruct t. reflexivity. Qed.

(*@T C125: a call that reads a damaged entry panics and changes nothing at all. *)
Lemma p_C125_damaged_calls : forall p w t v o, damaged v ->
  (amount_entry w t = Some v /\ reads_amount o w) \/ (gas_entry w t = Some v /\ reads_gas o w) ->
  step p t o = (t, Panic).
Proof.
  intros p w t v o D [[E R]|[E R]]; unfold amount_entry, gas_entry in E; destruct o; cbn [reads_amount reads_gas] in R; try contradiction; subst; cbn [step];
    unfold ret_unit, t_add_amount, t_sub_amount, t_add_gas, t_sub_gas, t_send_gas, t_on_summary, t_on_gas.
  - rewrite (led_add_damaged _ _ _ _ E D). cbn [fst snd bind]. rewrite with_summary_same. reflexivity.
  - rewrite (led_sub_damaged _ _ _ _ E D). cbn [fst snd bind]. rewrite with_summary_same. reflexivity.
  - destruct R as [R1 R2]. unfold t_send_amount. destruct (bytes_eqb from to) eqn:Eq; [apply bytes_eqb_eq in Eq; contradiction|]. unfold t_on_summary.
    rewrite (led_send_damaged _ _ _ _ _ _ E D R2). cbn [fst snd bind]. rewrite with_summary_same. reflexivity.
  - unfold t_send_transaction, t_get_amount. rewrite (led_get_damaged _ _ _ E D). unfold t_get_gas, led_get.
    destruct (decode_cases (sled_get (tx_sender tx) (t_gas t))) as [[z ->]| ->]; reflexivity.
  - rewrite (led_add_damaged _ _ _ _ E D). cbn [fst snd bind]. rewrite with_gas_same. reflexivity.
  - rewrite (led_sub_damaged _ _ _ _ E D). cbn [fst snd bind]. rewrite with_gas_same. reflexivity.
  - rewrite (led_send_damaged _ _ _ _ _ _ E D R). cbn [fst snd bind]. rewrite with_gas_same. reflexivity.
  - unfold t_send_transaction, t_get_gas. rewrite (led_get_damaged _ _ _ E D). reflexivity.
Qed.

(** *** Nothing but [set_amount] overwrites a damaged entry *)
Definition keeps_damaged (f : sled -> sled * out unit) : Prop := forall s w v, damaged v -> sled_get w s = Some v -> sled_get w (fst (f s)) = Some v.
Lemma commit1_other w k v x s : k <> w -> sled_get w s = Some v -> sled_get w (sled_commit [(k, x)] s) = Some v.
Proof. intros N E. rewrite sled_get_commit1. destruct (bytes_eqb w k) eqn:Eq; [apply bytes_eqb_eq in Eq; congruence|exact E]. Qed.
Lemma led_get_ok_not s w v k x : sled_get w s = Some v -> damaged v -> led_get k s = Ok x -> k <> w.
Proof. intros E D G ->. rewrite (led_get_damaged _ _ _ E D) in G. discriminate G. Qed.
Lemma led_add_keeps k a : keeps_damaged (led_add k a).
Proof.
  intros s w v D E. unfold led_add. destruct (led_get k s) as [x|e| |] eqn:G; try exact E. cbn [bind]. destruct (u256_add x a); try exact E. cbn [bind led_tx fst].
  apply commit1_other; [exact (led_get_ok_not _ _ _ _ _ E D G)|exact E].
Qed.
Lemma led_sub_keeps k a : keeps_damaged (led_sub k a).
Proof.
  intros s w v D E. unfold led_sub. destruct (led_get k s) as [x|e| |] eqn:G; try exact E. cbn [bind]. destruct (x <? a); [exact E|]. destruct (u256_sub x a); try exact E. cbn [bind led_tx fst].
  apply commit1_other; [exact (led_get_ok_not _ _ _ _ _ E D G)|exact E].
Qed.
Lemma led_send_keeps k l a : keeps_damaged (led_send k l a).
Proof.
  intros s w v D E. unfold led_send. destruct (led_get k s) as [x|e| |] eqn:G; try exact E. cbn [bind]. destruct (led_get l s) as [y|e| |] eqn:G'; try exact E. cbn [bind].
  destruct (x <? a); [exact E|]. destruct (u256_sub x a); try exact E. cbn [bind]. destruct (u256_add y a); try exact E. cbn [bind led_tx fst].
  rewrite sled_get_commit2. pose proof (led_get_ok_not _ _ _ _ _ E D G) as N. pose proof (led_get_ok_not _ _ _ _ _ E D G') as N'.
  destruct (bytes_eqb w l) eqn:Eq; [apply bytes_eqb_eq in Eq; congruence|]. destruct (bytes_eqb w k) eqn:Eq'; [apply bytes_eqb_eq in Eq'; congruence|exact E].
Qed.

Lemma on_summary_keeps f t w v : keeps_damaged f -> damaged v -> amount_entry w t = Some v -> amount_entry w (fst (t_on_summary f t)) = Some v.
Proof. intros K D E. unfold t_on_summary. pose proof (K _ _ _ D E) as H. destruct (f (t_summary t)) as [s r]. exact H. Qed.
Lemma on_gas_keeps f t w v : keeps_damaged f -> damaged v -> gas_entry w t = Some v -> gas_entry w (fst (t_on_gas f t)) = Some v.
Proof. intros K D E. unfold t_on_gas. pose proof (K _ _ _ D E) as H. destruct (f (t_gas t)) as [s r]. exact H. Qed.
Lemma on_summary_gas f t w : gas_entry w (fst (t_on_summary f t)) = gas_entry w t.
Proof. unfold t_on_summary. destruct (f (t_summary t)). reflexivity. Qed.
Lemma on_gas_amount f t w : amount_entry w (fst (t_on_gas f t)) = amount_entry w t.
Proof. unfold t_on_gas. destruct (f (t_gas t)). reflexivity. Qed.
Lemma send_amount_keeps x y a t w v : damaged v -> amount_entry w t = Some v -> amount_entry w (fst (t_send_amount x y a t)) = Some v.
Proof. intros D E. unfold t_send_amount. destruct (bytes_eqb x y); [exact E|]. apply on_summary_keeps; [apply led_send_keeps|exact D|exact E]. Qed.
Lemma send_amount_gas x y a t w : gas_entry w (fst (t_send_amount x y a t)) = gas_entry w t.
Proof. unfold t_send_amount. destruct (bytes_eqb x y); [reflexivity|]. apply on_summary_gas. Qed.
Lemma send_tx_keeps tx t w v : damaged v ->
  (amount_entry w t = Some v -> amount_entry w (fst (t_send_transaction tx t)) = Some v) /\ (gas_entry w t = Some v -> gas_entry w (fst (t_send_transaction tx t)) = Some v).
Proof.
  intros D. unfold t_send_transaction. match goal with |- context [match ?x with Ok _ => _ | Err _ => _ | Panic => _ | UB => _ end] => destruct x as [g|e| |] end; [|split; intros E; exact E..].
  pose proof (send_amount_keeps (tx_sender tx) (tx_receiver tx) (tx_amount tx) (with_main t (mc_add_transaction tx (t_main t))) w v D) as H1.
  pose proof (send_amount_gas (tx_sender tx) (tx_receiver tx) (tx_amount tx) (with_main t (mc_add_transaction tx (t_main t))) w) as H2.
  destruct (t_send_amount _ _ _ _) as [t2 [u|e| |]]; cbn [fst] in *.
  1: split; intros E; [unfold t_sub_gas; rewrite on_gas_amount; exact (H1 E)|unfold t_sub_gas; apply on_gas_keeps; [apply led_sub_keeps|exact D|rewrite H2; exact E]].
  all: split; intros E; [exact (H1 E)|rewrite H2; exact E].
Qed.
Lemma emit_main_keeps p pow f txs ts t w : let t' := fst (t_emmit_new_main_block p pow f txs ts t) in
  (amount_entry w t' = amount_entry w t \/ w = ROOT_PUBLIC_ADDRESS) /\ gas_entry w t' = gas_entry w t.
Proof.
  cbv zeta. unfold t_emmit_new_main_block.
  match goal with |- context [match ?x with Ok _ => _ | Err _ => _ | Panic => _ | UB => _ end] => destruct x as [[fee info]|e| |] end; [|split; [left|]; reflexivity..].
  match goal with |- context [let '(t1, rb) := ?b in _] => set (B := b); assert (H : (amount_entry w (fst B) = amount_entry w t \/ w = ROOT_PUBLIC_ADDRESS) /\ gas_entry w (fst B) = gas_entry w t) end.
  { subst B. destruct (_ =? 0).
    - destruct txs; [|split; [left|]; reflexivity]. destruct (t_summarize t); try (split; [left|]; reflexivity). cbn [t_set_amount t_on_summary led_set led_tx fst].
      split; [|reflexivity]. unfold amount_entry. cbn [t_summary with_summary]. rewrite sled_get_commit1. destruct (bytes_eqb w ROOT_PUBLIC_ADDRESS) eqn:Eq; [right; apply bytes_eqb_eq, Eq|left; reflexivity].
    - destruct txs; [split; [left|]; reflexivity|]. destruct (let! tree := _ in _); split; try left; reflexivity. }
  destruct B as [t1 [b|e| |]]; try exact H. destruct (mc_add_block b (t_main t1)) as [m ra]. exact H.
Qed.

(*@T C125: a damaged entry stays as it is through every call, except that [set_amount] writes over it, and the end of an epoch over that of the root account. A damaged gas entry is never mended. *)
Lemma p_C125_damage_stays : forall p t o w v, damaged v ->
  (gas_entry w t = Some v -> gas_entry w (fst (step p t o)) = Some v) /\
  (amount_entry w t = Some v -> ~ overwrites o w -> amount_entry w (fst (step p t o)) = Some v).
Proof.
  intros p t o w v D. destruct o; cbn [step overwrites]; unfold ret_unit, ret_block; cbn [fst].
  - split; intros E; [unfold t_add_amount; rewrite on_summary_gas; exact E|intros _; apply on_summary_keeps; [apply led_add_keeps|exact D|exact E]].
  - split; intros E; [unfold t_set_amount; rewrite on_summary_gas; exact E|intros N]. unfold t_set_amount, t_on_summary, led_set, led_tx. cbn [fst]. apply commit1_other; [exact N|exact E].
  - split; intros E; [unfold t_sub_amount; rewrite on_summary_gas; exact E|intros _; apply on_summary_keeps; [apply led_sub_keeps|exact D|exact E]].
  - split; intros E; [rewrite send_amount_gas; exact E|intros _; apply send_amount_keeps; assumption].
  - split; intros E; [apply on_gas_keeps; [apply led_add_keeps|exact D|exact E]|intros _; unfold t_add_gas; rewrite on_gas_amount; exact E].
  - split; intros E; [apply on_gas_keeps; [apply led_sub_keeps|exact D|exact E]|intros _; unfold t_sub_gas; rewrite on_gas_amount; exact E].
  - split; intros E; [apply on_gas_keeps; [apply led_send_keeps|exact D|exact E]|intros _; unfold t_send_gas; rewrite on_gas_amount; exact E].
  - destruct (send_tx_keeps tx t w v D) as [H1 H2]. split; [exact H2|intros E _; exact (H1 E)].
  - destruct (emit_main_keeps p pow founder txs ts t w) as [H1 H2]. split; [rewrite H2; auto|]. intros E N. destruct H1 as [->|H]; [exact E|contradiction].
  - destruct (emit_deriv_ledgers p pow founder ts t) as (H1 & H2 & _). unfold gas_entry, amount_entry. rewrite H1, H2. auto.
  - pose proof (get_deriv_ledgers owner t) as (H1 & H2 & _). destruct (t_get_derivative_chain owner t) as [t' r]. cbn [fst] in *. unfold gas_entry, amount_entry. rewrite H1, H2. auto.
  - destruct (add_new_block_ledgers b txs t) as (H1 & H2 & _). unfold gas_entry, amount_entry. rewrite H1, H2. auto.
  - auto.
  - destruct (assoc_get owner (t_derivs t)); [|auto]. destruct (dc_add_block i d). auto.
  - auto.
  - auto.
  - destruct (assoc_get owner (t_derivs t)); auto.
Qed.

(*@T C125: [set_amount] mends the entry of an account, whatever it was. *)
Lemma p_C125_mended : forall p t w x, u256_ok x -> let '(t', r) := step p t (OSetAmount w x) in r = Ok RUnit /\ t_get_amount w t' = Ok x.
Proof.
  intros p t w x Hx. cbn [step]. unfold ret_unit, t_set_amount, t_on_summary, led_set, led_tx. cbn [fst snd bind]. split; [reflexivity|]. unfold t_get_amount, led_get. cbn [t_summary with_summary].
  rewrite sled_get_commit1, bytes_eqb_refl. apply led_decode_encode, Hx.
Qed.

(*@T C125: [send_transaction] to a damaged account is not all or nothing: it either changes nothing or panics having stored the transaction without moving funds or charging gas. *)
Lemma p_C125_damaged_receiver : forall p t tx v, amount_entry (tx_receiver tx) t = Some v -> damaged v -> tx_receiver tx <> tx_sender tx ->
  fst (step p t (OSendTx tx)) = t \/ step p t (OSendTx tx) = (with_main t (mc_add_transaction tx (t_main t)), Panic).
Proof.
  intros p t tx v E D N. cbn [step]. unfold ret_unit, t_send_transaction.
  match goal with |- context [match ?x with Ok _ => _ | Err _ => _ | Panic => _ | UB => _ end] => destruct x as [g|e| |] end; [right|left; reflexivity..].
  unfold t_send_amount. destruct (bytes_eqb (tx_sender tx) (tx_receiver tx)) eqn:Eq; [apply bytes_eqb_eq in Eq; congruence|]. unfold t_on_summary.
  change (t_summary (with_main t (mc_add_transaction tx (t_main t)))) with (t_summary t). rewrite (led_send_damaged _ _ _ _ _ _ E D (or_intror eq_refl)). reflexivity.
Qed.

(*@T C125 fails for a transaction to a damaged account: it is stored although it panicked. *)
Lemma p_C125_stored_refuted : exists t tx v, amount_entry (tx_receiver tx) t = Some v /\ damaged v /\ mc_get_transaction (tx_hash tx) (t_main t) = Ok None /\
  snd (step Debug t (OSendTx tx)) = Panic /\ mc_get_transaction (tx_hash tx) (t_main (fst (step Debug t (OSendTx tx)))) = Ok (Some tx).
Proof.
  exists (with_summary funded (sled_insert addrB [33] (t_summary funded))), (demo_tx 5 (repeat 9 64)), [33].
  split; [vm_compute; reflexivity|]. split; [intros x H; apply reads_load in H; vm_compute in H; discriminate H|]. split; [vm_compute; reflexivity|]. split; vm_compute; reflexivity.
Qed.

(*@E
Example C125_ex :
  let t := with_gas (with_summary funded (sled_insert addrB [33] (t_summary funded))) (sled_insert addrB [2; 1] (t_gas funded)) in
  (t_get_amount addrA t, t_get_amount addrB t, t_get_gas addrB t, t_get_amount txh t) = (Ok 1000000000, Panic, Panic, Ok 0) /\
  step Debug t (OSendAmount addrA addrB 5) = (t, Panic) /\ step Debug t (OAddGas addrB 5) = (t, Panic) /\
  t_get_amount addrB (fst (step Debug t (OSetAmount addrB 7))) = Ok 7.
Proof. vm_compute. repeat split. Qed.
Example C125_ex_reads : reads_as [2; 1; 0; 9; 9] 256 /\ damaged [33] /\ damaged [] /\ damaged [2; 1].
Proof.
  split; [exists [1; 0], [9; 9]; split; [reflexivity|split; [cbn; repeat constructor|reflexivity]]|]. repeat split; intros x H; apply reads_load in H; vm_compute in H; discriminate H.
Qed.
@*)
