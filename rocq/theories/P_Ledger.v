(** Properties C41-C48: balances, gas and transactions.
    Only theorem statements (closed by [exact]), examples showing that their
    premises are met, and the assumptions of each theorem. *)
From Coq Require Import Lia ZifyBool ZifyNat ZifyN.
From Verif Require Import Base Sha256 Merkle Tools Transaction Block Sled Chain Tree Spec Reach LedgerSpec Demo.
From Verif Require Import BaseFacts ToolsFacts MerkleFacts DiffFacts CodecFacts SledFacts ChainFacts TreeFacts LedgerFacts MainProps.
From Verif Require Import LedgerProps.

(** C41: in every reachable tree every account has an amount and a gas balance, and it is a 256-bit number. *)
Theorem C41_balances_readable : forall ok p n t, reachable ok p n t -> few n ->
  exists f g, amounts t f /\ gases t g /\ forall w, f w < 2 ^ 256 /\ g w < 2 ^ 256.
Proof. exact p_C41_balances_readable. Qed.
Print Assumptions C41_balances_readable.

(** C41: [add_amount] adds, or panics without effect when the sum exceeds 256 bits. *)
Theorem C41_add_amount : forall ok p n t f w a, reachable ok p n t -> few n -> amounts t f ->
  let '(t', r) := t_add_amount w a t in
  same_but_amounts t t' /\
  if f w + a <? 2 ^ 256 then r = Ok tt /\ amounts t' (upd f w (f w + a)) else r = Panic /\ t' = t.
Proof. exact p_C41_add_amount. Qed.
Print Assumptions C41_add_amount.

(** C41: [set_amount] sets. *)
Theorem C41_set_amount : forall ok p n t f w a, reachable ok p n t -> few n -> u256_ok a -> amounts t f ->
  let '(t', r) := t_set_amount w a t in same_but_amounts t t' /\ r = Ok tt /\ amounts t' (upd f w a).
Proof. exact p_C41_set_amount. Qed.
Print Assumptions C41_set_amount.

(** C41: [sub_amount] subtracts, or panics without effect when the balance is too small. *)
Theorem C41_sub_amount : forall ok p n t f w a, reachable ok p n t -> few n -> amounts t f ->
  let '(t', r) := t_sub_amount w a t in
  same_but_amounts t t' /\
  if a <=? f w then r = Ok tt /\ amounts t' (upd f w (f w - a)) else r = Panic /\ t' = t.
Proof. exact p_C41_sub_amount. Qed.
Print Assumptions C41_sub_amount.

(** C41: [send_amount] moves, or panics without effect; to oneself it does nothing. *)
Theorem C41_send_amount : forall ok p n t f x y a, reachable ok p n t -> few n -> amounts t f ->
  let '(t', r) := t_send_amount x y a t in
  same_but_amounts t t' /\
  if bytes_eqb x y then r = Ok tt /\ t' = t
  else if (a <=? f x) && (f y + a <? 2 ^ 256) then r = Ok tt /\ amounts t' (moved f x y a) else r = Panic /\ t' = t.
Proof. exact p_C41_send_amount. Qed.
Print Assumptions C41_send_amount.

(** C41 over histories: whatever amount calls (and calls on other things) are made, in
    whatever order and with whatever outcome, every account reads as in the abstract ledger. *)
Theorem C41_amount_history : forall ok p n t f ops, reachable ok p n t -> few (n + length ops) ->
  Forall op_wf ops -> Forall (fun o => amount_call o = true) ops -> amounts t f ->
  amounts (run p t ops) (fold_left amount_after ops f).
Proof. exact p_C41_amount_history. Qed.
Print Assumptions C41_amount_history.

(** C41 for gas. *)
Theorem C41_gas_history : forall ok p n t f ops, reachable ok p n t -> few (n + length ops) ->
  Forall op_wf ops -> Forall (fun o => gas_call o = true) ops -> gases t f ->
  gases (run p t ops) (fold_left gas_after ops f).
Proof. exact p_C41_gas_history. Qed.
Print Assumptions C41_gas_history.

Example C41_ex : t_get_amount addrA funded = Ok 1000000000 /\ t_get_gas addrA funded = Ok (10 ^ 18) /\
  t_get_amount addrB funded = Ok 0 /\
  t_get_amount ROOT_PUBLIC_ADDRESS funded = Ok COINS_PER_CYCLE /\
  t_get_amount addrB (fst (step Debug funded (OSendAmount addrA addrB 5))) = Ok 5 /\
  snd (step Debug funded (OSendAmount addrA addrB (10 ^ 20))) = Panic /\
  Forall op_wf fund_ops /\ Forall (fun o => amount_call o = true) fund_ops /\ few (length fund_ops).
Proof.
  split; [vm_compute; reflexivity|]. split; [vm_compute; reflexivity|]. split; [vm_compute; reflexivity|].
  split; [vm_compute; reflexivity|]. split; [vm_compute; reflexivity|]. split; [vm_compute; reflexivity|].
  split; [repeat constructor; reflexivity|]. split; [repeat constructor|reflexivity].
Qed.

(** C42: whatever its outcome, [send_amount] keeps the sum over any set of accounts that contains both parties. *)
Theorem C42_send_amount_conserves : forall ok p n t f f' x y a A,
  reachable ok p n t -> few n -> amounts t f -> amounts (fst (t_send_amount x y a t)) f' ->
  NoDup A -> In x A -> In y A -> sum_over f' A = sum_over f A.
Proof. exact p_C42_send_amount_conserves. Qed.
Print Assumptions C42_send_amount_conserves.

(** C42: a transfer or subtraction above the balance has no effect. *)
Theorem C42_overdraft_no_effect : forall ok p n t f x y a,
  reachable ok p n t -> few n -> amounts t f -> f x < a ->
  fst (t_send_amount x y a t) = t /\ fst (t_sub_amount x a t) = t.
Proof. exact p_C42_overdraft_no_effect. Qed.
Print Assumptions C42_overdraft_no_effect.

(** C42 over histories of transfers (and calls on other things). *)
Theorem C42_transfers_conserve : forall ok p n t f f' ops A, reachable ok p n t -> few (n + length ops) ->
  Forall op_wf ops ->
  Forall (fun o => match o with
    | OSendAmount x y _ => In x A /\ In y A
    | OAddGas _ _ | OSubGas _ _ | OSendGas _ _ _ | OFlush | OAddTxs _ | OAddNewBlock _ _
    | OEmitDeriv _ _ _ | OGetDeriv _ | ODerivAddBlock _ _ | OMainFlush | ODerivFlush _ => True
    | _ => False end) ops ->
  NoDup A -> amounts t f -> amounts (run p t ops) f' -> sum_over f' A = sum_over f A.
Proof. exact p_C42_transfers_conserve. Qed.
Print Assumptions C42_transfers_conserve.

Example C42_ex : let t := run Debug funded [OSendAmount addrA addrB 7; OSendAmount addrB addrA 2; OSendAmount addrB addrA 6] in
  t_get_amount addrA t = Ok 999999995 /\ t_get_amount addrB t = Ok 5 /\ NoDup [addrA; addrB].
Proof.
  split; [vm_compute; reflexivity|]. split; [vm_compute; reflexivity|].
  repeat constructor; cbn; intuition discriminate.
Qed.

(** C43 fails always: every overdraft panics (without any effect) instead of returning [Err]. *)
Theorem C43_overdraft_partial : forall ok p n t f g x y a,
  reachable ok p n t -> few n -> amounts t f -> gases t g ->
  (f x < a -> x <> y -> t_send_amount x y a t = (t, Panic)) /\
  (f x < a -> t_sub_amount x a t = (t, Panic)) /\
  (g x < a -> t_send_gas x y a t = (t, Panic)) /\
  (g x < a -> t_sub_gas x a t = (t, Panic)).
Proof. exact p_C43_overdraft_partial. Qed.
Print Assumptions C43_overdraft_partial.

(** ... so C43 is false of the code. *)
Theorem C43_overdraft_refuted : forall p, exists t x y a, reachable any_op p 0 t /\
  t_get_amount x t = Ok 0 /\ 0 < a /\
  snd (t_send_amount x y a t) = Panic /\ snd (t_sub_amount x a t) = Panic /\
  snd (t_send_gas x y a t) = Panic /\ snd (t_sub_gas x a t) = Panic.
Proof. exact p_C43_overdraft_refuted. Qed.
Print Assumptions C43_overdraft_refuted.

(** The transfer to oneself is not checked at all. *)
Theorem C43_self_transfer_unchecked : forall t x a, t_send_amount x x a t = (t, Ok tt).
Proof. exact p_C43_self_transfer_unchecked. Qed.
Print Assumptions C43_self_transfer_unchecked.

(** C44 between different parties, whatever the outcome. *)
Theorem C44_send_gas_conserves_partial : forall ok p n t f f' x y a A,
  reachable ok p n t -> few n -> gases t f -> gases (fst (t_send_gas x y a t)) f' -> x <> y ->
  NoDup A -> In x A -> In y A -> sum_over f' A = sum_over f A.
Proof. exact p_C44_send_gas_conserves_partial. Qed.
Print Assumptions C44_send_gas_conserves_partial.

(** C44 is false of the code: sending gas to oneself creates it, for every account and amount within the balance. *)
Theorem C44_send_gas_refuted : forall ok p n t f x a,
  reachable ok p n t -> few n -> gases t f -> a <= f x -> f x + a < 2 ^ 256 ->
  snd (t_send_gas x x a t) = Ok tt /\ t_get_gas x (fst (t_send_gas x x a t)) = Ok (f x + a).
Proof. exact p_C44_send_gas_refuted. Qed.
Print Assumptions C44_send_gas_refuted.

Example C44_ex : t_get_gas addrA funded = Ok (10 ^ 18) /\
  t_get_gas addrA (fst (t_send_gas addrA addrA (10 ^ 18) funded)) = Ok (2 * 10 ^ 18).
Proof. vm_compute. auto. Qed.

(** C45: exactly when [send_transaction] succeeds, and all it does then.  The size is the
    predicted one: one byte more than the dump if the amount is 0 (see C13). *)
Theorem C45_send_transaction_ok_partial : forall ok p n t f g tx,
  reachable ok p n t -> few n -> tx_wf tx -> N.of_nat (length (tx_dump tx)) < 2 ^ 63 -> amounts t f -> gases t g ->
  let s := tx_sender tx in let r := tx_receiver tx in let a := tx_amount tx in
  let gas := gas_for (N.of_nat (length (tx_dump tx)) + (if a =? 0 then 1 else 0)) in
  let '(t', o) := t_send_transaction tx t in
  (o = Ok tt <-> gas <= g s /\ (exists b, mc_get_last_block (t_main t) = Ok (Some b) /\ fee_after b + a <= f s) /\
                 (s = r \/ f r + a < 2 ^ 256)) /\
  (o = Ok tt -> amounts t' (moved f s r a) /\ gases t' (upd g s (g s - gas)) /\
                stores_only (sha256 (tx_dump tx)) (tx_dump tx) t t').
Proof. exact p_C45_send_transaction_ok_partial. Qed.
Print Assumptions C45_send_transaction_ok_partial.

(** C45: an error leaves the tree as it was. *)
Theorem C45_send_transaction_err : forall ok p n t tx e,
  reachable ok p n t -> few n -> tx_wf tx -> N.of_nat (length (tx_dump tx)) < 2 ^ 63 ->
  snd (t_send_transaction tx t) = Err e -> fst (t_send_transaction tx t) = t.
Proof. exact p_C45_send_transaction_err. Qed.
Print Assumptions C45_send_transaction_err.

(** C45: it never returns an error half way, but it can panic half way, when the receiver's
    balance would exceed 256 bits: the transaction is then stored though no funds moved. *)
Theorem C45_send_transaction_panics : forall ok p n t f g tx,
  reachable ok p n t -> few n -> tx_wf tx -> N.of_nat (length (tx_dump tx)) < 2 ^ 63 -> amounts t f -> gases t g ->
  let '(t', o) := t_send_transaction tx t in
  o <> UB /\
  (o = Panic -> amounts t' f /\ gases t' g /\
     exists b, mc_get_last_block (t_main t) = Ok (Some b) /\
       (2 ^ 256 <= fee_after b + tx_amount tx /\ t' = t \/
        2 ^ 256 <= f (tx_receiver tx) + tx_amount tx /\ tx_sender tx <> tx_receiver tx /\
          stores_only (sha256 (tx_dump tx)) (tx_dump tx) t t')).
Proof. exact p_C45_send_transaction_panics. Qed.
Print Assumptions C45_send_transaction_panics.

(** C45 is false of the code in two ways: a zero-amount transaction pays for one byte more than its dump ... *)
Theorem C45_gas_refuted : forall p, exists t tx, reachable any_op p 2 t /\ tx_wf tx /\
  snd (t_send_transaction tx t) = Ok tt /\
  t_get_gas (tx_sender tx) t = Ok (10 ^ 18) /\
  t_get_gas (tx_sender tx) (fst (t_send_transaction tx t)) =
    Ok (10 ^ 18 - 625000000000 * (N.of_nat (length (tx_dump tx)) + 1)).
Proof. exact p_C45_gas_refuted. Qed.
Print Assumptions C45_gas_refuted.

(** ... and a transaction can be stored although the call failed (by panicking) and nothing moved. *)
Theorem C45_atomic_refuted : forall p, exists t tx, reachable any_op p 3 t /\ tx_wf tx /\
  snd (t_send_transaction tx t) = Panic /\
  mc_transaction_exists (tx_hash tx) (t_main t) = false /\
  mc_transaction_exists (tx_hash tx) (t_main (fst (t_send_transaction tx t))) = true.
Proof. exact p_C45_atomic_refuted. Qed.
Print Assumptions C45_atomic_refuted.

Example C45_ex : let t := fst (t_send_transaction (demo_tx 1000 (repeat 7 64)) funded) in
  snd (t_send_transaction (demo_tx 1000 (repeat 7 64)) funded) = Ok tt /\
  t_get_amount addrA t = Ok 999999000 /\ t_get_amount addrB t = Ok 1000 /\
  mc_transaction_exists (tx_hash (demo_tx 1000 (repeat 7 64))) (t_main t) = true /\
  N.of_nat (length (tx_dump (demo_tx 1000 (repeat 7 64)))) < 2 ^ 63 /\
  (exists e, snd (t_send_transaction (demo_tx (10 ^ 10) (repeat 7 64)) funded) = Err e).
Proof.
  split; [vm_compute; reflexivity|]. split; [vm_compute; reflexivity|]. split; [vm_compute; reflexivity|].
  split; [vm_compute; reflexivity|]. split; [vm_compute; reflexivity|]. eexists. vm_compute. reflexivity.
Qed.

(** C46: the verdict and the balances after [send_transaction] do not depend on the signature at all. *)
Theorem C46_signature_ignored : forall ok p n t f g tx sig, reachable ok p n t -> few n -> tx_wf tx -> is_array 64 sig ->
  N.of_nat (length (tx_dump tx)) < 2 ^ 63 -> amounts t f -> gases t g ->
  let tx' := tx_new_signed (tx_sender tx) (tx_receiver tx) (tx_timestamp tx) (tx_amount tx) (tx_data tx) sig in
  (snd (t_send_transaction tx t) = Ok tt <-> snd (t_send_transaction tx' t) = Ok tt) /\
  (snd (t_send_transaction tx t) = Ok tt ->
   forall w, t_get_amount w (fst (t_send_transaction tx' t)) = t_get_amount w (fst (t_send_transaction tx t)) /\
             t_get_gas w (fst (t_send_transaction tx' t)) = t_get_gas w (fst (t_send_transaction tx t))).
Proof. exact p_C46_signature_ignored. Qed.
Print Assumptions C46_signature_ignored.

(** C46 is false of the code: for every signature scheme, a transaction that does not verify moves funds. *)
Theorem C46_authorised_refuted : forall p (E : ecdsa) sig, is_array 64 sig ->
  tx_verify E (demo_tx 1000 sig) <> Ok true ->
  exists t tx, reachable any_op p 2 t /\ tx_wf tx /\ tx_verify E tx <> Ok true /\
    snd (t_send_transaction tx t) = Ok tt /\
    t_get_amount (tx_sender tx) t = Ok 1000000000 /\
    t_get_amount (tx_sender tx) (fst (t_send_transaction tx t)) = Ok 999999000.
Proof. exact p_C46_authorised_refuted. Qed.
Print Assumptions C46_authorised_refuted.

Example C46_ex : tx_verify toy (demo_tx 1000 (repeat 0 64)) = Ok false /\ is_array 64 (repeat 0 64) /\
  tx_wf (demo_tx 1000 (repeat 0 64)).
Proof.
  split; [vm_compute; reflexivity|]. split; [split; [reflexivity|repeat constructor; reflexivity]|].
  repeat split; try reflexivity; repeat constructor; reflexivity.
Qed.

(** C47, what holds: sending a transaction again stores nothing new. *)
Theorem C47_replay_store_partial : forall tx t h,
  snd (t_send_transaction tx t) = Ok tt ->
  let t' := fst (t_send_transaction tx t) in
  mc_get_transaction_raw h (t_main (fst (t_send_transaction tx t'))) = mc_get_transaction_raw h (t_main t').
Proof. exact p_C47_replay_store_partial. Qed.
Print Assumptions C47_replay_store_partial.

(** C47 is false of the code: any accepted transaction can be replayed as long as funds last, and moves them again. *)
Theorem C47_replay_refuted : forall ok p n t f g tx b,
  reachable ok p n t -> few (S n) -> tx_wf tx -> N.of_nat (length (tx_dump tx)) < 2 ^ 63 -> amounts t f -> gases t g ->
  let s := tx_sender tx in let r := tx_receiver tx in let a := tx_amount tx in
  s <> r -> mc_get_last_block (t_main t) = Ok (Some b) ->
  2 * gas_for (N.of_nat (length (tx_dump tx)) + 1) <= g s -> fee_after b + 2 * a <= f s -> f r + 2 * a < 2 ^ 256 ->
  let t1 := fst (t_send_transaction tx t) in let t2 := fst (t_send_transaction tx t1) in
  snd (t_send_transaction tx t) = Ok tt /\ snd (t_send_transaction tx t1) = Ok tt /\
  t_get_amount s t2 = Ok (f s - 2 * a) /\ t_get_amount r t2 = Ok (f r + 2 * a).
Proof. exact p_C47_replay_refuted. Qed.
Print Assumptions C47_replay_refuted.

Example C47_ex : exists b, mc_get_last_block (t_main funded) = Ok (Some b) /\
  let tx := demo_tx 1000 (repeat 7 64) in
  tx_sender tx <> tx_receiver tx /\ 2 * gas_for (N.of_nat (length (tx_dump tx)) + 1) <= 10 ^ 18 /\
  fee_after b + 2 * 1000 <= 1000000000.
Proof.
  eexists. split; [vm_compute; reflexivity|]. split; [discriminate|]. split; vm_compute; discriminate.
Qed.

(** C48, what holds: amount plus fee must be covered ... *)
Theorem C48_fee_covered_partial : forall ok p n t f tx,
  reachable ok p n t -> few n -> tx_wf tx -> N.of_nat (length (tx_dump tx)) < 2 ^ 63 -> amounts t f ->
  snd (t_send_transaction tx t) = Ok tt ->
  exists b, mc_get_last_block (t_main t) = Ok (Some b) /\ fee_after b + tx_amount tx <= f (tx_sender tx).
Proof. exact p_C48_fee_covered_partial. Qed.
Print Assumptions C48_fee_covered_partial.

(** ... but C48 is false: the sender never pays the fee, whichever transaction is accepted. *)
Theorem C48_fee_refuted : forall ok p n t f tx,
  reachable ok p n t -> few n -> tx_wf tx -> N.of_nat (length (tx_dump tx)) < 2 ^ 63 -> amounts t f ->
  snd (t_send_transaction tx t) = Ok tt -> tx_sender tx <> tx_receiver tx ->
  t_get_amount (tx_sender tx) (fst (t_send_transaction tx t)) = Ok (f (tx_sender tx) - tx_amount tx).
Proof. exact p_C48_fee_refuted. Qed.
Print Assumptions C48_fee_refuted.

Example C48_ex : fee_after (last_of funded) = 62500 /\
  t_get_amount addrA (fst (t_send_transaction (demo_tx 1000 (repeat 7 64)) funded)) = Ok (1000000000 - 1000).
Proof. split; vm_compute; reflexivity. Qed.

