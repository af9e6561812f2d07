(** Property C125: account entries that were not written by the node
    Only theorem statements (closed by [exact]), examples showing that their
    premises are met, and the assumptions of each theorem. *)
From Coq Require Import Lia ZifyBool ZifyNat ZifyN.
From Verif Require Import Base Sha256 Merkle Tools Transaction Block Sled Chain Tree Spec Reach LedgerSpec DamageSpec Demo.
From Verif Require Import BaseFacts ToolsFacts MerkleFacts CodecFacts SledFacts ChainFacts TreeFacts LedgerFacts.
From Verif Require Import DamageProps.

(** C125: whatever the databases hold, reading an account gives 0 without an entry, the amount of an entry that stands for one, and panics for every other entry; it never reports an error. *)
Theorem C125_reading : forall w t, reading (amount_entry w t) (t_get_amount w t) /\ reading (gas_entry w t) (t_get_gas w t).
Proof. exact p_C125_reading. Qed.
Print Assumptions C125_reading.

(** C125: a call that reads a damaged entry panics and changes nothing at all. *)
Theorem C125_damaged_calls : forall p w t v o, damaged v ->
  (amount_entry w t = Some v /\ reads_amount o w) \/ (gas_entry w t = Some v /\ reads_gas o w) ->
  step p t o = (t, Panic).
Proof. exact p_C125_damaged_calls. Qed.
Print Assumptions C125_damaged_calls.

(** C125: a damaged entry stays as it is through every call, except that [set_amount] writes over it, and the end of an epoch over that of the root account. A damaged gas entry is never mended. *)
Theorem C125_damage_stays : forall p t o w v, damaged v ->
  (gas_entry w t = Some v -> gas_entry w (fst (step p t o)) = Some v) /\
  (amount_entry w t = Some v -> ~ overwrites o w -> amount_entry w (fst (step p t o)) = Some v).
Proof. exact p_C125_damage_stays. Qed.
Print Assumptions C125_damage_stays.

(** C125: [set_amount] mends the entry of an account, whatever it was. *)
Theorem C125_mended : forall p t w x, u256_ok x -> let '(t', r) := step p t (OSetAmount w x) in r = Ok RUnit /\ t_get_amount w t' = Ok x.
Proof. exact p_C125_mended. Qed.
Print Assumptions C125_mended.

(** C125: [send_transaction] to a damaged account is not all or nothing: it either changes nothing or panics having stored the transaction without moving funds or charging gas. *)
Theorem C125_damaged_receiver : forall p t tx v, amount_entry (tx_receiver tx) t = Some v -> damaged v -> tx_receiver tx <> tx_sender tx ->
  fst (step p t (OSendTx tx)) = t \/ step p t (OSendTx tx) = (with_main t (mc_add_transaction tx (t_main t)), Panic).
Proof. exact p_C125_damaged_receiver. Qed.
Print Assumptions C125_damaged_receiver.

(** C125 fails for a transaction to a damaged account: it is stored although it panicked. *)
Theorem C125_stored_refuted : exists t tx v, amount_entry (tx_receiver tx) t = Some v /\ damaged v /\ mc_get_transaction (tx_hash tx) (t_main t) = Ok None /\
  snd (step Debug t (OSendTx tx)) = Panic /\ mc_get_transaction (tx_hash tx) (t_main (fst (step Debug t (OSendTx tx)))) = Ok (Some tx).
Proof. exact p_C125_stored_refuted. Qed.
Print Assumptions C125_stored_refuted.

Example C125_ex :
  let t := with_gas (with_summary funded (sled_insert addrB [33] (t_summary funded))) (sled_insert addrB [2; 1] (t_gas funded)) in
  (t_get_amount addrA t, t_get_amount addrB t, t_get_gas addrB t, t_get_amount txh t) = (Ok 1000000000, Panic, Panic, Ok 0) /\
  step Debug t (OSendAmount addrA addrB 5) = (t, Panic) /\ step Debug t (OAddGas addrB 5) = (t, Panic) /\
  t_get_amount addrB (fst (step Debug t (OSetAmount addrB 7))) = Ok 7.
Proof. vm_compute. repeat split. Qed.
Example C125_ex_reads : reads_as [2; 1; 0; 9; 9] 256 /\ damaged [33] /\ damaged [] /\ damaged [2; 1].
Proof.
  split; [exists [1; 0], [9; 9]; split; [reflexivity|split; [cbn; repeat constructor|reflexivity]]|]. repeat split; intros x H; apply reads_load in H; vm_compute in H; discriminate H.
Qed.

