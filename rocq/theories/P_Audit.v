(** Property C120: what blocks commit to can be proved to others.
    Only theorem statements (closed by [exact]), examples showing that their
    premises are met, and the assumptions of each theorem. *)
From Coq Require Import Lia ZifyBool ZifyNat ZifyN.
From Verif Require Import Base Sha256 Merkle Tools Transaction Block Sled Chain Tree Spec Reach LedgerSpec NodeSpec AuditSpec Demo.
From Verif Require Import BaseFacts MerkleFacts ChainFacts TreeFacts LedgerFacts NodeFacts NodeSim NodeProps EpochDemo.
From Verif Require Import AuditProps.

(** At any moment of any epoch but the first, the block the epoch starts with carries the root computed afresh
    from the balances kept since then: whatever was called in between, restarts included. *)
Theorem C120_epoch : forall p evs t t' rs,
  Forall (sane p) evs -> Forall inside_epochs evs -> few (length evs) -> t_new disk_empty = Ok t -> code_run p t evs = Some (t', rs) ->
  let e := epoch_start (mc_get_height (t_main t')) in 0 < e ->
  exists i root, mc_find_by_height e (t_main t') = Ok (Some (SummBlock i root)) /\ t_summarize (last_epoch t') = Ok root.
Proof. exact p_C120_epoch. Qed.
Print Assumptions C120_epoch.

(** Every account kept from the end of the last epoch can be proved to whoever has that block: the proof made by the
    Merkle module for its leaf passes the check of the Merkle module against the root in the block. *)
Theorem C120_accounts : forall p evs t t' rs w v,
  Forall (sane p) evs -> Forall inside_epochs evs -> few (length evs) -> t_new disk_empty = Ok t -> code_run p t evs = Some (t', rs) ->
  let e := epoch_start (mc_get_height (t_main t')) in 0 < e ->
  In (w, v) (sled_iter (t_old_summary t')) ->
  exists i root, mc_find_by_height e (t_main t') = Ok (Some (SummBlock i root)) /\
    provable (account_leaf t' w v) (account_leaves t') root.
Proof. exact p_C120_accounts. Qed.
Print Assumptions C120_accounts.

(** During the first epoch there is nothing to prove: the kept databases are empty. *)
Theorem C120_first_epoch : forall p evs t t' rs,
  Forall (sane p) evs -> Forall inside_epochs evs -> few (length evs) -> t_new disk_empty = Ok t -> code_run p t evs = Some (t', rs) ->
  mc_get_height (t_main t') <= 1000000 -> sled_iter (t_old_summary t') = [] /\ sled_iter (t_old_gas t') = [].
Proof. exact p_C120_first_epoch. Qed.
Print Assumptions C120_first_epoch.

(** Every hash in every transaction block that can be found can be proved to whoever has the block's root. *)
Theorem C120_transactions : forall p evs t t' rs j fee root i txs h,
  Forall (sane p) evs -> Forall roots_right evs -> few (length evs) -> t_new disk_empty = Ok t -> code_run p t evs = Some (t', rs) ->
  mc_find_by_height j (t_main t') = Ok (Some (TxBlock fee root i txs)) -> In h txs -> provable h txs root.
Proof. exact p_C120_transactions. Qed.
Print Assumptions C120_transactions.

(** A block is emitted in the first epoch and read after a restart. *)
Example C120_tx_ex : let evs := [Call emit_good; Restart] in
  Forall (sane Release) evs /\ Forall roots_right evs /\ Forall inside_epochs evs /\ few (length evs) /\ t_new disk_empty = Ok fresh /\
  match code_run Release fresh evs with
  | Some (t', _) =>
      match mc_find_by_height 1 (t_main t') with
      | Ok (Some (TxBlock _ root _ [h])) => bytes_eqb h txh && negb (bytes_eqb root (repeat 0 32)) | _ => false
      end && (mc_get_height (t_main t') =? 2)
  | None => false
  end = true.
Proof.
  cbv zeta. split; [repeat (apply Forall_cons; [repeat split; try reflexivity; repeat constructor; reflexivity|]); constructor|].
  split; [repeat constructor|]. split; [repeat constructor|]. split; [reflexivity|]. split; vm_compute; reflexivity.
Qed.

(** These theorems are about something: an epoch boundary is reached by a history that satisfies every hypothesis, with
    the account of the root kept. *)
Theorem C120_reached : forall p, exists evs t t' rs v,
  Forall (sane p) evs /\ Forall inside_epochs evs /\ few (length evs) /\ t_new disk_empty = Ok t /\ code_run p t evs = Some (t', rs) /\
  epoch_start (mc_get_height (t_main t')) = 1000000 /\ In (ROOT_PUBLIC_ADDRESS, v) (sled_iter (t_old_summary t')).
Proof. exact p_C120_reached. Qed.
Print Assumptions C120_reached.

(** Without the condition on blocks added by hand a block may carry any root, and none of its hashes can be proved. *)
Theorem C120_raw_refuted : ~ (forall p evs t t' rs j fee root i txs h,
  Forall (sane p) evs -> few (length evs) -> t_new disk_empty = Ok t -> code_run p t evs = Some (t', rs) ->
  mc_find_by_height j (t_main t') = Ok (Some (TxBlock fee root i txs)) -> In h txs -> provable h txs root).
Proof. exact p_C120_raw_refuted. Qed.
Print Assumptions C120_raw_refuted.

