(** Property C119: every account is the sum of what the answered calls reported.
    Only theorem statements (closed by [exact]), examples showing that their
    premises are met, and the assumptions of each theorem. *)
From Coq Require Import Lia ZifyBool ZifyNat ZifyN.
From Verif Require Import Base Sha256 Merkle Tools Transaction Block Sled Chain Tree Spec Reach LedgerSpec NodeSpec Conc ConcSpec BookSpec Demo.
From Verif Require Import BaseFacts NodeFacts NodeProps ObsFacts.
From Verif Require Import BookProps.

(** C119, gas.  After any history of calls and careful restarts the gas of every account is what the successful calls gave it minus what the successful calls and
    transactions took from it; one result belongs to each call. *)
Theorem C119_gas : forall p evs t t' rs, few (length evs) -> Forall (sane p) evs -> t_new disk_empty = Ok t -> code_run p t evs = Some (t', rs) ->
  length rs = length (calls_of evs) /\
  forall w, exists g, t_get_gas w t' = Ok g /\ g + total (gas_out w) (statement evs rs) = total (gas_in w) (statement evs rs).
Proof. exact p_C119_gas. Qed.
Print Assumptions C119_gas.

(** C119, coins.  The same for the coins of every account but the root account, whose amount is set when an epoch ends, and when it is not overwritten by [set_amount]. *)
Theorem C119_coins : forall p evs t t' rs w, few (length evs) -> Forall (sane p) evs -> t_new disk_empty = Ok t -> code_run p t evs = Some (t', rs) ->
  w <> ROOT_PUBLIC_ADDRESS -> Forall (not_set w) (calls_of evs) ->
  exists a, t_get_amount w t' = Ok a /\ a + total (coins_out w) (statement evs rs) = total (coins_in w) (statement evs rs).
Proof. exact p_C119_coins. Qed.
Print Assumptions C119_coins.

(** Two transfers, a transaction, an overdraft that panics, a transfer of gas, a restart in between. *)
Example C119_ex :
  let evs := [Call (OAddAmount addrA 1000000000); Call (OAddGas addrA (10 ^ 18)); Call (OSendTx (demo_tx 1000 (repeat 7 64))); Restart;
    Call (OSubGas addrB 5); Call (OSendGas addrA addrB 77); Call (OSendAmount addrB addrA 400)] in
  few (length evs) /\ Forall (sane Debug) evs /\
  let '(n, l) := n_run Debug n_start evs in
  map (fun a => match a with Ok _ => true | _ => false end) l = [true; true; true; false; true; true] /\
  held addrA (n_amounts n) = 1000000000 - 1000 + 400 /\ held addrB (n_amounts n) = 1000 - 400 /\
  held addrB (n_gas n) = 77 /\ held addrA (n_gas n) + 77 + gas_charge (demo_tx 1000 (repeat 7 64)) = 10 ^ 18.
Proof.
  cbv zeta. split; [reflexivity|]. split.
  - repeat (apply Forall_cons; [repeat split; try reflexivity; repeat constructor; reflexivity|]). constructor.
  - vm_compute. repeat split.
Qed.
Example C119_ex_coins : addrA <> ROOT_PUBLIC_ADDRESS /\ Forall (not_set addrA) (calls_of [Call (OAddAmount addrA 5); Restart; Call (OSetAmount addrB 7)]).
Proof. split; [vm_compute; discriminate|]. repeat constructor. vm_compute. discriminate. Qed.

(** C119, all gas.  The gas of all accounts together is what was added, and what accounts sent to themselves, minus what was subtracted and what transactions were charged:
    transfers between accounts, blocks of all kinds, epochs and restarts neither make nor destroy gas. *)
Theorem C119_all_gas : forall p evs t t' rs A, few (length evs) -> Forall (sane p) evs -> t_new disk_empty = Ok t -> code_run p t evs = Some (t', rs) ->
  NoDup A -> incl (flat_map gas_accounts (calls_of evs)) A ->
  exists g, gases t' g /\ (forall w, g w <> 0 -> In w A) /\
    sum_over g A + total gas_removed (statement evs rs) = total gas_added (statement evs rs).
Proof. exact p_C119_all_gas. Qed.
Print Assumptions C119_all_gas.

Example C119_all_gas_ex : let evs := [Call (OAddGas addrA 100); Restart; Call (OSendGas addrA addrB 30); Call (OSubGas addrB 10)] in
  few (length evs) /\ Forall (sane Release) evs /\ NoDup [addrA; addrB] /\ incl (flat_map gas_accounts (calls_of evs)) [addrA; addrB] /\
  let '(n, l) := n_run Release n_start evs in held addrA (n_gas n) = 70 /\ held addrB (n_gas n) = 20.
Proof.
  cbv zeta. split; [reflexivity|]. split; [repeat (apply Forall_cons; [repeat split; try reflexivity; repeat constructor; reflexivity|]); constructor|].
  split; [constructor; [intros [E|[]]; vm_compute in E; discriminate E|constructor; [intros []|constructor]]|].
  split; [cbn; intros w Hw; cbn in *; tauto|]. vm_compute. split; reflexivity.
Qed.

(** C119 is not conservation: an account that sends itself gas gains it.  Gas [a] becomes [(k + 1) * a] in [k] calls, each of which succeeds. *)
Theorem C119_forged_refuted : forall p w a k, bytes_ok w -> few (S k) -> (N.of_nat k + 1) * a < 2 ^ 256 ->
  exists t t', t_new disk_empty = Ok t /\
  code_run p t (Call (OAddGas w a) :: repeat (Call (OSendGas w w a)) k) = Some (t', repeat (Ok RUnit) (S k)) /\
  t_get_gas w t' = Ok ((N.of_nat k + 1) * a).
Proof. exact p_C119_forged_refuted. Qed.
Print Assumptions C119_forged_refuted.

Example C119_forged_ex : bytes_ok addrA /\ few 4 /\ (N.of_nat 3 + 1) * 5 < 2 ^ 256 /\
  held addrA (n_gas (fst (n_run Debug n_start (Call (OAddGas addrA 5) :: repeat (Call (OSendGas addrA addrA 5)) 3)))) = 20.
Proof. split; [repeat constructor|]. split; [reflexivity|]. split; [reflexivity|vm_compute; reflexivity]. Qed.

