(** Property C82: total supply.
    Only theorem statements (closed by [exact]), examples showing that their
    premises are met, and the assumptions of each theorem. *)
From Coq Require Import Lia ZifyBool ZifyNat ZifyN.
From Verif Require Import Base Sha256 Merkle Tools Transaction Block Sled Chain Tree Spec Reach LedgerSpec SupplySpec Demo.
From Verif Require Import BaseFacts ToolsFacts MerkleFacts DiffFacts CodecFacts SledFacts ChainFacts TreeFacts LedgerFacts MainProps LedgerProps StoreProps.
From Verif Require Import SupplyProps.

(** C82, the supply of a tree is well defined. *)
Theorem C82_supply_unique : forall t a b, supply t a -> supply t b -> a = b.
Proof. exact p_C82_supply_unique. Qed.
Print Assumptions C82_supply_unique.

(** C82, one call: nothing but the end of an epoch changes the supply, and an epoch's end
    replaces the root account's amount by the cycle amount. *)
Theorem C82_supply_step : forall ok p n t o a f, reachable ok p n t -> few n -> op_wf o -> moves_only o ->
  supply t a -> amounts t f ->
  let t' := fst (step p t o) in
  match snd (step p t o), o with
  | Ok (RBlock (SummBlock _ _)), OEmitMain _ _ _ _ =>
      f ROOT_PUBLIC_ADDRESS <= a /\ supply t' (a - f ROOT_PUBLIC_ADDRESS + COINS_PER_CYCLE) /\
      mc_get_height (t_main t) mod 1000000 = 0 /\ mc_get_height (t_main t') = mc_get_height (t_main t) + 1
  | _, _ => supply t' a
  end.
Proof. exact p_C82_supply_step. Qed.
Print Assumptions C82_supply_step.

(** C82, histories: from the start the supply is the cycle amount; every epoch can add at most
    one cycle amount and nothing else adds or removes coins. Restarts are covered unless the chain still consists
    of the first block only. *)
Theorem C82_supply_partial : forall p n t, coin_history p n t -> few n ->
  exists total, supply t total /\
    COINS_PER_CYCLE <= total <= COINS_PER_CYCLE * (1 + (mc_get_height (t_main t) - 1) / 1000000) /\
    (mc_get_height (t_main t) <= 1000000 -> total = COINS_PER_CYCLE).
Proof. exact p_C82_supply_partial. Qed.
Print Assumptions C82_supply_partial.

(** C82 is false of the code for restarts before the first emitted block: coins the root account
    has spent come back, and [k] such restarts multiply the supply by [k + 1]. *)
Theorem C82_restart_mints_refuted : forall p k, (N.of_nat k + 1) * COINS_PER_CYCLE < 2 ^ 256 ->
  exists t, reachable moves_only p k t /\ mc_get_height (t_main t) = 1 /\ supply t ((N.of_nat k + 1) * COINS_PER_CYCLE).
Proof. exact p_C82_restart_mints_refuted. Qed.
Print Assumptions C82_restart_mints_refuted.

Example C82_ex : coin_history Debug 2 (run Debug fresh [OSendAmount ROOT_PUBLIC_ADDRESS addrA 12; emit_good]) /\
  mc_get_height (t_main (run Debug fresh [OSendAmount ROOT_PUBLIC_ADDRESS addrA 12; emit_good])) = 2 /\
  t_get_amount addrA (run Debug fresh [OSendAmount ROOT_PUBLIC_ADDRESS addrA 12; emit_good]) = Ok 12.
Proof.
  split; [|vm_compute; auto].
  apply (coin_call Debug 1 (run Debug fresh [OSendAmount ROOT_PUBLIC_ADDRESS addrA 12]) emit_good);
    [apply (coin_call Debug 0 fresh (OSendAmount ROOT_PUBLIC_ADDRESS addrA 12)); [apply coin_open; vm_compute; reflexivity| |exact I]| |exact I];
    repeat split; repeat constructor; reflexivity.
Qed.

