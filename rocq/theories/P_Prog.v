(** Property C106: the example programs on one directory.
    Only theorem statements (closed by [exact]), examples showing that their
    premises are met, and the assumptions of each theorem. *)
From Coq Require Import Lia ZifyBool ZifyNat ZifyN.
From Verif Require Import Base Sha256 Merkle Tools Transaction Block Sled Chain Tree Miner Sender Spec Reach LedgerSpec LiveSpec CrashSpec MinerSpec ProgSpec Demo.
From Verif Require Import BaseFacts ToolsFacts MerkleFacts DiffFacts CodecFacts SledFacts ChainFacts TreeFacts DerivFacts CrashFacts LedgerFacts CodecProps MainProps LedgerProps LiveProps SupplyProps CrashProps StoreProps MinerProps DminerProps.
From Verif Require Import ProgProps.

(** C106, accounts: after any runs of the three example programs on one directory the main chain has its [k + 1] linked blocks and the chain of the wallet its [d]; the wallet holds what it was
    credited for the blocks less 228 for every transaction, the root account what it was last filled with less the payments and plus the 228s since then, and nobody else anything;
    the wallet has the gas of its [d] blocks less the gas of its [s] transactions, and nobody else any.  In particular the fee the miner is credited is paid by nobody. *)
Theorem C106_programs_accounts : forall p E key w k d s c r now t,
  programs p E key w k d s c r now t -> is_array 33 w -> w <> ROOT_PUBLIC_ADDRESS -> seckey_ok E key = true -> (forall h, is_array 64 (ecdsa_sign E h key)) -> N.of_nat r < 2 ^ 64 ->
  exists L B f g, length L = S k /\ mc_get_height (t_main t) = N.of_nat (S k) /\
    (forall i b, nth_error L i = Some b -> mc_find_by_height (N.of_nat i) (t_main t) = Ok (Some b)) /\ chained (main_link p) L /\
    (exists dc, snd (t_get_derivative_chain w t) = Ok dc /\ length B = d /\ dc_get_height dc = N.of_nat d /\
      (forall i x, nth_error B i = Some x -> dc_find_by_height (N.of_nat i) dc = Ok (Some (DerivBlock x)) /\ bi_founder x = w) /\ chained (deriv_link p) B) /\
    amounts t f /\ f w + 228 * N.of_nat s = earned L /\
    f ROOT_PUBLIC_ADDRESS + 25000000000000000 * payments (N.of_nat (S k)) = COINS_PER_CYCLE + 228 * N.of_nat c /\ (forall a, a <> w -> a <> ROOT_PUBLIC_ADDRESS -> f a = 0) /\
    gases t g /\ g w + GAS_228 * N.of_nat s = 25000000000000000 * N.of_nat d /\ forall a, a <> w -> g a = 0.
Proof. exact p_C106_programs_accounts. Qed.
Print Assumptions C106_programs_accounts.

Example C106_accounts_ex : let t1 := fst (mine_deriv_program 9 Debug addrA 0 1597925000 fresh) in let t2 := fst (mine_search 9 Debug addrA txh 0 1597926000 t1) in
  let t3 := fst (send_program 40 Debug toy [] addrA 1597927000 1597928000 t2) in
  (exists c, programs Debug toy [] addrA 2 1 1 c 3 1597928000 t3) /\ t_get_gas addrA t3 = Ok (25000000000000000 - 88125000000000) /\
  t_get_amount addrA t3 = Ok (50000000000000000 + 2 * 62500 - 228) /\ t_get_amount ROOT_PUBLIC_ADDRESS t3 = Ok (COINS_PER_CYCLE - 50000000000000000 + 228).
Proof.
  assert (E0 : t_new disk_empty = Ok fresh) by (vm_compute; reflexivity). pose proof (prog_start Debug toy [] addrA fresh E0) as H0.
  assert (E1 : snd (mine_deriv_program 9 Debug addrA 0 1597925000 fresh) = Ok true) by (vm_compute; reflexivity).
  assert (E2 : snd (mine_search 9 Debug addrA txh 0 1597926000 (fst (mine_deriv_program 9 Debug addrA 0 1597925000 fresh))) = Ok true) by (vm_compute; reflexivity).
  assert (E3 : snd (send_program 40 Debug toy [] addrA 1597927000 1597928000 (fst (mine_search 9 Debug addrA txh 0 1597926000 (fst (mine_deriv_program 9 Debug addrA 0 1597925000 fresh))))) = Ok true) by (vm_compute; reflexivity).
  intros t1 t2 t3. split; [|split; [|split]; vm_compute; reflexivity]. fold t1 in E2, E3. fold t2 in E3.
  assert (H1 : programs Debug toy [] addrA 0 1 0 0 1 1597925000 t1).
  { eapply (prog_deriv Debug toy [] addrA 0 0 0 0 0 _ fresh 9 0 1597925000 t1 true H0); [vm_compute; discriminate|reflexivity|]. rewrite <- E1. apply surjective_pairing. }
  assert (H2 : programs Debug toy [] addrA 1 1 0 0 2 1597926000 t2).
  { eapply (prog_main Debug toy [] addrA 0 1 0 0 1 _ t1 9 txh 0 1597926000 t2 true H1); [discriminate|reflexivity|split; [reflexivity|repeat constructor; reflexivity]|]. rewrite <- E2. apply surjective_pairing. }
  eexists. eapply (prog_send Debug toy [] addrA 1 1 0 0 2 _ t2 40 1597927000 1597928000 t3 true H2); [discriminate|discriminate|reflexivity|]. rewrite <- E3. apply surjective_pairing.
Qed.

(** C106: whatever the three programs have done, the two miners do not panic, and once a block was made the directory can be opened again. *)
Theorem C106_miners_never_panic : forall p E key w k d s c r now t tries x nonce ts,
  programs p E key w k d s c r now t -> is_array 33 w -> w <> ROOT_PUBLIC_ADDRESS -> seckey_ok E key = true -> (forall h, is_array 64 (ecdsa_sign E h key)) -> N.of_nat r < 2 ^ 64 ->
  is_array 32 x -> now <= ts -> u64_ok ts ->
  (exists b, snd (mine_search tries p w x nonce ts t) = Ok b) /\ (exists b, snd (mine_deriv_program tries p w nonce ts t) = Ok b) /\
  ((k + d <> 0)%nat -> exists t', t_new (t_close t) = Ok t').
Proof. exact p_C106_miners_never_panic. Qed.
Print Assumptions C106_miners_never_panic.

Example C106_miners_ex : snd (mine_search 1 Debug addrA txh 0 1597926000 fresh) = Ok false /\ snd (mine_deriv_program 9 Debug addrA 0 1597925000 fresh) = Ok true.
Proof. split; vm_compute; reflexivity. Qed.

(** C106, the sender: it panics exactly when the wallet lacks the gas, or lacks 228 and the fee, and then leaves the tree as it was.  Otherwise the transaction is stored and can be read,
    and when the search succeeds the new last block holds exactly its hash (none when it closes an epoch). *)
Theorem C106_sender : forall p E key w k d s c r now t tries ts ts' f g last,
  programs p E key w k d s c r now t -> is_array 33 w -> w <> ROOT_PUBLIC_ADDRESS -> seckey_ok E key = true -> (forall h, is_array 64 (ecdsa_sign E h key)) -> N.of_nat (S r) < 2 ^ 64 ->
  now <= ts -> ts <= ts' -> u64_ok ts' -> amounts t f -> gases t g -> mc_get_last_block (t_main t) = Ok (Some last) ->
  if (g w <? GAS_228) || (f w <? fee_after last + 228) then send_program tries p E key w ts ts' t = (t, Panic)
  else exists t' found tx, send_program tries p E key w ts ts' t = (t', Ok found) /\ tx_new E w ROOT_PUBLIC_ADDRESS ts 228 key None = Ok tx /\
    mc_get_transaction (tx_hash tx) (t_main t') = Ok (Some tx) /\
    mc_get_height (t_main t') = mc_get_height (t_main t) + (if found then 1 else 0) /\
    if found then exists b, mc_get_last_block (t_main t') = Ok (Some b) /\
      match b with TxBlock _ _ _ l => l = [tx_hash tx] | SummBlock i _ => bi_height i mod 1000000 = 0 | DerivBlock _ => False end
    else mc_get_last_block (t_main t') = Ok (Some last).
Proof. exact p_C106_sender. Qed.
Print Assumptions C106_sender.

Example C106_sender_ex : let t1 := fst (mine_deriv_program 9 Debug addrA 0 1597925000 fresh) in let t2 := fst (mine_search 9 Debug addrA txh 0 1597926000 t1) in
  snd (send_program 40 Debug toy [] addrA 1597927000 1597928000 fresh) = Panic /\ snd (send_program 40 Debug toy [] addrA 1597927000 1597928000 t1) = Panic /\
  snd (send_program 40 Debug toy [] addrA 1597927000 1597928000 t2) = Ok true /\ snd (send_program 0 Debug toy [] addrA 1597927000 1597928000 t2) = Ok false.
Proof. repeat split; vm_compute; reflexivity. Qed.

