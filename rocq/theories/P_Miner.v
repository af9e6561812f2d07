(** Property C91: runs of the example miner.
    Only theorem statements (closed by [exact]), examples showing that their
    premises are met, and the assumptions of each theorem. *)
From Coq Require Import Lia ZifyBool ZifyNat ZifyN.
From Verif Require Import Base Sha256 Merkle Tools Transaction Block Sled Chain Tree Miner Spec Reach LedgerSpec LiveSpec CrashSpec MinerSpec Demo.
From Verif Require Import BaseFacts ToolsFacts MerkleFacts DiffFacts CodecFacts SledFacts ChainFacts TreeFacts DerivFacts CrashFacts LedgerFacts CodecProps MainProps LedgerProps LiveProps SupplyProps CrashProps.
From Verif Require Import MinerProps.

(** C91: the example miner never panics: whatever it has done so far, however often it was restarted, a round of its search either
    finds nothing and leaves the tree as it was, or adds one block; and after the first block it can be restarted at any time.  The
    clock does not go back. *)
Theorem C91_miner_never_panics : forall p w x k now t tries nonce ts,
  mining p w x k now t -> is_array 33 w -> is_array 32 x -> N.of_nat k < 2 ^ 64 -> now <= ts -> u64_ok ts ->
  (mine_search tries p w x nonce ts t = (t, Ok false) \/
   exists t', mine_search tries p w x nonce ts t = (t', Ok true) /\ mc_get_height (t_main t') = mc_get_height (t_main t) + 1) /\
  (k <> 0%nat -> exists t', t_new (t_close t) = Ok t').
Proof. exact p_C91_miner_never_panics. Qed.
Print Assumptions C91_miner_never_panics.

Example C91_ex : let t1 := fst (mine_search 9 Debug addrA txh 0 1597925000 fresh) in
  mining Debug addrA txh 1 1597925000 t1 /\ snd (mine_search 40 Debug addrA txh 0 1597926000 t1) = Ok true /\
  mine_search 1 Debug addrA txh 0 1597926000 fresh = (fresh, Ok false).
Proof.
  split; [|split; vm_compute; reflexivity].
  eapply (mining_found _ _ _ 0 1597924800 fresh 9 0 1597925000); [apply mining_start; vm_compute; reflexivity|discriminate|reflexivity|].
  assert (E : snd (mine_search 9 Debug addrA txh 0 1597925000 fresh) = Ok true) by (vm_compute; reflexivity).
  destruct (mine_search 9 Debug addrA txh 0 1597925000 fresh) as [t r]. cbn [snd] in E. rewrite E. reflexivity.
Qed.

(** C91, accounts: after [k] blocks the chain has [k + 1] linked blocks, the miner (not the root account) holds exactly the payments and
    fees for them, the root account has lost exactly the payments since it was last filled, and nobody else has anything. *)
Theorem C91_miner_accounts : forall p w x k now t,
  mining p w x k now t -> is_array 33 w -> is_array 32 x -> N.of_nat k < 2 ^ 64 -> w <> ROOT_PUBLIC_ADDRESS ->
  exists L f, length L = S k /\ mc_get_height (t_main t) = N.of_nat (S k) /\
    (forall i b, nth_error L i = Some b -> mc_find_by_height (N.of_nat i) (t_main t) = Ok (Some b)) /\ chained (main_link p) L /\
    amounts t f /\ f w = earned L /\ f ROOT_PUBLIC_ADDRESS + 25000000000000000 * payments (N.of_nat (S k)) = COINS_PER_CYCLE /\
    forall a, a <> w -> a <> ROOT_PUBLIC_ADDRESS -> f a = 0.
Proof. exact p_C91_miner_accounts. Qed.
Print Assumptions C91_miner_accounts.

Example C91_accounts_ex : let t1 := fst (mine_search 9 Debug addrA txh 0 1597925000 fresh) in
  t_get_amount addrA t1 = Ok (25000000000000000 + 62500) /\ t_get_amount ROOT_PUBLIC_ADDRESS t1 = Ok (COINS_PER_CYCLE - 25000000000000000) /\
  addrA <> ROOT_PUBLIC_ADDRESS /\ (forall a b, earned [a; TxBlock 0 [] (get_info b) []; SummBlock (get_info a) []] = 50000000000000000 + fee_after a) /\
  payments 1 = 0 /\ payments 1000000 = 999999 /\ payments 1000001 = 1 /\ payments 2000000 = 1000000 /\ payments 2000001 = 1.
Proof.
  split; [vm_compute; reflexivity|]. split; [vm_compute; reflexivity|]. split; [discriminate|].
  split; [|repeat split]. intros a b. cbn [earned]. lia.
Qed.

(** C91 is false of the code when the clock goes back: in a debug build the miner panics. *)
Theorem C91_clock_refuted : exists w x t ts, mining Debug w x 0 INCEPTION_TIMESTAMP t /\ is_array 33 w /\ is_array 32 x /\ u64_ok ts /\
  snd (mine_search 9 Debug w x 0 ts t) = Panic.
Proof. exact p_C91_clock_refuted. Qed.
Print Assumptions C91_clock_refuted.

(** C91: the search tries the nonces one by one: it makes a block exactly when one of the nonces it may try gives enough work, and the block carries the first of them. *)
Theorem C91_first_nonce : forall p w x k now t tries nonce ts,
  mining p w x k now t -> is_array 33 w -> is_array 32 x -> N.of_nat k < 2 ^ 64 -> now <= ts -> u64_ok ts ->
  exists prev root, mc_get_last_block (t_main t) = Ok (Some prev) /\ merkle_root_of (if mc_get_height (t_main t) mod 1000000 =? 0 then [] else [x]) root /\
  let enough j := work (block_hash prev) (bi_difficulty (get_info prev)) root (to_be 32 j) in
  let stop := N.min (nonce + N.of_nat tries) (2 ^ 256 - 1) in
  match mine_search tries p w x nonce ts t with
  | (_, Ok false) => forall j, nonce <= j < stop -> ~ enough j
  | (t', Ok true) => exists j b, nonce <= j < stop /\ enough j /\ (forall i, nonce <= i < j -> ~ enough i) /\
      mc_get_last_block (t_main t') = Ok (Some b) /\ bi_pow (get_info b) = to_be 32 j /\ bi_timestamp (get_info b) = ts
  | _ => False
  end.
Proof. exact p_C91_first_nonce. Qed.
Print Assumptions C91_first_nonce.

Example C91_first_ex : map (fun k => match mine_search k Debug addrA txh 0 1597925000 fresh with (t', Ok true) => match mc_get_last_block (t_main t') with Ok (Some b) => Some (nth 31 (bi_pow (get_info b)) 0) | _ => None end | _ => None end) [1; 2; 3; 9]%nat =
  [None; Some 1; Some 1; Some 1].
Proof. vm_compute. reflexivity. Qed.

(** C91, fees: the fee credited for a block need not be the fee the block carries. *)
Theorem C91_fee_refuted : exists w x t ts fee root i l amount, mining Debug w x 0 INCEPTION_TIMESTAMP t /\ INCEPTION_TIMESTAMP <= ts /\
  w <> ROOT_PUBLIC_ADDRESS /\ let t' := fst (mine_search 9 Debug w x 0 ts t) in
  snd (mine_search 9 Debug w x 0 ts t) = Ok true /\ mc_get_last_block (t_main t') = Ok (Some (TxBlock fee root i l)) /\
  t_get_amount w t' = Ok amount /\ amount < 25000000000000000 + fee.
Proof. exact p_C91_fee_refuted. Qed.
Print Assumptions C91_fee_refuted.

