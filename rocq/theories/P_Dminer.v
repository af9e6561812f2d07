(** Property C92: runs of the example miner of derivative chains.
    Only theorem statements (closed by [exact]), examples showing that their
    premises are met, and the assumptions of each theorem. *)
From Coq Require Import Lia ZifyBool ZifyNat ZifyN.
From Verif Require Import Base Sha256 Merkle Tools Transaction Block Sled Chain Tree Miner Spec Reach LedgerSpec LiveSpec CrashSpec MinerSpec Demo.
From Verif Require Import BaseFacts ToolsFacts MerkleFacts DiffFacts CodecFacts SledFacts ChainFacts TreeFacts DerivFacts CrashFacts LedgerFacts CodecProps MainProps LedgerProps LiveProps SupplyProps CrashProps MinerProps.
From Verif Require Import DminerProps.

(** C92: the example miner of a derivative chain never panics, and it can be restarted whenever it has made a block. *)
Theorem C92_deriv_miner_never_panics : forall p w k r now t tries nonce ts,
  mining_deriv p w k r now t -> is_array 33 w -> N.of_nat k < 2 ^ 64 -> N.of_nat r < 2 ^ 64 -> now <= ts -> u64_ok ts ->
  (mine_deriv_search tries p w nonce ts t = (t, Ok false) \/ exists t', mine_deriv_search tries p w nonce ts t = (t', Ok true)) /\
  (k <> 0%nat -> exists t' t'' c, t_new (t_close t) = Ok t' /\ t_get_derivative_chain w t' = (t'', Ok c)).
Proof. exact p_C92_deriv_miner_never_panics. Qed.
Print Assumptions C92_deriv_miner_never_panics.

Example C92_ex : let t0 := fst (t_get_derivative_chain addrA fresh) in let t1 := fst (mine_deriv_search 9 Debug addrA 0 1597925000 t0) in
  mining_deriv Debug addrA 1 0 1597925000 t1 /\ snd (mine_deriv_search 20 Debug addrA 0 1597926000 t1) = Ok true.
Proof.
  split; [|vm_compute; reflexivity].
  eapply (dmining_found _ _ 0 0 1597924800 (fst (t_get_derivative_chain addrA fresh)) 9 0 1597925000).
  - destruct (t_get_derivative_chain addrA fresh) as [t r] eqn:E. assert (X : match snd (t_get_derivative_chain addrA fresh) with Ok _ => true | _ => false end = true) by (vm_compute; reflexivity).
    rewrite E in X. destruct r as [c|e| |]; try discriminate X. cbn [fst]. apply (dmining_start Debug addrA fresh t c); [vm_compute; reflexivity|exact E].
  - discriminate.
  - reflexivity.
  - set (t0 := fst (t_get_derivative_chain addrA fresh)). assert (X : snd (mine_deriv_search 9 Debug addrA 0 1597925000 t0) = Ok true) by (vm_compute; reflexivity).
    destruct (mine_deriv_search 9 Debug addrA 0 1597925000 t0) as [t r]. cbn [snd] in X. rewrite X. reflexivity.
Qed.

(** C92, accounts: after [k] blocks the chain of the wallet has [k] linked blocks of the wallet, the wallet holds exactly [k] payments of gas, nobody else has gas,
    the main chain has only its first block and no coin has moved. *)
Theorem C92_deriv_miner_accounts : forall p w k r now t,
  mining_deriv p w k r now t -> is_array 33 w -> N.of_nat k < 2 ^ 64 -> N.of_nat r < 2 ^ 64 ->
  exists c B g f, snd (t_get_derivative_chain w t) = Ok c /\ length B = k /\ dc_get_height c = N.of_nat k /\
    (forall i x, nth_error B i = Some x -> dc_find_by_height (N.of_nat i) c = Ok (Some (DerivBlock x)) /\ bi_founder x = w) /\ chained (deriv_link p) B /\
    gases t g /\ g w = 25000000000000000 * N.of_nat k /\ (forall a, a <> w -> g a = 0) /\
    mc_get_height (t_main t) = 1 /\ amounts t f /\ f ROOT_PUBLIC_ADDRESS = COINS_PER_CYCLE /\ forall a, a <> ROOT_PUBLIC_ADDRESS -> f a = 0.
Proof. exact p_C92_deriv_miner_accounts. Qed.
Print Assumptions C92_deriv_miner_accounts.

Example C92_accounts_ex : let t0 := fst (t_get_derivative_chain addrA fresh) in let t1 := fst (mine_deriv_search 9 Debug addrA 0 1597925000 t0) in
  let t2 := fst (mine_deriv_search 20 Debug addrA 0 1597926000 t1) in
  t_get_gas addrA t2 = Ok 50000000000000000 /\ (let! c := snd (t_get_derivative_chain addrA t2) in Ok (dc_get_height c)) = Ok 2 /\ t_get_gas addrB t2 = Ok 0.
Proof. split; [|split]; vm_compute; reflexivity. Qed.

(** C92: the search tries the nonces one by one: it makes a block exactly when one of the nonces it may try gives enough work, and the block carries the first of them. *)
Theorem C92_first_nonce : forall p w k r now t tries nonce ts,
  mining_deriv p w k r now t -> is_array 33 w -> N.of_nat k < 2 ^ 64 -> N.of_nat r < 2 ^ 64 -> now <= ts -> u64_ok ts ->
  exists c h d prev_ts, snd (t_get_derivative_chain w t) = Ok c /\ deriv_predecessor t c h d prev_ts /\
  let enough j := work h d ff32 (to_be 32 j) in
  let stop := N.min (nonce + N.of_nat tries) (2 ^ 256 - 1) in
  match mine_deriv_search tries p w nonce ts t with
  | (_, Ok false) => forall j, nonce <= j < stop -> ~ enough j
  | (t', Ok true) => exists j c' i, nonce <= j < stop /\ enough j /\ (forall x, nonce <= x < j -> ~ enough x) /\
      snd (t_get_derivative_chain w t') = Ok c' /\ dc_get_last_block c' = Ok (Some (DerivBlock i)) /\ bi_pow i = to_be 32 j /\ bi_timestamp i = ts
  | _ => False
  end.
Proof. exact p_C92_first_nonce. Qed.
Print Assumptions C92_first_nonce.

Example C92_first_ex : let t0 := fst (t_get_derivative_chain addrA fresh) in let t1 := fst (mine_deriv_search 9 Debug addrA 0 1597925000 t0) in
  map (fun k => match mine_deriv_search k Debug addrA 0 1597926000 t1 with (t', Ok true) => match (let! c := snd (t_get_derivative_chain addrA t') in dc_get_last_block c) with Ok (Some b) => Some (nth 31 (bi_pow (get_info b)) 0) | _ => None end | _ => None end) [1; 5; 9; 20]%nat =
  [None; None; Some 7; Some 7].
Proof. vm_compute. reflexivity. Qed.

