(** Properties C29, C37, C39, C40: derivative chains.
    Only theorem statements (closed by [exact]), examples showing that their
    premises are met, and the assumptions of each theorem. *)
From Coq Require Import Lia ZifyBool ZifyNat ZifyN.
From Verif Require Import Base Sha256 Merkle Tools Transaction Block Sled Chain Tree Spec Reach LedgerSpec Demo.
From Verif Require Import BaseFacts ToolsFacts MerkleFacts DiffFacts CodecFacts SledFacts ChainFacts TreeFacts LedgerFacts DerivFacts ValidateProps MainProps LedgerProps.
From Verif Require Import DerivProps.

(** C40 *)
Theorem C40_directory_names : forall w w', bytes_ok w -> bytes_ok w' -> hex_encode w = hex_encode w' -> w = w'.
Proof. exact p_C40_directory_names. Qed.
Print Assumptions C40_directory_names.

(** C40, the names are plain: twice as long, and made of the characters 0-9 and a-f only
    (in particular no path separator). *)
Theorem C40_directory_characters : forall w, bytes_ok w -> length (hex_encode w) = (2 * length w)%nat /\
  Forall (fun x => 48 <= x <= 57 \/ 97 <= x <= 102) (hex_encode w).
Proof. exact p_C40_directory_characters. Qed.
Print Assumptions C40_directory_characters.

Example C40_ex : hex_encode [0; 17; 255] = [48; 48; 49; 49; 102; 102].
Proof. reflexivity. Qed.

(** C39, linking: a derivative chain that grew by emission only is a linked list of its owner's
    blocks, the first one having height 0 and following the main-chain block named by the genesis hash. *)
Theorem C39_chain_linked : forall p n t w c, reachable no_raw_deriv p n t -> few n -> assoc_get w (t_derivs t) = Some c ->
  (exists k m, k < mc_get_height (t_main t) /\ mc_find_raw_by_height k (t_main t) = Some (block_dump m) /\ block_hash m = dc_genesis c) /\
  exists B : list basic_info,
    dc_get_height c = N.of_nat (length B) /\
    (forall i x, nth_error B i = Some x -> dc_find_by_height (N.of_nat i) c = Ok (Some (DerivBlock x)) /\
       bi_height x = N.of_nat i /\ bi_founder x = w) /\
    chained (deriv_link p) B /\
    (forall x, nth_error B 0 = Some x -> exists k m, k < mc_get_height (t_main t) /\
       mc_find_raw_by_height k (t_main t) = Some (block_dump m) /\ block_hash m = dc_genesis c /\ deriv_start p m x).
Proof. exact p_C39_chain_linked. Qed.
Print Assumptions C39_chain_linked.

(** C39, creation: the first use of an owner's chain pins it to the last main-chain block. *)
Theorem C39_chain_created : forall ok p n t w b, reachable ok p n t -> few n -> is_array 33 w ->
  assoc_get w (t_derivs t) = None ->
  match assoc_get (hex_encode w) (t_closed t) with Some d => file_cur (dd_cfg d) = None | None => True end ->
  mc_get_last_block (t_main t) = Ok (Some b) ->
  exists c, t_get_derivative_chain w t = (with_derivs t (assoc_set w c (t_derivs t)), Ok c) /\
    dc_get_height c = 0 /\ dc_genesis c = block_hash b /\ dc_get_last_block c = Ok None.
Proof. exact p_C39_chain_created. Qed.
Print Assumptions C39_chain_created.

(** C39, isolation: nothing but the chain of the founder changes. *)
Theorem C39_isolation : forall p pow founder ts t w, let t' := fst (t_emmit_new_derivative_block p pow founder ts t) in
  w <> founder ->
  assoc_get w (t_derivs t') = assoc_get w (t_derivs t) /\ t_closed t' = t_closed t /\ t_main t' = t_main t /\
  t_summary t' = t_summary t /\ t_gas t' = t_gas t /\ t_old_summary t' = t_old_summary t /\ t_old_gas t' = t_old_gas t.
Proof. exact p_C39_isolation. Qed.
Print Assumptions C39_isolation.

(** C39: nothing is found above the height of the chain. *)
Theorem C39_nothing_above : forall c k, dc_get_height c < k -> dc_find_raw_by_height k c = None /\ dc_find_by_height k c = Ok None.
Proof. exact p_C39_nothing_above. Qed.
Print Assumptions C39_nothing_above.

Example C39_nothing_above_ex : let c := MkDeriv (sled_insert (height_key 2) [1] sled_empty) sled_empty 1 [] [] file_absent in
  dc_get_height c < 2 /\ sled_get (height_key 2) (dc_blocks c) = Some [1] /\ dc_find_raw_by_height 2 c = None.
Proof. split; [reflexivity|]. split; reflexivity. Qed.

(** C39, effect: a successful emission appends exactly the returned block to the founder's chain. *)
Theorem C39_emission_appends : forall ok p n t pow founder ts t' b, reachable ok p n t -> few n ->
  is_array 32 pow -> is_array 33 founder -> u64_ok ts ->
  t_emmit_new_derivative_block p pow founder ts t = (t', Ok b) ->
  exists i c c', b = DerivBlock i /\ snd (t_get_derivative_chain founder t) = Ok c /\ assoc_get founder (t_derivs t') = Some c' /\
    bi_height i = dc_get_height c /\ bi_founder i = founder /\ bi_pow i = pow /\ bi_timestamp i = ts /\
    dc_get_height c' = dc_get_height c + 1 /\ dc_genesis c' = dc_genesis c /\
    dc_get_last_block c' = Ok (Some (DerivBlock i)) /\ dc_find_by_hash (block_hash b) c' = Ok (Some b) /\
    (forall k, k < dc_get_height c -> dc_find_raw_by_height k c' = dc_find_raw_by_height k c).
Proof. exact p_C39_emission_appends. Qed.
Print Assumptions C39_emission_appends.

(* Two blocks are emitted for addrA, one for addrB; the chain linked as in the theorem has them. *)
Example C39_ex : let t := run Debug fresh [deriv_1; OEmitDeriv (repeat 2 32) addrB 1597925000; deriv_2] in
  reachable no_raw_deriv Debug 3 t /\
  match assoc_get addrA (t_derivs t), assoc_get addrB (t_derivs t) with
  | Some c, Some c' => dc_get_height c = 2 /\ dc_get_height c' = 1
  | _, _ => False
  end.
Proof.
  split; [|vm_compute; split; reflexivity].
  refine (reach_call _ _ 2 _ deriv_2 (reach_call _ _ 1 _ (OEmitDeriv (repeat 2 32) addrB 1597925000) (reach_call _ _ 0 _ deriv_1 (fresh_reachable _ _) _ I) _ I) _ I);
    (split; [|split]; [split; [reflexivity|repeat constructor]|split; [reflexivity|repeat constructor]|reflexivity]).
Qed.

(** C37 for derivative chains: a refused or panicking emission leaves the main chain, all balances and
    all other chains as they were; the founder's chain may have been opened but no block was added to it. *)
Theorem C37_refused_derivative_emission : forall ok p n t pow founder ts,
  reachable ok p n t -> few n -> is_array 32 pow -> is_array 33 founder -> u64_ok ts ->
  (forall b, snd (t_emmit_new_derivative_block p pow founder ts t) <> Ok b) ->
  let t' := fst (t_emmit_new_derivative_block p pow founder ts t) in
  t' = fst (t_get_derivative_chain founder t) /\
  (t' = t \/ assoc_get founder (t_derivs t) = None /\
     exists c, t_get_derivative_chain founder t = (t', Ok c) /\ t' = with_derivs t (assoc_set founder c (t_derivs t))).
Proof. exact p_C37_refused_derivative_emission. Qed.
Print Assumptions C37_refused_derivative_emission.

Example C37_deriv_ex : snd (t_emmit_new_derivative_block Debug (repeat 4 32) addrA 1597925000 fresh) = Err ETreeWrongPow /\
  snd (t_emmit_new_derivative_block Debug (repeat 1 32) addrA 5 fresh) = Panic.
Proof. vm_compute. auto. Qed.

(** C37 is false of the code in one respect: a refused emission still creates the founder's chain and
    pins it to the main block that was last at that moment, so a later emission follows a different
    main block than it would have without the refused one. *)
Theorem C37_refused_emission_pins_genesis_refuted : forall p, exists n t t1 pow' ts' b1 b2,
  reachable any_op p n t /\ t_emmit_new_derivative_block p (repeat 4 32) addrA 1597925000 t = (t1, Err ETreeWrongPow) /\
  snd (t_emmit_new_derivative_block p pow' addrA ts' (fst (step p t emit_good))) = Ok b1 /\
  snd (t_emmit_new_derivative_block p pow' addrA ts' (fst (step p t1 emit_good))) = Ok b2 /\
  bi_previous_hash (get_info b1) <> bi_previous_hash (get_info b2).
Proof. exact p_C37_refused_emission_pins_genesis_refuted. Qed.
Print Assumptions C37_refused_emission_pins_genesis_refuted.

(** C29 is false of the code: no block emitted on a derivative chain ever validates.  Against the
    preceding derivative block validation panics; a first block does not validate against the main
    block it follows either. *)
Theorem C29_emitted_derivative_never_validates_refuted : forall ok p n t pow founder ts t' b c,
  reachable ok p n t -> few n -> is_array 32 pow -> is_array 33 founder -> u64_ok ts ->
  snd (t_get_derivative_chain founder t) = Ok c ->
  t_emmit_new_derivative_block p pow founder ts t = (t', Ok b) ->
  (forall prev, dc_get_last_block c = Ok (Some prev) -> validate p b (Some prev) = Panic) /\
  (forall m, dc_get_last_block c = Ok None -> mc_find_by_hash (dc_genesis c) (t_main t) = Ok (Some m) ->
     validate p b (Some m) <> Ok true).
Proof. exact p_C29_emitted_derivative_never_validates_refuted. Qed.
Print Assumptions C29_emitted_derivative_never_validates_refuted.

Example C29_emitted_ex : exists b1 b2,
  snd (step Debug fresh deriv_1) = Ok (RBlock b1) /\ snd (step Debug (fst (step Debug fresh deriv_1)) deriv_2) = Ok (RBlock b2) /\
  validate Debug b1 (Some (last_of fresh)) = Panic /\ validate Debug b2 (Some b1) = Panic.
Proof. eexists. eexists. split; [vm_compute; reflexivity|]. split; [vm_compute; reflexivity|]. split; vm_compute; reflexivity. Qed.

