(** Proofs of the statements in P_Deriv.v. *)
From Coq Require Import Lia ZifyBool ZifyNat ZifyN.
From Verif Require Import Base Sha256 Merkle Tools Transaction Block Sled Chain Tree Spec Reach LedgerSpec Demo.
From Verif Require Import BaseFacts ToolsFacts MerkleFacts DiffFacts CodecFacts SledFacts ChainFacts TreeFacts LedgerFacts DerivFacts ValidateProps MainProps LedgerProps.

(** ** C40: directory names *)

(*@T C40 *)
Lemma p_C40_directory_names : forall w w', bytes_ok w -> bytes_ok w' -> hex_encode w = hex_encode w' -> w = w'.
Proof. intros w w' H H' E. apply hex_encode_inj; assumption. Qed.
(*@T C40, the names are plain: twice as long, and made of the characters 0-9 and a-f only
    (in particular no path separator). *)
Lemma p_C40_directory_characters : forall w, bytes_ok w -> length (hex_encode w) = (2 * length w)%nat /\
  Forall (fun x => 48 <= x <= 57 \/ 97 <= x <= 102) (hex_encode w).
Proof.
  induction w as [|x w IH]; intros H; [split; [reflexivity|constructor]|].
  apply Forall_cons_iff in H as [Hx H]. destruct (IH H) as [E F]. unfold byte_ok in Hx.
  assert (D : forall n, n < 16 -> 48 <= hex_digit n <= 57 \/ 97 <= hex_digit n <= 102) by (intros n Hn; unfold hex_digit; destruct (N.ltb_spec n 10); lia).
  unfold hex_encode in *. cbn [map concat app length]. split; [rewrite E; lia|]. constructor; [|constructor; [|exact F]]; apply D.
  - apply N.div_lt_upper_bound; lia.
  - apply N.mod_lt. lia.
Qed.
(*@E
Example C40_ex : hex_encode [0; 17; 255] = [48; 48; 49; 49; 102; 102].
Proof. reflexivity. Qed.
@*)

(** ** C39: derivative chains *)
Lemma strict_false ok : forall o : op, ok o -> strict_ok false o.
Proof. intros o _ E. discriminate E. Qed.
Lemma strict_true : forall o : op, no_raw_deriv o -> strict_ok true o.
Proof. intros o H _. exact H. Qed.

Lemma nth_nthN {A} (l : list A) i : nth_error l i = nthN l (N.of_nat i).
Proof. unfold nthN. rewrite Nnat.Nat2N.id. reflexivity. Qed.

Lemma main_in_find t L m : tree_inv t L -> N.of_nat (length L) < 2 ^ 256 -> In m L ->
  exists k, k < mc_get_height (t_main t) /\ mc_find_raw_by_height k (t_main t) = Some (block_dump m).
Proof.
  intros HL Hlen H. apply In_nth_error in H as (k & H). rewrite nth_nthN in H. exists (N.of_nat k).
  pose proof (nthN_some _ _ _ H). unfold mc_get_height. rewrite (mi_height _ _ (ti_main _ _ HL)). split; [assumption|].
  rewrite (main_find_raw _ L) by (try assumption; apply HL). rewrite H. reflexivity.
Qed.

(*@T C39, linking: a derivative chain that grew by emission only is a linked list of its owner's
    blocks, the first one having height 0 and following the main-chain block named by the genesis hash. *)
Lemma p_C39_chain_linked : forall p n t w c, reachable no_raw_deriv p n t -> few n -> assoc_get w (t_derivs t) = Some c ->
  (exists k m, k < mc_get_height (t_main t) /\ mc_find_raw_by_height k (t_main t) = Some (block_dump m) /\ block_hash m = dc_genesis c) /\
  exists B : list basic_info,
    dc_get_height c = N.of_nat (length B) /\
    (forall i x, nth_error B i = Some x -> dc_find_by_height (N.of_nat i) c = Ok (Some (DerivBlock x)) /\
       bi_height x = N.of_nat i /\ bi_founder x = w) /\
    chained (deriv_link p) B /\
    (forall x, nth_error B 0 = Some x -> exists k m, k < mc_get_height (t_main t) /\
       mc_find_raw_by_height k (t_main t) = Some (block_dump m) /\ block_hash m = dc_genesis c /\ deriv_start p m x).
Proof.
  intros p n t w c Hr Hn E. destruct (reachable_derivs true _ _ _ _ Hr strict_true Hn) as (L & HL & Hlen & HD). unfold few in Hn.
  destruct (derivs_inv_get _ _ _ _ _ _ _ HD E) as (Hw & B & HB & Hl).
  assert (HlL : N.of_nat (length L) < 2 ^ 256) by lia. split.
  - destruct (di_genesis _ _ _ _ _ _ HB) as (_ & m & Hm & Hmh). destruct (main_in_find t L m HL HlL Hm) as (k & Hk & Hkf). eauto 6.
  - exists B. split; [apply (di_height _ _ _ _ _ _ HB)|]. pose proof (di_chain _ _ _ _ _ _ HB) as [C1 C2 C3 C4].
    destruct (C4 eq_refl) as (F1 & F2 & F3). split; [|split; [exact F2|]].
    + intros i x Hx. rewrite nth_nthN in Hx. rewrite Forall_forall in F1, C3. pose proof (nthN_in _ _ _ Hx) as Hin.
      split; [|split; [apply C2, Hx|apply F1, Hin]]. unfold dc_find_by_height.
      rewrite (deriv_find_raw _ _ _ _ _ _ _ _ HB Hx). apply dc_decode_dump, C3, Hin.
    + intros x Hx. destruct (F3 x Hx) as (m & Hm & Hmh & Hs). destruct (main_in_find t L m HL HlL Hm) as (k & Hk & Hkf). eauto 8.
Qed.
(*@T C39, creation: the first use of an owner's chain pins it to the last main-chain block. *)
Lemma p_C39_chain_created : forall ok p n t w b, reachable ok p n t -> few n -> is_array 33 w ->
  assoc_get w (t_derivs t) = None ->
  match assoc_get (hex_encode w) (t_closed t) with Some d => file_cur (dd_cfg d) = None | None => True end ->
  mc_get_last_block (t_main t) = Ok (Some b) ->
  exists c, t_get_derivative_chain w t = (with_derivs t (assoc_set w c (t_derivs t)), Ok c) /\
    dc_get_height c = 0 /\ dc_genesis c = block_hash b /\ dc_get_last_block c = Ok None.
Proof.
  intros ok p n t w b Hr Hn Hw E1 E2 E3. unfold t_get_derivative_chain. rewrite E1, E3. cbn [bind unwrap_opt].
  set (d := match assoc_get (hex_encode w) (t_closed t) with Some d => d | None => deriv_disk_empty end).
  assert (Hd : file_cur (dd_cfg d) = None) by (unfold d; destruct (assoc_get (hex_encode w) (t_closed t)); [exact E2|reflexivity]).
  rewrite dc_new_absent by exact Hd. eexists. split; [reflexivity|]. repeat split.
Qed.
(*@T C39, isolation: nothing but the chain of the founder changes. *)
Lemma p_C39_isolation : forall p pow founder ts t w, let t' := fst (t_emmit_new_derivative_block p pow founder ts t) in
  w <> founder ->
  assoc_get w (t_derivs t') = assoc_get w (t_derivs t) /\ t_closed t' = t_closed t /\ t_main t' = t_main t /\
  t_summary t' = t_summary t /\ t_gas t' = t_gas t /\ t_old_summary t' = t_old_summary t /\ t_old_gas t' = t_old_gas t.
Proof.
  intros p pow founder ts t w t' Hne.
  assert (H1 : assoc_get w (t_derivs t') = assoc_get w (t_derivs t) /\ t_closed t' = t_closed t).
  { unfold t'. unfold t_emmit_new_derivative_block.
    assert (G : assoc_get w (t_derivs (fst (t_get_derivative_chain founder t))) = assoc_get w (t_derivs t) /\ t_closed (fst (t_get_derivative_chain founder t)) = t_closed t).
    { unfold t_get_derivative_chain. destruct (assoc_get founder (t_derivs t)); [split; reflexivity|].
      destruct (let! last := _ in _) as [c|e| |]; cbn [fst]; try (split; reflexivity).
      cbn [with_derivs t_derivs t_closed]. rewrite assoc_get_set, (proj2 (bytes_eqb_neq _ _) Hne). split; reflexivity. }
    destruct (t_get_derivative_chain founder t) as [t1 rc]. cbn [fst] in G.
    destruct rc as [dc|e| |]; try exact G.
    match goal with |- context [match ?x with Ok _ => _ | Err _ => _ | Panic => _ | UB => _ end] => destruct x as [info|e| |] end; try exact G.
    destruct (dc_add_block info dc) as [dc' ra]. cbn [fst with_derivs t_derivs t_closed].
    rewrite assoc_get_set, (proj2 (bytes_eqb_neq _ _) Hne). exact G. }
  split; [apply H1|]. split; [apply H1|]. split; [apply emit_deriv_main|]. apply emit_deriv_ledgers.
Qed.
(*@T C39: nothing is found above the height of the chain. *)
Lemma p_C39_nothing_above : forall c k, dc_get_height c < k -> dc_find_raw_by_height k c = None /\ dc_find_by_height k c = Ok None.
Proof.
  intros c k H. assert (E : dc_find_raw_by_height k c = None) by (unfold dc_find_raw_by_height, dc_get_height in *; destruct (N.ltb_spec (dc_height c) k); [reflexivity|lia]).
  split; [exact E|]. unfold dc_find_by_height. rewrite E. reflexivity.
Qed.
(*@E
Example C39_nothing_above_ex : let c := MkDeriv (sled_insert (height_key 2) [1] sled_empty) sled_empty 1 [] [] file_absent in
  dc_get_height c < 2 /\ sled_get (height_key 2) (dc_blocks c) = Some [1] /\ dc_find_raw_by_height 2 c = None.
Proof. split; [reflexivity|]. split; reflexivity. Qed.
@*)
(*@T C39, effect: a successful emission appends exactly the returned block to the founder's chain. *)
Lemma p_C39_emission_appends : forall ok p n t pow founder ts t' b, reachable ok p n t -> few n ->
  is_array 32 pow -> is_array 33 founder -> u64_ok ts ->
  t_emmit_new_derivative_block p pow founder ts t = (t', Ok b) ->
  exists i c c', b = DerivBlock i /\ snd (t_get_derivative_chain founder t) = Ok c /\ assoc_get founder (t_derivs t') = Some c' /\
    bi_height i = dc_get_height c /\ bi_founder i = founder /\ bi_pow i = pow /\ bi_timestamp i = ts /\
    dc_get_height c' = dc_get_height c + 1 /\ dc_genesis c' = dc_genesis c /\
    dc_get_last_block c' = Ok (Some (DerivBlock i)) /\ dc_find_by_hash (block_hash b) c' = Ok (Some b) /\
    (forall k, k < dc_get_height c -> dc_find_raw_by_height k c' = dc_find_raw_by_height k c).
Proof.
  intros ok p n t pow founder ts t' b Hr Hn Hpow Hf Hts E.
  destruct (reachable_derivs false _ _ _ _ Hr (strict_false ok) Hn) as (L & HL & Hlen & HD). unfold few in Hn.
  pose proof (emit_deriv_spec p false L n t pow founder ts _ t' (Ok b) HL ltac:(lia) HD ltac:(lia) Hpow Hf Hts eq_refl E) as (i & c & B & -> & Hg & Hc & HB & Hl & Hmf & Hi & Hh & Hit & Hip & ->).
  exists i, c, (dc_appended i c). pose proof (di_height _ _ _ _ _ _ HB) as Hd. rewrite Hg. cbn [snd].
  set (t1 := fst (t_get_derivative_chain founder t)) in *.
  assert (HB' : deriv_inv p false L founder (dc_appended i c) (B ++ [i])).
  { apply deriv_append; [exact HB|exact Hi|exact Hh|lia|discriminate]. }
  split; [reflexivity|]. split; [reflexivity|].
  split; [cbn [with_derivs t_derivs]; rewrite assoc_get_set, bytes_eqb_refl; reflexivity|].
  split; [exact Hh|]. split; [apply Hmf|]. split; [exact Hip|]. split; [exact Hit|]. split; [reflexivity|]. split; [reflexivity|].
  split; [|split].
  - rewrite (deriv_last _ _ _ _ _ _ HB'). destruct B as [|x B]; [reflexivity|]. cbn [app]. change (x :: B ++ [i]) with ((x :: B) ++ [i]). rewrite last_last. reflexivity.
  - unfold dc_find_by_hash, dc_find_raw_by_hash. cbn [dc_appended dc_refs]. rewrite sled_get_insert, bytes_eqb_refl.
    rewrite height_key_length. cbn [Nat.ltb Nat.leb]. rewrite from_height_key by lia. cbn [bind].
    assert (Hni : nthN (B ++ [i]) (dc_height c) = Some i) by (rewrite Hd; apply nthN_snoc).
    fold (dc_appended i c). rewrite (deriv_find_raw _ _ _ _ _ _ _ _ HB' Hni). apply dc_decode_dump, Hi.
  - intros k Hk. unfold dc_get_height in Hk. unfold dc_find_raw_by_height. cbn [dc_appended dc_height dc_blocks].
    destruct (N.ltb_spec (dc_height c + 1) k), (N.ltb_spec (dc_height c) k); try lia.
    rewrite sled_get_insert, height_key_eqb by lia. destruct (N.eqb_spec k (dc_height c)); [lia|reflexivity].
Qed.
(*@E
(* Two blocks are emitted for addrA, one for addrB; the chain linked as in the theorem has them. *)
Example C39_ex : let t := run Debug fresh [deriv_1; OEmitDeriv (repeat 2 32) addrB 1597925000; deriv_2] in
  reachable no_raw_deriv Debug 3 t /\
  match assoc_get addrA (t_derivs t), assoc_get addrB (t_derivs t) with
  | Some c, Some c' => dc_get_height c = 2 /\ dc_get_height c' = 1
  | _, _ => False
  end.
Proof.
  split; [|vm_compute; split; reflexivity].
  refine (reach_call _ _ 2 _ deriv_2 (reach_call _ _ 1 _ (OEmitDeriv (repeat 2 32) addrB 1597925000) (reach_call _ _ 0 _ deriv_1 (fresh_reachable _ _) _ I) _ I) _ I);
    (split; [|split]; [split; [reflexivity|repeat constructor]|split; [reflexivity|repeat constructor]|reflexivity]).
Qed.
@*)

(** ** C37 for derivative chains *)

(*@T C37 for derivative chains: a refused or panicking emission leaves the main chain, all balances and
    all other chains as they were; the founder's chain may have been opened but no block was added to it. *)
Lemma p_C37_refused_derivative_emission : forall ok p n t pow founder ts,
  reachable ok p n t -> few n -> is_array 32 pow -> is_array 33 founder -> u64_ok ts ->
  (forall b, snd (t_emmit_new_derivative_block p pow founder ts t) <> Ok b) ->
  let t' := fst (t_emmit_new_derivative_block p pow founder ts t) in
  t' = fst (t_get_derivative_chain founder t) /\
  (t' = t \/ assoc_get founder (t_derivs t) = None /\
     exists c, t_get_derivative_chain founder t = (t', Ok c) /\ t' = with_derivs t (assoc_set founder c (t_derivs t))).
Proof.
  intros ok p n t pow founder ts Hr Hn Hpow Hf Hts Hno. cbv zeta.
  destruct (reachable_derivs false _ _ _ _ Hr (strict_false ok) Hn) as (L & HL & Hlen & HD). unfold few in Hn.
  destruct (t_emmit_new_derivative_block p pow founder ts t) as [t' r] eqn:E. cbn [fst snd] in *.
  pose proof (emit_deriv_spec p false L n t pow founder ts _ t' r HL ltac:(lia) HD ltac:(lia) Hpow Hf Hts eq_refl E) as S.
  assert (S' : t' = fst (t_get_derivative_chain founder t)) by (destruct r as [b|e| |]; [contradiction (Hno b); reflexivity|exact S..]).
  split; [exact S'|].
  destruct (get_deriv_spec p false L n t founder HL ltac:(lia) HD ltac:(lia) Hf) as [(c & E1 & G)|[(E1 & _ & G)|(E1 & _ & c & Hc & G)]];
    rewrite G in S'; cbn [fst] in S'; subst t'.
  - left. reflexivity.
  - left. reflexivity.
  - right. split; [exact E1|]. exists c. split; [exact G|reflexivity].
Qed.
(*@E
Example C37_deriv_ex : snd (t_emmit_new_derivative_block Debug (repeat 4 32) addrA 1597925000 fresh) = Err ETreeWrongPow /\
  snd (t_emmit_new_derivative_block Debug (repeat 1 32) addrA 5 fresh) = Panic.
Proof. vm_compute. auto. Qed.
@*)
(*@T C37 is false of the code in one respect: a refused emission still creates the founder's chain and
    pins it to the main block that was last at that moment, so a later emission follows a different
    main block than it would have without the refused one. *)
Lemma p_C37_refused_emission_pins_genesis_refuted : forall p, exists n t t1 pow' ts' b1 b2,
  reachable any_op p n t /\ t_emmit_new_derivative_block p (repeat 4 32) addrA 1597925000 t = (t1, Err ETreeWrongPow) /\
  snd (t_emmit_new_derivative_block p pow' addrA ts' (fst (step p t emit_good))) = Ok b1 /\
  snd (t_emmit_new_derivative_block p pow' addrA ts' (fst (step p t1 emit_good))) = Ok b2 /\
  bi_previous_hash (get_info b1) <> bi_previous_hash (get_info b2).
Proof.
  intros p. exists 0%nat, fresh. eexists. exists (repeat 9 32), 1597926000. eexists. eexists.
  split; [apply fresh_reachable|]. split; [destruct p; vm_compute; reflexivity|].
  split; [destruct p; vm_compute; reflexivity|]. split; [destruct p; vm_compute; reflexivity|].
  destruct p; vm_compute; discriminate.
Qed.

(** ** C29 *)

(*@T C29 is false of the code: no block emitted on a derivative chain ever validates.  Against the
    preceding derivative block validation panics; a first block does not validate against the main
    block it follows either. *)
Lemma p_C29_emitted_derivative_never_validates_refuted : forall ok p n t pow founder ts t' b c,
  reachable ok p n t -> few n -> is_array 32 pow -> is_array 33 founder -> u64_ok ts ->
  snd (t_get_derivative_chain founder t) = Ok c ->
  t_emmit_new_derivative_block p pow founder ts t = (t', Ok b) ->
  (forall prev, dc_get_last_block c = Ok (Some prev) -> validate p b (Some prev) = Panic) /\
  (forall m, dc_get_last_block c = Ok None -> mc_find_by_hash (dc_genesis c) (t_main t) = Ok (Some m) ->
     validate p b (Some m) <> Ok true).
Proof.
  intros ok p n t pow founder ts t' b c Hr Hn Hpow Hf Hts Hc0 E.
  destruct (reachable_derivs false _ _ _ _ Hr (strict_false ok) Hn) as (L & HL & Hlen & HD). unfold few in Hn.
  pose proof (emit_deriv_spec p false L n t pow founder ts _ t' (Ok b) HL ltac:(lia) HD ltac:(lia) Hpow Hf Hts eq_refl E) as (i & c1 & B & -> & Hg & Hc & HB & Hl & [_ Hmf] & Hi & Hh & Hit & Hip & ->).
  rewrite Hg in Hc0. cbn [snd] in Hc0. injection Hc0 as <-.
  rewrite (deriv_last _ _ _ _ _ _ HB). split.
  - intros prev Hp. destruct B as [|x B]; [discriminate|]. assert (prev = DerivBlock (last (x :: B) x)) as -> by congruence. rewrite p_C29_derivative_validate.
    destruct Hmf as (M1 & _ & M3 & _). rewrite M1. unfold block_hash at 1. rewrite bytes_eqb_refl.
    cbn [get_info]. rewrite M3. cbn [bind]. rewrite bytes_eqb_refl. reflexivity.
  - intros m Hp _. rewrite p_C29_derivative_validate. destruct (bytes_eqb _ _); [|discriminate].
    destruct (recalculate_difficulty p _ _ _) as [d|e| |] eqn:Ed; cbn [bind]; try discriminate.
    destruct (bytes_eqb _ _); discriminate.
Qed.
(*@E
Example C29_emitted_ex : exists b1 b2,
  snd (step Debug fresh deriv_1) = Ok (RBlock b1) /\ snd (step Debug (fst (step Debug fresh deriv_1)) deriv_2) = Ok (RBlock b2) /\
  validate Debug b1 (Some (last_of fresh)) = Panic /\ validate Debug b2 (Some b1) = Panic.
Proof. eexists. eexists. split; [vm_compute; reflexivity|]. split; [vm_compute; reflexivity|]. split; vm_compute; reflexivity. Qed.
@*)
