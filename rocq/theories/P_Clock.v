(** Property C117: difficulty and fees follow the clock alone.
    Only theorem statements (closed by [exact]), examples showing that their
    premises are met, and the assumptions of each theorem. *)
From Coq Require Import Lia ZifyBool ZifyNat ZifyN.
From Verif Require Import Base Sha256 Merkle Tools Transaction Block Sled Chain Tree Spec Reach LedgerSpec NodeSpec ClockSpec Demo.
From Verif Require Import BaseFacts DiffFacts ToolsFacts SledFacts ChainFacts TreeFacts DerivFacts NodeFacts MainProps DerivProps.
From Verif Require Import ClockProps.

(** C117.  The targets of the main chain are a function of its timestamps alone: whoever found the blocks, with whatever transactions and nonces.  So are the fees. *)
Theorem C117_clock : forall p n t, reachable no_raw_main p n t -> few n ->
  exists L : list block, mc_get_height (t_main t) = 1 + N.of_nat (length L) /\ (forall i b, nth_error L i = Some b -> block_at t (N.of_nat i + 1) b) /\
    map target L = targets p (2 ^ 255 - 1) 1597924800 (map stamp L) /\ forall b fee, In b L -> fee_of b = Some fee -> fee = 62500 * bits b.
Proof. exact p_C117_clock. Qed.
Print Assumptions C117_clock.

(* Three blocks: two quick ones, then a slow one. *)
Example C117_ex_clock : targets Debug (2 ^ 255 - 1) 1597924800 [1597924900; 1597925000; 1597926000] = [2 ^ 254 - 1; 2 ^ 253 - 1; 2 ^ 254 - 1] /\
  targets Debug (2 ^ 255 - 1) 1597924800 [1597924900; 1597924899; 1597926000] = [2 ^ 254 - 1] /\
  targets Release (2 ^ 255 - 1) 1597924800 [1597924900; 1597924899; 1597926000] = [2 ^ 254 - 1; 2 ^ 255 - 1; 2 ^ 255 - 1] /\
  let t := fst (step Release fresh emit_good) in reachable no_raw_main Release 1 t /\ few 1 /\ block_at t 1 (emitted Release fresh emit_good) /\
  [target (emitted Release fresh emit_good)] = targets Release (2 ^ 255 - 1) 1597924800 [stamp (emitted Release fresh emit_good)].
Proof.
  split; [vm_compute; reflexivity|]. split; [vm_compute; reflexivity|]. split; [vm_compute; reflexivity|]. cbv zeta.
  split; [|split; [reflexivity|split; vm_compute; reflexivity]].
  apply (reach_call no_raw_main Release 0 fresh emit_good); [constructor; vm_compute; reflexivity|vm_compute; repeat split; repeat constructor; vm_compute; reflexivity|exact I].
Qed.

(** C117, two nodes: if the blocks up to some height have the same timestamps on both, then the difficulties at that height are the same; so are the fees. The nodes may come from different builds. *)
Theorem C117_same_clock : forall p p' n n' t t' i, reachable no_raw_main p n t -> few n -> reachable no_raw_main p' n' t' -> few n' ->
  (forall j x x', j <= i -> block_at t j x -> block_at t' j x' -> stamp x = stamp x') ->
  forall b b', block_at t i b -> block_at t' i b' -> bi_difficulty (get_info b) = bi_difficulty (get_info b') /\
    forall fee fee', fee_of b = Some fee -> fee_of b' = Some fee' -> fee = fee'.
Proof. exact p_C117_same_clock. Qed.
Print Assumptions C117_same_clock.

(* Two one-block chains with different founders, nonces and transactions, stamped alike. *)
Example C117_ex_same_clock : let o' := OEmitMain (repeat 2 32) addrB [repeat 9 32; repeat 8 32] 1597924900 in let o := OEmitMain (repeat 3 32) addrA [txh] 1597924900 in
  let t := fst (step Debug fresh o) in let t' := fst (step Release fresh o') in
  reachable no_raw_main Debug 1 t /\ reachable no_raw_main Release 1 t' /\ few 1 /\
  let b := emitted Debug fresh o in let b' := emitted Release fresh o' in
  block_at t 1 b /\ block_at t' 1 b' /\ stamp b = stamp b' /\ b <> b' /\ target b = 2 ^ 254 - 1 /\ fee_of b = Some 125000 /\ fee_of b' = Some 125000.
Proof.
  cbv zeta. split; [apply (reach_call no_raw_main Debug 0 fresh); [constructor; vm_compute; reflexivity|vm_compute; repeat split; repeat constructor; vm_compute; reflexivity|exact I]|].
  split; [apply (reach_call no_raw_main Release 0 fresh); [constructor; vm_compute; reflexivity|vm_compute; repeat split; repeat constructor; vm_compute; reflexivity|exact I]|].
  split; [reflexivity|]. split; [vm_compute; reflexivity|]. split; [vm_compute; reflexivity|]. split; [vm_compute; reflexivity|]. split; [vm_compute; discriminate|]. vm_compute. repeat split.
Qed.

(** C117, one step: a block less than 600 seconds after its predecessor asks for more zero bits (unless all 256 are asked for already), one exactly 600 seconds after it for as many, a later one for at least one less,
   but never for none.  The first block asks for one bit, so the block at height i asks for at most i + 1, and its fee is at most 62500 (i + 1). *)
Theorem C117_bits : forall p n t, reachable no_raw_main p n t -> few n ->
  (forall i b b' s, block_at t i b -> block_at t (i + 1) b' -> seconds p (stamp b) (stamp b') = Some s ->
     (s < 600 -> bits b < bits b' \/ (bits b = 256 /\ bits b' = 256)) /\ (s = 600 -> bits b' = bits b) /\ (600 < s -> bits b' <= N.max 1 (bits b - 1))) /\
  (forall i b, block_at t i b -> 1 <= bits b <= 256 /\ bits b <= i + 1 /\ forall fee, fee_of b = Some fee -> 62500 <= fee <= 62500 * (i + 1)).
Proof. exact p_C117_bits. Qed.
Print Assumptions C117_bits.

(* One quick block. *)
Example C117_ex_bits : let o := OEmitMain (repeat 3 32) addrA [txh] 1597924900 in let t := fst (step Debug fresh o) in let b := emitted Debug fresh o in
  reachable no_raw_main Debug 1 t /\ few 1 /\ block_at t 0 (last_of fresh) /\ block_at t 1 b /\
  seconds Debug (stamp (last_of fresh)) (stamp b) = Some 100 /\ bits (last_of fresh) = 1 /\ bits b = 2.
Proof.
  cbv zeta. split; [apply (reach_call no_raw_main Debug 0 fresh); [constructor; vm_compute; reflexivity|vm_compute; repeat split; repeat constructor; vm_compute; reflexivity|exact I]|].
  split; [reflexivity|]. split; [vm_compute; reflexivity|]. split; [vm_compute; reflexivity|]. split; [vm_compute; reflexivity|]. vm_compute. repeat split.
Qed.

(** C117, slow chains: as long as every block is stamped at least 600 seconds after the one before, the difficulty stays what it was at the beginning, one zero bit. (Stamps are chosen by whoever makes the blocks.) *)
Theorem C117_slow : forall p n t i, reachable no_raw_main p n t -> few n ->
  (forall j x x', j < i -> block_at t j x -> block_at t (j + 1) x' -> stamp x + 600 <= stamp x') ->
  forall b, block_at t i b -> target b = 2 ^ 255 - 1 /\ bits b = 1 /\ forall fee, fee_of b = Some fee -> fee = 62500.
Proof. exact p_C117_slow. Qed.
Print Assumptions C117_slow.

(* One block stamped exactly 600 seconds after the first. *)
Example C117_ex_slow : let o := OEmitMain (repeat 3 32) addrA [txh] 1597925400 in let t := fst (step Debug fresh o) in let b := emitted Debug fresh o in
  reachable no_raw_main Debug 1 t /\ few 1 /\ block_at t 0 (last_of fresh) /\ block_at t 1 b /\ stamp (last_of fresh) + 600 <= stamp b /\ fee_of b = Some 62500.
Proof.
  cbv zeta. split; [apply (reach_call no_raw_main Debug 0 fresh); [constructor; vm_compute; reflexivity|vm_compute; repeat split; repeat constructor; vm_compute; reflexivity|exact I]|].
  split; [reflexivity|]. split; [vm_compute; reflexivity|]. split; [vm_compute; reflexivity|]. split; [vm_compute; discriminate|]. vm_compute. repeat split.
Qed.

(** C117, derivative chains: the targets of an owner's blocks are a function of their timestamps and of the time of the main block the chain is attached to. *)
Theorem C117_deriv : forall p n t w c, reachable no_raw_deriv p n t -> few n -> assoc_get w (t_derivs t) = Some c ->
  exists (k : N) (m : block) (B : list basic_info),
    mc_find_raw_by_height k (t_main t) = Some (block_dump m) /\ block_hash m = dc_genesis c /\
    dc_get_height c = N.of_nat (length B) /\ (forall i x, nth_error B i = Some x -> dc_find_by_height (N.of_nat i) c = Ok (Some (DerivBlock x))) /\
    map (fun x => target (DerivBlock x)) B = targets p (2 ^ 255 - 1) (stamp m) (map (fun x => stamp (DerivBlock x)) B).
Proof. exact p_C117_deriv. Qed.
Print Assumptions C117_deriv.

(* Two derivative blocks. *)
Example C117_ex_deriv : let t := run Debug fresh [deriv_1; deriv_2] in
  reachable no_raw_deriv Debug 2 t /\ few 2 /\ exists c x y, assoc_get addrA (t_derivs t) = Some c /\ dc_get_height c = 2 /\
  dc_find_by_height 0 c = Ok (Some (DerivBlock x)) /\ dc_find_by_height 1 c = Ok (Some (DerivBlock y)) /\ 
  [target (DerivBlock x); target (DerivBlock y)] = targets Debug (2 ^ 255 - 1) (stamp (last_of fresh)) [bi_timestamp x; bi_timestamp y].
Proof.
  cbv zeta. split.
  { cbn [run]. apply (reach_call no_raw_deriv Debug 1 _ deriv_2); [|vm_compute; repeat split; repeat constructor; vm_compute; reflexivity|exact I].
    apply (reach_call no_raw_deriv Debug 0 fresh deriv_1); [constructor; vm_compute; reflexivity|vm_compute; repeat split; repeat constructor; vm_compute; reflexivity|exact I]. }
  split; [reflexivity|]. eexists _, _, _. split; [vm_compute; reflexivity|]. split; [vm_compute; reflexivity|]. split; [vm_compute; reflexivity|]. split; [vm_compute; reflexivity|]. vm_compute. reflexivity.
Qed.

