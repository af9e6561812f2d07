(** Property C126: directories with any contents
    Only theorem statements (closed by [exact]), examples showing that their
    premises are met, and the assumptions of each theorem. *)
From Coq Require Import Lia ZifyBool ZifyNat ZifyN.
From Verif Require Import Base Sha256 Merkle Tools Transaction Block Sled Chain Tree Spec Reach LedgerSpec NodeSpec AnyDirSpec DamageSpec Demo.
From Verif Require Import BaseFacts ToolsFacts MerkleFacts CodecFacts SledFacts ChainFacts DiffFacts TreeFacts LedgerFacts DerivFacts NodeFacts DamageProps.
From Verif Require LiveProps.
From Verif Require Import AnyDirProps.

(** C126: a directory with any contents is opened, at the height its config file says, or refused because its config file is too short; and what the opened node then holds is what the
    directory holds, but for the first block when the height is 0 and the coins of the root account when it is at most 1. *)
Theorem C126_opening : forall d,
  match file_cur (md_cfg (k_main d)) with
  | None => exists t, t_new d = Ok t /\ opened_at 0 d t
  | Some c =>
      if Nat.ltb (length c) 64 then t_new d = Err EChainInit
      else exists t, t_new d = Ok t /\ opened_at (be_val (firstn 32 c)) d t
  end.
Proof. exact p_C126_opening. Qed.
Print Assumptions C126_opening.

Example C126_ex_opening :
  let with_config c := MkDisk (MkMainDisk (sled_insert (to_be 32 6) [9; 9] sled_empty) sled_empty sled_empty (MkFile (Some c) [])) sled_empty sled_empty sled_empty sled_empty [] in
  t_new (with_config (repeat 0 63)) = Err EChainInit /\
  (exists t, t_new (with_config (to_be 32 7 ++ repeat 0 32)) = Ok t /\ mc_height (t_main t) = 7 /\ mc_get_last_block (t_main t) = Err EChainFindByHeight /\
     t_get_amount ROOT_PUBLIC_ADDRESS t = Ok 0) /\
  (exists t, t_new (with_config (to_be 32 0 ++ repeat 0 99)) = Ok t /\ mc_height (t_main t) = 1 /\ mc_get_last_block (t_main t) = Ok (Some first_block)).
Proof.
  cbv zeta. split; [vm_compute; reflexivity|]. split.
  - eexists. split; [vm_compute; reflexivity|]. split; [vm_compute; reflexivity|]. split; vm_compute; reflexivity.
  - eexists. split; [vm_compute; reflexivity|]. split; vm_compute; reflexivity.
Qed.

(** C126: the same for the directory of a side chain, for a node whose last block can be read. *)
Theorem C126_side_opening : forall w t b, assoc_get w (t_derivs t) = None -> mc_get_last_block (t_main t) = Ok (Some b) ->
  let k := match assoc_get (hex_encode w) (t_closed t) with Some k => k | None => deriv_disk_empty end in
  let r := t_get_derivative_chain w t in
  match file_cur (dd_cfg k) with
  | None => exists c, snd r = Ok c /\ side_opened 0 (block_hash b) k c /\ assoc_get w (t_derivs (fst r)) = Some c
  | Some c =>
      if Nat.ltb (length c) 96 then r = (t, Err EChainInit)
      else exists x, snd r = Ok x /\ side_opened (be_val (firstn 32 c)) (firstn 32 (skipn 64 c)) k x /\ assoc_get w (t_derivs (fst r)) = Some x
  end.
Proof. exact p_C126_side_opening. Qed.
Print Assumptions C126_side_opening.

Example C126_ex_side_opening :
  let side c := (hex_encode addrA, MkDerivDisk sled_empty sled_empty (MkFile (Some c) [])) in
  let node c := MkTree0 (t_main fresh) [] (t_summary fresh) sled_empty sled_empty sled_empty [side c] in
  assoc_get addrA (t_derivs (node [])) = None /\ mc_get_last_block (t_main (node [])) = Ok (Some first_block) /\
  snd (t_get_derivative_chain addrA (node (repeat 0 95))) = Err EChainInit /\
  exists c, snd (t_get_derivative_chain addrA (node (to_be 32 5 ++ repeat 1 32 ++ repeat 2 40))) = Ok c /\ dc_height c = 5 /\ dc_genesis c = repeat 2 32.
Proof.
  cbv zeta. split; [vm_compute; reflexivity|]. split; [vm_compute; reflexivity|]. split; [vm_compute; reflexivity|].
  eexists. split; [vm_compute; reflexivity|]. split; vm_compute; reflexivity.
Qed.

(** C126: whatever the databases hold, no lookup leads to undefined behaviour, and what a lookup returns is well formed. *)
Theorem C126_lookups : forall t, any_tree t ->
  (let m := t_main t in
   let is_main b := block_wf b /\ match b with DerivBlock _ => False | _ => True end in
   (forall h, safe_lookup is_main (mc_find_by_height h m)) /\ (forall h, safe_lookup is_main (mc_find_by_hash h m)) /\
   safe_lookup is_main (mc_get_last_block m) /\ (forall h, safe_lookup tx_wf (mc_get_transaction h m))) /\
  (forall w c, In (w, c) (t_derivs t) ->
   let is_side b := exists i, b = DerivBlock i /\ info_wf i in
   (forall h, safe_lookup is_side (dc_find_by_height h c)) /\ (forall h, safe_lookup is_side (dc_find_by_hash h c)) /\ safe_lookup is_side (dc_get_last_block c)).
Proof. exact p_C126_lookups. Qed.
Print Assumptions C126_lookups.

Example C126_ex_lookups :
  let m v := MkMain (sled_insert (to_be 32 6) v sled_empty) (sled_insert [1] (to_be 32 6) sled_empty) (sled_insert [7] v sled_empty) 7 (repeat 0 32) file_absent in
  mc_find_by_height 6 (m [9; 9]) = Err EChainFindByHeight /\ mc_find_by_hash [1] (m (2 :: repeat 0 50)) = Err EChainFindByHeight /\
  mc_get_last_block (m [2]) = Panic /\ mc_get_last_block (m (block_dump first_block)) = Ok (Some first_block) /\
  mc_get_transaction [7] (m [0]) = Err EChainFindByHash /\ mc_get_transaction [7] (m (0 :: repeat 0 138 ++ [3])) = Err EChainFindByHash.
Proof. cbv zeta. repeat apply conj; vm_compute; reflexivity. Qed.

(** C126: the calls that lead to undefined behaviour, whatever the databases hold: exactly the emissions, in a release build, after a block whose difficulty starts with the byte 255, with
    enough work and more than 600 seconds later (or seemingly so). *)
Theorem C126_undefined_exactly : forall p t o, any_tree t -> (snd (step p t o) = UB <-> p = Release /\ leaves_array t o).
Proof. exact p_C126_undefined_exactly. Qed.
Print Assumptions C126_undefined_exactly.

Example C126_ex_undefined :
  let b := SummBlock (MkInfo 1000 (repeat 0 32) (repeat 0 32) 1 (255 :: repeat 0 31) addrA) (repeat 0 32) in
  let t := MkTree0 (MkMain (sled_insert (to_be 32 1) (block_dump b) sled_empty) sled_empty sled_empty 2 (repeat 0 32) file_absent) [] sled_empty sled_empty sled_empty sled_empty [] in
  snd (step Release t (OEmitMain (repeat 0 32) addrA [] 1601)) = UB /\
  snd (step Release t (OEmitMain (repeat 0 32) addrA [] 999)) = UB /\
  snd (step Debug t (OEmitMain (repeat 0 32) addrA [] 1601)) = Panic /\
  snd (step Release t (OEmitMain (repeat 0 32) addrA [] 1600)) = Err ETreeCreateMainChainBlock /\
  leaves_array t (OEmitMain (repeat 0 32) addrA [] 1601).
Proof.
  cbv zeta. split; [vm_compute; reflexivity|]. split; [vm_compute; reflexivity|]. split; [vm_compute; reflexivity|]. split; [vm_compute; reflexivity|].
  eexists. split; [vm_compute; reflexivity|]. split; [vm_compute; reflexivity|]. exists 601. repeat split; reflexivity.
Qed.

(** C126: a node opened on a directory with any contents never runs into undefined behaviour in a debug build, whatever is called afterwards; in a release build it does at exactly the
    calls named above. *)
Theorem C126_histories : forall p d t ops o, any_disk d -> t_new d = Ok t -> Forall op_wf ops ->
  (snd (step p (run p t ops) o) = UB <-> p = Release /\ leaves_array (run p t ops) o).
Proof. exact p_C126_histories. Qed.
Print Assumptions C126_histories.

Example C126_ex_histories :
  let b := SummBlock (MkInfo 1000 (repeat 0 32) (repeat 0 32) 1 (255 :: repeat 0 31) addrA) (repeat 0 32) in
  let d := MkDisk (MkMainDisk (sled_insert (to_be 32 1) (block_dump b) sled_empty) sled_empty sled_empty (MkFile (Some (to_be 32 2 ++ repeat 0 32)) [])) sled_empty sled_empty sled_empty sled_empty [] in
  exists t, t_new d = Ok t /\ Forall op_wf [OAddGas addrA 3; OFlush] /\
  snd (step Release (run Release t [OAddGas addrA 3; OFlush]) (OEmitMain (repeat 0 32) addrA [] 1601)) = UB /\
  snd (step Debug (run Debug t [OAddGas addrA 3; OFlush]) (OEmitMain (repeat 0 32) addrA [] 1601)) = Panic.
Proof.
  cbv zeta. eexists. split; [vm_compute; reflexivity|]. split; [|split; vm_compute; reflexivity].
  constructor; [|constructor; [exact Logic.I|constructor]]. split; [|reflexivity]. repeat constructor.
Qed.

