(** Property C130: what lookups and calls report on a directory with any contents
    Only theorem statements (closed by [exact]), examples showing that their
    premises are met, and the assumptions of each theorem. *)
From Coq Require Import Lia ZifyBool ZifyNat ZifyN.
From Verif Require Import Base Sha256 Merkle Tools Transaction Block Sled Chain Tree Spec CanonSpec Reach LedgerSpec NodeSpec AnyDirSpec DamageSpec AnyPanicSpec AnyErrSpec Demo.
From Verif Require Import BaseFacts ToolsFacts MerkleFacts CodecFacts CodecProps CanonProps SledFacts ChainFacts DiffFacts TreeFacts LedgerFacts DerivFacts NodeFacts DamageProps AnyDirProps AnyPanicProps.
From Verif Require LiveProps.
From Verif Require Import AnyErrProps.

(** C130: what every lookup gives, whatever the databases hold: nothing if nothing is stored; the block or transaction the stored bytes are laid out as, if they are; a panic if they break off
    at the listed places; an error otherwise.  A reference is read as a height; one of more than 32 bytes panics. *)
Theorem C130_lookups : forall t, any_tree t ->
  (let m := t_main t in
   (forall h, read_main (main_value h m) (mc_find_by_height h m)) /\
   (forall h, by_reference (sled_get h (mc_refs m)) (fun k => read_main (main_value k m)) (mc_find_by_hash h m)) /\
   (if mc_height m =? 0 then mc_get_last_block m = Panic else read_main (main_value (mc_height m - 1) m) (mc_get_last_block m)) /\
   (forall h, read_tx (sled_get h (mc_txs m)) (mc_get_transaction h m))) /\
  (forall w c, In (w, c) (t_derivs t) ->
   (forall h, read_side (side_value h c) (dc_find_by_height h c)) /\
   (forall h, by_reference (sled_get h (dc_refs c)) (fun k => read_side (side_value k c)) (dc_find_by_hash h c)) /\
   (if dc_height c =? 0 then dc_get_last_block c = Ok None else read_side (side_value (dc_height c - 1) c) (dc_get_last_block c))).
Proof. exact p_C130_lookups. Qed.
Print Assumptions C130_lookups.

Example C130_ex_lookups :
  let m v := MkMain (sled_insert (to_be 32 6) v sled_empty) (sled_insert [1] [6] (sled_insert [2] (repeat 0 33) (sled_insert [3] [8] sled_empty))) (sled_insert [7] v sled_empty) 7 (repeat 0 32) file_absent in
  let good := block_dump first_block in
  mc_get_last_block (m good) = Ok (Some first_block) /\ mc_find_by_height 6 (m (4 :: skipn 1 good)) <> Ok None /\
  mc_get_last_block (m [9; 9]) = Err EChainFindByHeight /\ mc_get_last_block (m []) = Err EChainFindByHeight /\ mc_get_last_block (m [2]) = Panic /\
  mc_find_by_hash [1] (m [9; 9]) = Err EChainFindByHeight /\ mc_find_by_hash [2] (m good) = Panic /\ mc_find_by_hash [3] (m good) = Ok None /\
  mc_get_transaction [7] (m good) = Err EChainFindByHash /\ main_value 6 (m good) = Some good /\ main_value 8 (m good) = None.
Proof. cbv zeta. repeat apply conj; try (vm_compute; reflexivity). vm_compute. discriminate. Qed.

(** C130: which calls return which error, whatever the databases hold. *)
Theorem C130_errors : forall p t o e, any_tree t -> op_wf o -> (forall tx, o = OSendTx tx -> N.of_nat (length (tx_dump tx)) < 2 ^ 63) ->
  (snd (step p t o) = Err e <-> errors_any p t o e).
Proof. exact p_C130_errors. Qed.
Print Assumptions C130_errors.

Example C130_ex_errors :
  let b h := SummBlock (MkInfo 1000 (repeat 0 32) (repeat 0 32) h (255 :: repeat 0 31) addrA) (repeat 0 32) in
  let t v h := MkTree0 (MkMain (sled_insert (to_be 32 6) v sled_empty) sled_empty sled_empty h (repeat 0 32) file_absent) [] sled_empty sled_empty sled_empty sled_empty [] in
  let emit txs := OEmitMain (repeat 0 32) addrA txs 1600 in
  let r v o := snd (step Debug (t v 7) o) in
  r [9; 9] (emit []) = Err EChainFindByHeight /\ r [9; 9] (OGetDeriv addrA) = Err EChainFindByHeight /\ side_refused addrA (t [9; 9] 7) EChainFindByHeight /\
  r (block_dump (b 6)) (emit []) = Err ETreeCreateMainChainBlock /\ r (block_dump (b 4)) (emit [repeat 0 32]) = Err EChainAddingBlock /\
  r (block_dump (b 999999)) (emit [repeat 0 32]) = Err ETreeSummarizeWrongTxAmount /\ (exists x, r (block_dump (b 6)) (emit [repeat 0 32]) = Ok x) /\
  r [9; 9] (OAddNewBlock (b 6) []) = Err EChainAddingBlock /\ r [9; 9] (OAddNewBlock (b 7) []) = Ok RUnit.
Proof.
  cbv zeta. do 2 (split; [vm_compute; reflexivity|]). split.
  - split; [reflexivity|]. left. split; [|reflexivity]. split; [discriminate|]. exists [9; 9]. split; [vm_compute; reflexivity|]. split.
    + intros (h & d & E & H). assert (h = 9) by congruence. assert (d = [9]) by congruence. subst. decompose [and or ex] H; discriminate.
    + intros x (_ & L). destruct x; decompose [and ex] L; (contradiction || discriminate).
  - do 3 (split; [vm_compute; reflexivity|]). split; [eexists; vm_compute; reflexivity|]. split; vm_compute; reflexivity.
Qed.

(** C130: at every moment of every history of a node opened on a directory with any contents, a call succeeds exactly when it is none of the calls listed as undefined, panicking or refused. *)
Theorem C130_histories : forall p d t ops o, any_disk d -> t_new d = Ok t -> Forall op_wf ops -> op_wf o ->
  (forall tx, o = OSendTx tx -> N.of_nat (length (tx_dump tx)) < 2 ^ 63) ->
  let t' := run p t ops in
  (forall e, snd (step p t' o) = Err e <-> errors_any p t' o e) /\
  ((exists r, snd (step p t' o) = Ok r) <-> ~ (p = Release /\ leaves_array t' o) /\ ~ panics_any p t' o /\ forall e, ~ errors_any p t' o e).
Proof. exact p_C130_histories. Qed.
Print Assumptions C130_histories.

Example C130_ex_histories :
  let d := MkDisk (MkMainDisk (sled_insert (to_be 32 6) [9; 9] sled_empty) sled_empty sled_empty (MkFile (Some (to_be 32 7 ++ repeat 0 32)) [])) sled_empty sled_empty sled_empty sled_empty [] in
  let ops := [OAddGas addrA 3; OFlush] in
  exists t, t_new d = Ok t /\ Forall op_wf ops /\ snd (step Debug (run Debug t ops) (OGetDeriv addrA)) = Err EChainFindByHeight /\ errors_any Debug (run Debug t ops) (OGetDeriv addrA) EChainFindByHeight /\
  snd (step Debug (run Debug t ops) (OSubGas addrA 3)) = Ok RUnit.
Proof.
  cbv zeta. eexists. split; [vm_compute; reflexivity|]. split; [constructor; [|constructor; [exact Logic.I|constructor]]; split; [|reflexivity]; repeat constructor|].
  split; [vm_compute; reflexivity|]. split; [|vm_compute; reflexivity]. split; [vm_compute; reflexivity|]. left. split; [|reflexivity]. split; [vm_compute; discriminate|]. exists [9; 9]. split; [vm_compute; reflexivity|]. split.
  - intros (h & d & E & H). assert (h = 9) by congruence. assert (d = [9]) by congruence. subst. decompose [and or ex] H; discriminate.
  - intros x (_ & L). destruct x; decompose [and ex] L; (contradiction || discriminate).
Qed.

(** C130: whatever the databases hold, a call that returns an error changes nothing but the set of open side chains.  Missing: emissions that close an epoch although the recorded height is not
    the one after the last block. *)
Theorem C130_unchanged_partial : forall p t o e, any_tree t -> ~ closes_epoch_and_fails t o -> snd (step p t o) = Err e ->
  fst (step p t o) = match o with OEmitDeriv _ w _ => fst (t_get_derivative_chain w t) | _ => t end.
Proof. exact p_C130_unchanged_partial. Qed.
Print Assumptions C130_unchanged_partial.

Example C130_ex_unchanged :
  let b h := SummBlock (MkInfo 1000 (repeat 0 32) (repeat 0 32) h (255 :: repeat 0 31) addrA) (repeat 0 32) in
  let t := MkTree0 (MkMain (sled_insert (to_be 32 6) (block_dump (b 4)) sled_empty) sled_empty sled_empty 7 (repeat 0 32) file_absent) [] sled_empty sled_empty sled_empty sled_empty [] in
  let o := OEmitMain (repeat 0 32) addrA [repeat 0 32] 1600 in let o' := OEmitDeriv (repeat 0 32) addrA 1600 in
  any_tree t /\ ~ closes_epoch_and_fails t o /\ snd (step Debug t o) = Err EChainAddingBlock /\ fst (step Debug t o) = t /\
  ~ closes_epoch_and_fails t o' /\ snd (step Debug t o') = Err EChainFindByHash /\ map fst (t_derivs (fst (step Debug t o'))) = [addrA].
Proof.
  cbv zeta. split.
  - split; [|split; [|split]].
    + apply values_insert; [intros k v Y; discriminate|]. apply block_dump_ok. repeat split; try reflexivity; repeat constructor.
    + intros k v Y. discriminate.
    + intros w c [].
    + intros w c [].
  - split; [intros []|]. split; [vm_compute; reflexivity|]. split; [vm_compute; reflexivity|]. split; [intros []|]. split; vm_compute; reflexivity.
Qed.

(** C130: what the remaining case does.  An emission that closes an epoch although the recorded height is not the one after the last block either changes nothing, or is refused as a wrong block
    and leaves the epoch closed. *)
Theorem C130_epoch_closed : forall p t o e, any_tree t -> closes_epoch_and_fails t o -> snd (step p t o) = Err e ->
  (e = EChainAddingBlock /\ closed_without_block t (fst (step p t o))) \/ (e = ETreeWrongPow /\ fst (step p t o) = t).
Proof. exact p_C130_epoch_closed. Qed.
Print Assumptions C130_epoch_closed.

Example C130_ex_epoch_closed :
  let t h := MkTree0 (MkMain (sled_insert (to_be 32 (h - 1)) (block_dump (SummBlock (MkInfo 1000 (repeat 0 32) (repeat 0 32) 999999 (255 :: repeat 0 31) addrA) (repeat 0 32))) sled_empty) sled_empty sled_empty h (repeat 0 32) file_absent)
    [] (sled_insert addrA [1; 9] (sled_insert ROOT_PUBLIC_ADDRESS [1; 7] sled_empty)) sled_empty sled_empty sled_empty [] in
  let o := OEmitMain (repeat 0 32) addrA [] 1600 in
  snd (step Release (t 5) o) = Err EChainAddingBlock /\ t_get_amount addrA (fst (step Release (t 5) o)) = Ok 9 /\ sled_get addrA (t_old_summary (fst (step Release (t 5) o))) = Some [1; 9] /\
  mc_height (t_main (fst (step Release (t 5) o))) = 5 /\ exists x, snd (step Release (t 1000000) o) = Ok x.
Proof. cbv zeta. do 4 (split; [vm_compute; reflexivity|]). eexists. vm_compute. reflexivity. Qed.

(** C130 fails at the end of an epoch: an emission is refused because the recorded height is not the one after the last block, after the epoch was closed: the balance of the root account is
    overwritten and the old databases are replaced. *)
Theorem C130_epoch_refuted : exists t o, any_tree t /\ op_wf o /\ closes_epoch_and_fails t o /\ snd (step Release t o) = Err EChainAddingBlock /\
  t_get_amount ROOT_PUBLIC_ADDRESS t = Ok 7 /\ t_get_amount ROOT_PUBLIC_ADDRESS (fst (step Release t o)) = Ok COINS_PER_CYCLE /\
  sled_get ROOT_PUBLIC_ADDRESS (t_old_summary t) = None /\ sled_get ROOT_PUBLIC_ADDRESS (t_old_summary (fst (step Release t o))) = Some [1; 7].
Proof. exact p_C130_epoch_refuted. Qed.
Print Assumptions C130_epoch_refuted.

Example C130_ex_epoch : (999999 + 1) mod 1000000 = 0 /\ 999999 + 1 <> 5 /\ 0 < COINS_PER_CYCLE.
Proof. repeat split; vm_compute; (reflexivity || discriminate). Qed.

