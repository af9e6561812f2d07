(** Property C129: panics of nodes whose databases hold anything
    Only theorem statements (closed by [exact]), examples showing that their
    premises are met, and the assumptions of each theorem. *)
From Coq Require Import Lia ZifyBool ZifyNat ZifyN.
From Verif Require Import Base Sha256 Merkle Tools Transaction Block Sled Chain Tree Spec Reach LedgerSpec NodeSpec AnyDirSpec DamageSpec AnyPanicSpec Demo.
From Verif Require Import BaseFacts ToolsFacts MerkleFacts CodecFacts CodecProps SledFacts ChainFacts DiffFacts TreeFacts LedgerFacts DerivFacts NodeFacts DamageProps AnyDirProps.
From Verif Require LiveProps.
From Verif Require Import AnyPanicProps.

(** C129: which lookups panic, whatever the databases hold: those that come to a reference of more than 32 bytes or to a block or transaction that breaks off at particular places, and asking for
    the last block of a main chain of height 0. *)
Theorem C129_lookups : forall t, any_tree t ->
  (let m := t_main t in
   (forall h, mc_find_by_height h m = Panic <-> broken_at h m) /\ (forall h, mc_find_by_hash h m = Panic <-> broken_hash h m) /\
   (mc_get_last_block m = Panic <-> broken_last m) /\
   (forall h, mc_get_transaction h m = Panic <-> exists v, sled_get h (mc_txs m) = Some v /\ broken_tx v)) /\
  (forall w c, In (w, c) (t_derivs t) ->
   (forall h, dc_find_by_height h c = Panic <-> side_broken_at h c) /\ (forall h, dc_find_by_hash h c = Panic <-> side_broken_hash h c) /\
   (dc_get_last_block c = Panic <-> side_broken_last c)).
Proof. exact p_C129_lookups. Qed.
Print Assumptions C129_lookups.

Example C129_ex_lookups :
  let m r v := MkMain (sled_insert (to_be 32 6) v sled_empty) (sled_insert [1] r sled_empty) (sled_insert [7] v sled_empty) 7 (repeat 0 32) file_absent in
  mc_get_last_block (m [6] [2]) = Panic /\ broken_last (m [6] [2]) /\ mc_get_last_block (m [6] [9; 9]) = Err EChainFindByHeight /\
  mc_find_by_hash [1] (m [6] [2]) = Panic /\ mc_find_by_hash [1] (m [6] (block_dump first_block)) = Ok (Some first_block) /\
  mc_find_by_hash [1] (m (repeat 0 33) (block_dump first_block)) = Panic /\ broken_hash [1] (m (repeat 0 33) (block_dump first_block)) /\
  mc_get_transaction [7] (m [6] (0 :: repeat 0 138 ++ [1])) = Panic /\ broken_tx (0 :: repeat 0 138 ++ [1]) /\ mc_get_transaction [7] (m [6] [2]) = Err EChainFindByHash /\
  dc_get_last_block (MkDeriv (sled_insert (to_be 32 0) [3] sled_empty) sled_empty 1 [] [] file_absent) = Err EChainFindByHeight /\
  dc_get_last_block (MkDeriv (sled_insert (to_be 32 0) [] sled_empty) sled_empty 1 [] [] file_absent) = Panic.
Proof.
  cbv zeta. split; [vm_compute; reflexivity|]. split; [right; exists [2]; split; [split; [discriminate|vm_compute; reflexivity]|exists 2, []; split; [reflexivity|]; left; split; [reflexivity|repeat constructor]]|].
  do 4 (split; [vm_compute; reflexivity|]). split; [exists (repeat 0 33); split; [vm_compute; reflexivity|left; repeat constructor]|].
  split; [vm_compute; reflexivity|]. split; [exists (repeat 0 138 ++ [1]); split; [reflexivity|]; split; [vm_compute; repeat constructor|right; exists 1, []; repeat split; discriminate]|].
  repeat apply conj; vm_compute; reflexivity.
Qed.

(** C129: which calls panic, whatever the databases hold. *)
Theorem C129_calls : forall p t o, any_tree t -> op_wf o -> (forall tx, o = OSendTx tx -> N.of_nat (length (tx_dump tx)) < 2 ^ 63) ->
  (snd (step p t o) = Panic <-> panics_any p t o).
Proof. exact p_C129_calls. Qed.
Print Assumptions C129_calls.

Example C129_ex_calls :
  let b h := SummBlock (MkInfo 1000 (repeat 0 32) (repeat 0 32) h (255 :: repeat 0 31) addrA) (repeat 0 32) in
  let t h := MkTree0 (MkMain (sled_insert (to_be 32 (h - 1)) (block_dump (b (h - 1))) sled_empty) sled_empty sled_empty h (repeat 0 32) file_absent) [] sled_empty sled_empty (sled_insert addrA [2; 1] sled_empty) sled_empty [] in
  let emit ts := OEmitMain (repeat 0 32) addrA [repeat 0 32] ts in
  snd (step Debug (t 2) (emit 999)) = Panic /\ snd (step Debug (t 2) (emit 1601)) = Panic /\ snd (step Release (t 2) (emit 1601)) = UB /\
  (exists x, snd (step Debug (t 2) (emit 1600)) = Ok x) /\
  snd (step Release (t (2 ^ 256 - 1)) (emit 1600)) = Panic /\ panics_any Release (t (2 ^ 256 - 1)) (emit 1600) /\
  snd (step Release (t 0) (emit 1600)) = Panic /\ snd (step Debug (t 2) (OAddGas addrA 0)) = Panic /\ snd (step Debug (t 2) (OAddAmount addrA 0)) = Ok RUnit.
Proof.
  cbv zeta. do 3 (split; [vm_compute; reflexivity|]). split; [eexists; vm_compute; reflexivity|]. split; [vm_compute; reflexivity|]. split; [|repeat apply conj; vm_compute; reflexivity].
  right. eexists. split; [vm_compute; reflexivity|]. split; [vm_compute; reflexivity|]. right. split.
  - intros (_ & s & E & L & _). vm_compute in E. injection E as <-. vm_compute in L. discriminate L.
  - right. split; [vm_compute; reflexivity|]. split; [vm_compute; discriminate|]. split; intros E; vm_compute in E; discriminate E.
Qed.

(** C129: the same at every moment of every history of a node opened on a directory with any contents. *)
Theorem C129_histories : forall p d t ops o, any_disk d -> t_new d = Ok t -> Forall op_wf ops -> op_wf o ->
  (forall tx, o = OSendTx tx -> N.of_nat (length (tx_dump tx)) < 2 ^ 63) ->
  (snd (step p (run p t ops) o) = Panic <-> panics_any p (run p t ops) o).
Proof. exact p_C129_histories. Qed.
Print Assumptions C129_histories.

Example C129_ex_histories :
  let d := MkDisk (MkMainDisk (sled_insert (to_be 32 6) [2] sled_empty) sled_empty sled_empty (MkFile (Some (to_be 32 7 ++ repeat 0 32)) [])) sled_empty sled_empty sled_empty sled_empty [] in
  exists t, t_new d = Ok t /\ Forall op_wf [OAddGas addrA 3; OFlush] /\
  snd (step Debug (run Debug t [OAddGas addrA 3; OFlush]) (OGetDeriv addrA)) = Panic /\ panics_any Debug (run Debug t [OAddGas addrA 3; OFlush]) (OGetDeriv addrA) /\
  snd (step Debug (run Debug t [OAddGas addrA 3; OFlush]) (OSubGas addrA 3)) = Ok RUnit.
Proof.
  cbv zeta. eexists. split; [vm_compute; reflexivity|]. split; [constructor; [|constructor; [exact Logic.I|constructor]]; split; [|reflexivity]; repeat constructor|].
  split; [vm_compute; reflexivity|]. split; [|vm_compute; reflexivity]. split; [vm_compute; reflexivity|]. left. right. exists [2]. split; [split; [vm_compute; discriminate|vm_compute; reflexivity]|].
  exists 2, []. split; [reflexivity|]. left. split; [reflexivity|repeat constructor].
Qed.

