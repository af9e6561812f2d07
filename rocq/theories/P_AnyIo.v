(** Property C128: directories with any contents when I/O operations fail
    Only theorem statements (closed by [exact]), examples showing that their
    premises are met, and the assumptions of each theorem. *)
From Coq Require Import Lia ZifyBool ZifyNat ZifyN.
From Verif Require Import Base Sha256 Merkle Tools Transaction Block Sled Chain Tree Conc ConcTree ConcFlush ConcEmit Cancel ConcDeriv Io Spec Reach LedgerSpec NodeSpec AnyDirSpec IoSpec AnyIoSpec Demo.
From Verif Require Import BaseFacts ToolsFacts MerkleFacts CodecFacts SledFacts ChainFacts DiffFacts TreeFacts LedgerFacts DerivFacts NodeFacts AnyDirProps.
From Verif Require LiveProps.
From Verif Require Import AnyIoProps.

(** C128: whatever the databases hold and whichever I/O operations fail, a call leads to undefined behaviour only if it would without failures, that is, in a release build and at an emission
    that leaves the array of the difficulty; and whatever it returns, what the databases hold afterwards are byte strings again, so that the same is true of the next call. *)
Theorem C128_calls : forall p h o fs, any_tree (h_tree h) -> op_wf o ->
  any_tree (h_tree (io_after (io_step p o) fs h)) /\ (io_result (io_step p o) fs h = UB -> p = Release /\ leaves_array (h_tree h) o).
Proof. exact p_C128_calls. Qed.
Print Assumptions C128_calls.

Example C128_ex_calls :
  let b := SummBlock (MkInfo 1000 (repeat 0 32) (repeat 0 32) 1 (255 :: repeat 0 31) addrA) (repeat 0 32) in
  let h := opened (MkTree0 (MkMain (sled_insert (to_be 32 1) (block_dump b) sled_empty) sled_empty sled_empty 2 (repeat 0 32) file_absent) [] sled_empty sled_empty sled_empty sled_empty []) in
  io_result (io_step Release (OEmitMain (repeat 0 32) addrA [] 1601)) [Fine; Fails 0] h = UB /\
  io_result (io_step Release (OEmitMain (repeat 0 32) addrA [] 1601)) [Fails 0] h = Err EChainFindByHeight /\
  io_result (io_step Debug (OEmitMain (repeat 0 32) addrA [] 1601)) [] h = Panic /\
  io_result (io_step Release (OAddGas addrA 3)) [Fails 1] h = Panic /\ op_wf (OEmitMain (repeat 0 32) addrA [] 1601).
Proof.
  cbv zeta. split; [vm_compute; reflexivity|]. split; [vm_compute; reflexivity|]. split; [vm_compute; reflexivity|]. split; [vm_compute; reflexivity|].
  repeat split; try constructor; repeat constructor.
Qed.

(** C128: opening a directory with any contents while I/O operations fail: what is opened is what the directory holds, at the height its config file says or at height 0 when that file cannot
    be opened; errors are those of opening; it panics only when the coins of the root account cannot be written; and also a failed opening leaves byte strings. *)
Theorem C128_opening : forall fs d,
  match io_result t_new_io fs d with
  | Ok t => exists h, config_height fs d h /\ opened_at h d t
  | Err e => e = ETreeInit \/ e = EChainInit
  | Panic => exists h n, config_height fs d h /\ h <= 1 /\ In (Fails n) fs
  | UB => False
  end /\ (any_disk d -> any_disk (io_after t_new_io fs d)).
Proof. exact p_C128_opening. Qed.
Print Assumptions C128_opening.

Example C128_ex_opening :
  let d := MkDisk (MkMainDisk sled_empty sled_empty sled_empty (MkFile (Some (to_be 32 7 ++ repeat 0 32)) [])) sled_empty sled_empty sled_empty sled_empty [] in
  (exists t, io_result t_new_io [] d = Ok t /\ mc_height (t_main t) = 7) /\
  (exists t, io_result t_new_io (repeat Fine 7 ++ [Fails 0]) d = Ok t /\ mc_height (t_main t) = 1) /\
  io_result t_new_io [Fine; Fails 0] d = Err ETreeInit /\ io_result t_new_io (repeat Fine 4 ++ [Fails 0]) d = Err EChainInit /\
  io_result t_new_io (repeat Fine 7 ++ [Fails 0; Fine; Fine; Fails 1]) d = Panic.
Proof.
  cbv zeta. split; [eexists; split; vm_compute; reflexivity|]. split; [eexists; split; vm_compute; reflexivity|]. split; [vm_compute; reflexivity|]. split; vm_compute; reflexivity.
Qed.

(** C128: so in a history that starts in a directory with any contents, with failing I/O operations, closings, crashes and openings, also failed and killed ones, no call is undefined in a debug build, and in a release build
    only the emissions named above are. *)
Theorem C128_histories : forall p h o fs, any_history p h -> op_wf o ->
  io_result (io_step p o) fs h = UB -> p = Release /\ leaves_array (h_tree h) o.
Proof. exact p_C128_histories. Qed.
Print Assumptions C128_histories.

Example C128_ex_histories :
  let b := SummBlock (MkInfo 1000 (repeat 0 32) (repeat 0 32) 1 (255 :: repeat 0 31) addrA) (repeat 0 32) in
  let d := MkDisk (MkMainDisk (sled_flush (sled_insert (to_be 32 1) (block_dump b) sled_empty)) sled_empty sled_empty (MkFile (Some (to_be 32 2 ++ repeat 0 32)) [])) sled_empty sled_empty sled_empty sled_empty [] in
  any_disk d /\ at_rest d /\ exists t, io_result t_new_io [] d = Ok t /\ any_history Release (io_after (io_step Release OFlush) [Fine; Fails 2] (opened t)) /\
  io_result (io_step Release (OEmitMain (repeat 0 32) addrA [] 1601)) [] (io_after (io_step Release OFlush) [Fine; Fails 2] (opened t)) = UB.
Proof.
  cbv zeta. set (b := SummBlock _ _). set (d := MkDisk _ _ _ _ _ _). assert (A : any_disk d).
  { split; [|split; [intros k v X; discriminate X|intros w k []]]. cbn [d k_main md_blocks]. apply flush_values, values_insert; [intros k v X; discriminate X|]. apply block_dump_ok.
    repeat split; try constructor; repeat constructor. }
  assert (R : at_rest d) by (split; [reflexivity|split; [reflexivity|intros w k []]]). split; [exact A|]. split; [exact R|]. eexists. split; [vm_compute; reflexivity|]. split; [|vm_compute; reflexivity].
  eapply any_call; [|exact Logic.I]. eapply (any_open _ d []); [exact (left_any _ d A R)|vm_compute; reflexivity].
Qed.

