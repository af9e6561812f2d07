(** Directories and database rotation.
    Only theorem statements (closed by [exact]), examples showing that their
    premises are met, and the assumptions of each theorem. *)
From Coq Require Import Lia.
From Verif Require Import Base Sled Chain Tree Fs FsSpec Demo.
From Verif Require Import BaseFacts DerivFacts.
From Verif Require Import FsProps.

(** C52. Copying a directory succeeds exactly when nowhere a file of one tree meets a directory of the other; then at every path
   below the destination there is what the source has there, or else what the destination had.  For all trees, of any depth, in
   any order of enumeration. *)
Theorem C52_copy_overlays : forall es dst, fs_wf (Dir es) ->
  let '(r, ok) := copy_dir_all es dst in
  (ok = true <-> forall path, ~ clash (at_path path (Dir es)) (at_path_opt path dst)) /\
  (ok = true -> forall path, at_path_opt path r =
     match at_path path (Dir es) with Some k => Some k | None => at_path_opt path dst end).
Proof. exact p_C52_copy_overlays. Qed.
Print Assumptions C52_copy_overlays.

(** C52. Copying to a destination that is absent or an empty directory succeeds and yields the source. *)
Theorem C52_copy_to_empty : forall es dst, fs_wf (Dir es) -> dst = None \/ dst = Some (Dir []) ->
  exists r, copy_dir_all es dst = (Some r, true) /\ forall path, at_path path r = at_path path (Dir es).
Proof. exact p_C52_copy_to_empty. Qed.
Print Assumptions C52_copy_to_empty.

Definition demo_dir : list (bytes * fnode) :=
  [([100], File [1; 2]); ([98], Dir [([99], File [3]); ([97], Dir [])])].
Example C52_ex : fs_wf (Dir demo_dir) /\
  copy_dir_all demo_dir (Some (Dir [([120], File [9]); ([98], Dir [([99], File [7; 7])])])) =
    (Some (Dir [([120], File [9]); ([98], Dir [([99], File [3]); ([97], Dir [])]); ([100], File [1; 2])]), true) /\
  snd (copy_dir_all demo_dir (Some (Dir [([98], File [])]))) = false.
Proof.
  split; [|split; reflexivity].
  constructor; [repeat (constructor; [cbn; intuition discriminate|]); constructor|].
  intros name x [E|[E|[]]]; injection E as <- <-; constructor.
  - repeat (constructor; [cbn; intuition discriminate|]); constructor.
  - intros name x [E|[E|[]]]; injection E as <- <-; constructor; [constructor|intros ? ? []].
Qed.

(** C72. Rotation succeeds whenever the four database directories exist, leaves the two current ones alone, and leaves each old directory
   with exactly the contents of the current one, whatever was in it before. *)
Theorem C72_rotation_copies : forall es eo ges geo, fs_wf (Dir es) -> fs_wf (Dir ges) ->
  exists a b, rotate_upto 6 (MkDirs (Some (Dir es)) (Some (Dir eo)) (Some (Dir ges)) (Some (Dir geo))) =
    Some (MkDirs (Some (Dir es)) (Some a) (Some (Dir ges)) (Some b)) /\
    (forall path, at_path path a = at_path path (Dir es)) /\
    (forall path, at_path path b = at_path path (Dir ges)).
Proof. exact p_C72_rotation_copies. Qed.
Print Assumptions C72_rotation_copies.

Example C72_ex : rotate_upto 6 (MkDirs (Some (Dir demo_dir)) (Some (Dir [([120], File [])])) (Some (Dir [])) (Some (Dir []))) =
  Some (MkDirs (Some (Dir demo_dir)) (Some (Dir demo_dir)) (Some (Dir [])) (Some (Dir []))).
Proof. reflexivity. Qed.

(** C72. Without one of the four directories rotation fails: an old directory that is missing cannot be removed (blockchaintree.rs:555-590). *)
Theorem C72_rotation_needs : forall d d', rotate_upto 6 d = Some d' ->
  exists es eo ges geo, d = MkDirs (Some (Dir es)) (Some (Dir eo)) (Some (Dir ges)) (Some (Dir geo)).
Proof. exact p_C72_rotation_needs. Qed.
Print Assumptions C72_rotation_needs.

Example C72_needs_ex : rotate_upto 6 (MkDirs (Some (Dir demo_dir)) None (Some (Dir [])) (Some (Dir []))) = None /\ rotate_upto 6 (MkDirs (Some (Dir demo_dir)) (Some (Dir [])) (Some (Dir [])) (Some (Dir []))) <> None.
Proof. split; [reflexivity|discriminate]. Qed.

(** C73 fails: rotation removes the old directories before copying.  After a crash in between, the old summary is
   neither the one before nor the new one; both old directories are affected for every non-empty tree. *)
Theorem C73_rotation_is_not_atomic_refuted : forall es eo ges geo, es <> [] -> eo <> [] ->
  exists n d, rotate_upto n (MkDirs (Some (Dir es)) (Some (Dir eo)) (Some (Dir ges)) (Some (Dir geo))) = Some d /\
    d_old_summary d <> Some (Dir eo) /\ d_old_summary d <> Some (Dir es) /\ d_old_summary d <> None.
Proof. exact p_C73_rotation_is_not_atomic_refuted. Qed.
Print Assumptions C73_rotation_is_not_atomic_refuted.

(** C73, what holds at every moment of a rotation, also in the middle of a removal or of a copy: the current directories are untouched; each old
   directory is part of what it was or part of the current one (files there may be cut short); and once the old directories exist again (opening the
   databases creates missing ones) a second rotation completes with both copies right.
   Missing: that the old databases are usable, see [C73_rotation_is_not_atomic_refuted]. *)
Theorem C73_rotation_can_be_repeated_partial : forall es eo ges geo d, fs_wf (Dir es) -> fs_wf (Dir ges) ->
  rotating (MkDirs (Some (Dir es)) (Some (Dir eo)) (Some (Dir ges)) (Some (Dir geo))) d ->
  d_summary d = Some (Dir es) /\ d_gas d = Some (Dir ges) /\
  (part_of (d_old_summary d) (Dir eo) \/ part_of (d_old_summary d) (Dir es)) /\
  (part_of (d_old_gas d) (Dir geo) \/ part_of (d_old_gas d) (Dir ges)) /\
  forall eo' geo', exists a b,
    rotate_upto 6 (MkDirs (d_summary d) (Some (Dir eo')) (d_gas d) (Some (Dir geo'))) =
      Some (MkDirs (d_summary d) (Some a) (d_gas d) (Some b)) /\
    (forall path, at_path path a = at_path path (Dir es)) /\ (forall path, at_path path b = at_path path (Dir ges)).
Proof. exact p_C73_rotation_can_be_repeated_partial. Qed.
Print Assumptions C73_rotation_can_be_repeated_partial.

Example C73_ex : map (fun n => match rotate_upto n (MkDirs (Some (Dir demo_dir)) (Some (Dir [([120], File [])])) (Some (Dir [])) (Some (Dir []))) with
  | Some d => d_old_summary d | None => None end) [0; 1; 2; 3; 4; 5; 6]%nat =
  [Some (Dir [([120], File [])]); None; Some (Dir []); Some (Dir []); Some (Dir []); Some (Dir demo_dir); Some (Dir demo_dir)].
Proof. reflexivity. Qed.
(** Crash in the middle of copying a file of two bytes in a subdirectory. *)
Example C73_ex_inside : rotating (MkDirs (Some (Dir [([98], Dir [([99], File [3; 4])])])) (Some (Dir [])) (Some (Dir [])) (Some (Dir [])))
  (MkDirs (Some (Dir [([98], Dir [([99], File [3; 4])])])) (Some (Dir [([98], Dir [([99], File [3])])])) (Some (Dir [])) (Some (Dir []))).
Proof.
  apply (rotating_copy_summary _ (MkDirs (Some (Dir [([98], Dir [([99], File [3; 4])])])) (Some (Dir [])) (Some (Dir [])) (Some (Dir []))) (Dir [([98], Dir [([99], File [3; 4])])]));
    [reflexivity|reflexivity|]. cbn [d_old_summary].
  apply (copying_entry [] [98] (Dir [([99], File [3; 4])]) [] _ []); [reflexivity|].
  apply (copying_entry [] [99] (File [3; 4]) [] _ []); [reflexivity|]. apply (copying_file [3; 4] _ 1). discriminate.
Qed.

