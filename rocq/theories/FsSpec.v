(** Notions used in the theorems about directories.  Definitions only. *)
From Verif Require Import Base Tree Fs.

Inductive kind := KFile (contents : bytes) | KDir.
Definition kind_of (n : fnode) : kind := match n with File c => KFile c | Dir _ => KDir end.
(** What is found at a path below a node. *)
Fixpoint at_path (path : list bytes) (n : fnode) : option kind :=
  match path with
  | [] => Some (kind_of n)
  | name :: path =>
      match n with
      | File _ => None
      | Dir es => match assoc_get name es with Some x => at_path path x | None => None end
      end
  end.
Definition at_path_opt (path : list bytes) (n : option fnode) : option kind :=
  match n with Some x => at_path path x | None => None end.

(** Names within a directory are distinct, at every level. *)
Inductive fs_wf : fnode -> Prop :=
| wf_file : forall c, fs_wf (File c)
| wf_dir : forall es, NoDup (map fst es) -> (forall name x, In (name, x) es -> fs_wf x) -> fs_wf (Dir es).

(** A file in one place, a directory in the other. *)
Definition clash (a b : option kind) : Prop :=
  match a, b with
  | Some (KFile _), Some KDir | Some KDir, Some (KFile _) => True
  | _, _ => False
  end.

(** Everything in [a] is in [b]: directories are directories there, files are beginnings of the files there. *)
Definition part_of (a : option fnode) (b : fnode) : Prop :=
  forall path,
    match at_path_opt path a with
    | None => True
    | Some KDir => at_path path b = Some KDir
    | Some (KFile c) => exists c', at_path path b = Some (KFile (c ++ c'))
    end.
