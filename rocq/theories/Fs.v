(** Model of [copy_dir_all] (src/tools.rs:18-30) and of the directory work done by
    [rotate_dbs] (src/blockchaintree.rs:545-600), over a file system of files and
    directories.  Symbolic links, permissions and I/O errors other than a file where a
    directory is needed (or the reverse, or nothing) are not modelled.
    Model file: definitions only. *)
From Verif Require Import Base Sled Chain Tree.

(** A file with its contents, or a directory with its entries in the order in which
    [read_dir] lists them (which is unspecified). *)
Inductive fnode :=
| File (contents : bytes)
| Dir (entries : list (bytes * fnode)).

Definition entries_of (n : option fnode) : list (bytes * fnode) :=
  match n with Some (Dir l) => l | _ => [] end.

(** tools.rs:18-30.  What is at the destination path afterwards ([None]: nothing) and
    whether the copy succeeded; it stops at the first failing entry.
    [File]: [fs::copy], tools.rs:26.  [Dir]: the recursive call, with [create_dir_all]
    of the destination first (tools.rs:19). *)
Fixpoint copy_node (src : fnode) (dst : option fnode) : option fnode * bool :=
  match src with
  | File c =>
      match dst with
      | Some (Dir _) => (dst, false)
      | _ => (Some (File c), true)
      end
  | Dir es =>
      match dst with
      | Some (File _) => (dst, false)
      | _ =>
          let '(l, ok) :=
            (fix go (es : list (bytes * fnode)) (l : list (bytes * fnode)) :=
               match es with
               | [] => (l, true)
               | (name, x) :: es =>
                   let '(r, ok) := copy_node x (assoc_get name l) in
                   let l := match r with Some y => assoc_set name y l | None => l end in
                   if ok then go es l else (l, false)
               end) es (entries_of dst) in
          (Some (Dir l), ok)
      end
  end.
(** [copy_dir_all(src, dst)] where [src] is a directory with entries [es]. *)
Definition copy_dir_all (es : list (bytes * fnode)) (dst : option fnode) : option fnode * bool :=
  copy_node (Dir es) dst.

(** The four database directories under the root folder, static_values.rs. *)
Record db_dirs := MkDirs {
  d_summary : option fnode; d_old_summary : option fnode;
  d_gas : option fnode; d_old_gas : option fnode
}.
(** The steps of [rotate_dbs] after the flush, blockchaintree.rs:555-590: [None] when the
    step fails.  [remove_dir_all] fails when there is no such directory, [create_dir] when
    there is something, the copies when the source is missing. *)
Definition remove_dir (n : option fnode) : option (option fnode) :=
  match n with Some (Dir _) => Some None | _ => None end.
Definition create_dir (n : option fnode) : option (option fnode) :=
  match n with None => Some (Some (Dir [])) | Some _ => None end.
Definition copy_to (src dst : option fnode) : option (option fnode) :=
  match src with
  | Some (Dir es) => let '(r, ok) := copy_dir_all es dst in if ok then Some r else None
  | _ => None
  end.
Definition rotate_steps : list (db_dirs -> option db_dirs) :=
  let on_old_summary f d := option_map (fun x => MkDirs (d_summary d) x (d_gas d) (d_old_gas d)) (f d) in
  let on_old_gas f d := option_map (fun x => MkDirs (d_summary d) (d_old_summary d) (d_gas d) x) (f d) in
  [on_old_summary (fun d => remove_dir (d_old_summary d));
   on_old_summary (fun d => create_dir (d_old_summary d));
   on_old_gas (fun d => remove_dir (d_old_gas d));
   on_old_gas (fun d => create_dir (d_old_gas d));
   on_old_summary (fun d => copy_to (d_summary d) (d_old_summary d));
   on_old_gas (fun d => copy_to (d_gas d) (d_old_gas d))].
(** The directories after the first [n] steps. *)
Definition rotate_upto (n : nat) (d : db_dirs) : option db_dirs :=
  fold_left (fun o f => match o with Some d => f d | None => None end) (firstn n rotate_steps) (Some d).

(** What can be at the destination while [copy_node src] runs over [dst], tools.rs:18-30.  [fs::copy] truncates or creates the
    file and then writes its contents in order; the entries are copied one after the other. *)
Inductive copying : fnode -> option fnode -> option fnode -> Prop :=
| copying_not_yet : forall src dst, copying src dst dst
| copying_file : forall c dst n, (forall l, dst <> Some (Dir l)) -> copying (File c) dst (Some (File (firstn n c)))
| copying_between : forall before after dst l, copy_node (Dir before) dst = (Some (Dir l), true) ->
    copying (Dir (before ++ after)) dst (Some (Dir l))
| copying_entry : forall before name x after dst l m, copy_node (Dir before) dst = (Some (Dir l), true) ->
    copying x (assoc_get name l) (Some m) -> copying (Dir (before ++ (name, x) :: after)) dst (Some (Dir (assoc_set name m l))).
(** What is at paths below a node: [find name1 then name2 ...]. *)
Fixpoint subnode (path : list bytes) (n : fnode) : option fnode :=
  match path with
  | [] => Some n
  | name :: path =>
      match n with
      | File _ => None
      | Dir es => match assoc_get name es with Some x => subnode path x | None => None end
      end
  end.
(** What can be left while [remove_dir_all] runs over [n]: it deletes files and empty directories in an order of its own, so every file left has
    its contents and every directory left was one.  (Any such remainder is allowed here.) *)
Definition removing (n : fnode) (m : option fnode) : Prop :=
  match m with
  | None => True
  | Some m => forall path x, subnode path m = Some x ->
      match x, subnode path n with
      | File c, Some (File c') => c = c'
      | Dir _, Some (Dir _) => True
      | _, _ => False
      end
  end.
(** The directories at any moment of [rotate_dbs] after the flush. *)
Inductive rotating (d : db_dirs) : db_dirs -> Prop :=
| rotating_between : forall n d', rotate_upto n d = Some d' -> rotating d d'
| rotating_remove_summary : forall n m, d_old_summary d = Some n -> removing n m ->
    rotating d (MkDirs (d_summary d) m (d_gas d) (d_old_gas d))
| rotating_remove_gas : forall d' n m, rotate_upto 2 d = Some d' -> d_old_gas d' = Some n -> removing n m ->
    rotating d (MkDirs (d_summary d') (d_old_summary d') (d_gas d') m)
| rotating_copy_summary : forall d' src m, rotate_upto 4 d = Some d' -> d_summary d' = Some src -> copying src (d_old_summary d') m ->
    rotating d (MkDirs (d_summary d') m (d_gas d') (d_old_gas d'))
| rotating_copy_gas : forall d' src m, rotate_upto 5 d = Some d' -> d_gas d' = Some src -> copying src (d_old_gas d') m ->
    rotating d (MkDirs (d_summary d') (d_old_summary d') (d_gas d') m).
