(** Model of the storage the repository relies on: crate sled (an ordered map
    from byte strings to byte strings, persisted through a log) and the small
    config file.  External code; modelled by its documented behaviour.
    I/O errors are not modelled.  Model file: definitions only. *)
From Verif Require Import Base.

(** Contents of a database: key-ordered association list, one entry per key. *)
Definition smap := list (bytes * bytes).

Fixpoint sm_get (k : bytes) (m : smap) : option bytes :=
  match m with
  | [] => None
  | (k', v) :: t => if bytes_eqb k k' then Some v else sm_get k t
  end.

Fixpoint sm_insert (k v : bytes) (m : smap) : smap :=
  match m with
  | [] => [(k, v)]
  | (k', v') :: t =>
      match bytes_cmp k k' with
      | Lt => (k, v) :: m
      | Eq => (k, v) :: t
      | Gt => (k', v') :: sm_insert k v t
      end
  end.

Definition apply_batch (m : smap) (b : list (bytes * bytes)) : smap :=
  fold_left (fun m kv => sm_insert (fst kv) (snd kv) m) b m.

(** An open database: what readers see, what is certainly on disk, and the
    atomic write batches issued since the last flush, oldest first. *)
Record sled := MkSled {
  cur : smap;
  dur : smap;
  pend : list (list (bytes * bytes))
}.

Definition sled_empty : sled := MkSled [] [] [].
(** [Db::get], [Db::contains_key] *)
Definition sled_get (k : bytes) (s : sled) : option bytes := sm_get k (cur s).
Definition sled_contains (k : bytes) (s : sled) : bool :=
  match sled_get k s with Some _ => true | None => false end.
(** The commit of a [Db::transaction] closure: all writes at once. *)
Definition sled_commit (b : list (bytes * bytes)) (s : sled) : sled :=
  MkSled (apply_batch (cur s) b) (dur s) (pend s ++ [b]).
(** [Db::insert] *)
Definition sled_insert (k v : bytes) (s : sled) : sled := sled_commit [(k, v)] s.
(** [Db::iter]: ascending key order. *)
Definition sled_iter (s : sled) : smap := cur s.
(** [Db::flush_async] completed; also the effect of dropping the last handle. *)
Definition sled_flush (s : sled) : sled := MkSled (cur s) (cur s) [].
(** Crash: the first [n] unflushed batches survive (sled also writes in the
    background, so any [n] is possible). *)
Definition sled_crash (n : nat) (s : sled) : sled :=
  let m := fold_left apply_batch (firstn n (pend s)) (dur s) in
  MkSled m m [].

(** The config file [Chain.config]: [None] when absent.  [f_pend] holds the
    successive contents produced by writes which may not have reached the disk
    (no fsync; tokio performs the last [write_all] in the background). *)
Record file := MkFile {
  f_dur : option bytes;
  f_pend : list (option bytes)
}.
Definition file_absent : file := MkFile None [].
Definition file_cur (f : file) : option bytes := last (f_pend f) (f_dur f).
(** [OpenOptions::new().write(true).create(true).truncate(true).open(..)] *)
Definition file_truncate (f : file) : file := MkFile (f_dur f) (f_pend f ++ [Some []]).
(** [write_all] at the end of the just truncated file *)
Definition file_append (d : bytes) (f : file) : file :=
  MkFile (f_dur f)
    (f_pend f ++ [Some (match file_cur f with Some c => c | None => [] end ++ d)]).
(** All issued writes reached the disk (time passed, or a clean shutdown). *)
Definition file_settle (f : file) : file := MkFile (file_cur f) [].
(** Crash: the first [n] pending contents were reached. *)
Definition file_crash (n : nat) (f : file) : file :=
  MkFile (last (firstn n (f_pend f)) (f_dur f)) [].
(** [File::open] then [read_exact] of consecutive 32-byte fields. *)
Fixpoint read_fields (n : nat) (c : bytes) : out (list bytes) :=
  match n with
  | O => Ok []
  | S k =>
      if Nat.ltb (length c) 32 then Err EChainInit
      else let! r := read_fields k (skipn 32 c) in Ok (firstn 32 c :: r)
  end.
