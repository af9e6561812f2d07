(** Notions used in the theorems about handles of a derivative chain.  Definitions only. *)
From Verif Require Import Base Transaction Block Sled Chain Tree Spec Reach Conc ConcFlush Cancel ConcDeriv.

(** Calls started on the chain [ch] of [founder], stepped in the order of [schedule]; [m] is the main chain. *)
Definition deriv_exec (p : profile) (founder : bytes) (m : main_chain) (schedule : list nat) (ch : deriv_chain) (calls : list dcall) : dstate * list dthread :=
  exec (deriv_step p founder m) schedule (MkDs ch false false, map QStart calls).

(** A call as a whole, in the sequential model; emission on the tree [t], whose chain of [founder] is [ch]. *)
Definition with_deriv (t : bct) (founder : bytes) (ch : deriv_chain) : bct := with_derivs t (assoc_set founder ch (t_derivs t)).
Definition dcall_run (p : profile) (founder : bytes) (t : bct) (c : dcall) (ch : deriv_chain) : deriv_chain * out dres :=
  match c with
  | DAdd i => let '(ch', r) := dc_add_block i ch in (ch', let! _ := r in Ok DUnit)
  | DLast => (ch, let! d := dc_get_last_raw_block ch in Ok (DRaw d))
  | DByHeight h => (ch, Ok (DRaw (dc_find_raw_by_height h ch)))
  | DByHash h => (ch, let! d := dc_find_raw_by_hash h ch in Ok (DRaw d))
  | DFlush => (dc_flush ch, Ok DUnit)
  | DEmit w ts =>
      let '(t', r) := t_emmit_new_derivative_block p w founder ts (with_deriv t founder ch) in
      (match assoc_get founder (t_derivs t') with Some ch' => ch' | None => ch end, let! b := r in Ok (DMade b))
  end.

(** Arguments have the sizes their Rust types impose. *)
Definition dcall_wf (c : dcall) : Prop :=
  match c with
  | DAdd i => info_wf i
  | DEmit w ts => is_array 32 w /\ u64_ok ts
  | _ => True
  end.
(** The header of the block that a finished call has added. *)
Definition dadded (th : dthread) : list basic_info :=
  match th with
  | QDone (DAdd i) (Ok _) => [i]
  | QDone (DEmit _ _) (Ok (DMade (DerivBlock i))) => [i]
  | _ => []
  end.
Definition inside_add (th : dthread) : bool := match th with QWrite _ _ | QRef _ _ | QBump _ _ => true | _ => false end.
(** Blocks added one after the other. *)
Definition add_infos (is : list basic_info) (ch : deriv_chain) : deriv_chain := fold_left (fun ch i => fst (dc_add_block i ch)) is ch.
(** The same blocks, references and height for every reader. *)
Definition same_contents (ch ch' : deriv_chain) : Prop :=
  dc_height ch' = dc_height ch /\ cur (dc_blocks ch') = cur (dc_blocks ch) /\ cur (dc_refs ch') = cur (dc_refs ch).

(** Every height below the chain's height holds a block with that height in its header. *)
Definition chain_filled (ch : deriv_chain) : Prop :=
  forall j, j < dc_height ch -> exists i, info_wf i /\ bi_height i = j /\ sled_get (height_key j) (dc_blocks ch) = Some (block_dump (DerivBlock i)).
(** Every reference was made for a block: it maps the block's hash to the height in its header. *)
Definition refs_named (ch : deriv_chain) : Prop :=
  forall h v, sled_get h (dc_refs ch) = Some v -> exists i, info_wf i /\ h = block_hash (DerivBlock i) /\ v = height_key (bi_height i).
(** [P] holds of the shared state at a moment of the run at which call [k] has not returned yet. *)
Definition at_a_moment (p : profile) (founder : bytes) (m : main_chain) (schedule : list nat) (ch : deriv_chain) (calls : list dcall) (k : nat) (P : dstate -> Prop) : Prop :=
  exists before after, schedule = before ++ after /\ P (fst (deriv_exec p founder m before ch calls)) /\
    forall c r, nth_error (snd (deriv_exec p founder m before ch calls)) k <> Some (QDone c r).
Definition takes_lock (c : dcall) : bool := match c with DAdd _ | DLast | DEmit _ _ => true | _ => false end.
