(** Dropping the future of an [async] call at one of its await points.  Rust runs nothing of the call after that
    point; the tree and the handles stay usable.  Awaits occur in the two [flush]es of the chains (chain.rs:148-201,
    527-575), in the tree's [flush] (blockchaintree.rs:516-543) and, through [rotate_dbs] (:545-546), in the emission of a
    summarize block (:457); every other call, the rest of [emmit_new_main_block] and [emmit_new_derivative_block]
    included, runs to its end once polled.
    Simplification: the file or database operation in flight when the future is dropped (tokio and sled run it on
    another thread) is finished, or was never begun, before the next call starts.  No I/O errors.
    Model file: definitions only. *)
From Verif Require Import Base Tools Block Sled Chain Tree ConcFlush ConcEmit.

(** chain.rs:148-201: nothing done, config file truncated (:151-157), height written (:160), difficulty written (:166),
    blocks (:182), references (:188), transactions (:194) flushed. *)
Definition main_flush_points (m : main_chain) : list main_chain :=
  let f1 := file_truncate (mc_cfg m) in
  let f2 := file_append (height_key (mc_height m)) f1 in
  let m1 := mc_dump_config m in
  let m2 := mc_flush_blocks m1 in
  [m; with_cfg f1 m; with_cfg f2 m; m1; m2; mc_flush_refs m2; mc_flush m].

(** chain.rs:527-575: as above, with the genesis hash (:550) and without transactions. *)
Definition deriv_with_cfg (f : file) (c : deriv_chain) : deriv_chain :=
  MkDeriv (dc_blocks c) (dc_refs c) (dc_height c) (dc_genesis c) (dc_difficulty c) f.
Definition deriv_flush_points (c : deriv_chain) : list deriv_chain :=
  let f1 := file_truncate (dc_cfg c) in
  let f2 := file_append (height_key (dc_height c)) f1 in
  let f3 := file_append (dc_difficulty c) f2 in
  let c1 := dc_dump_config c in
  [c; deriv_with_cfg f1 c; deriv_with_cfg f2 c; deriv_with_cfg f3 c; c1;
   MkDeriv (sled_flush (dc_blocks c1)) (dc_refs c1) (dc_height c1) (dc_genesis c1) (dc_difficulty c1) (dc_cfg c1);
   dc_flush c].

(** blockchaintree.rs:516-543: the points of the main chain's flush, then one balance database after the other. *)
Definition tree_flush_points (t : bct) : list bct :=
  let t1 := with_main t (mc_flush (t_main t)) in
  let with_balances s os g := MkTree0 (t_main t1) (t_derivs t) s os g (t_old_gas t) (t_closed t) in
  let s := sled_flush (t_summary t) in
  let os := sled_flush (t_old_summary t) in
  map (with_main t) (main_flush_points (t_main t)) ++
  [with_balances s (t_old_summary t) (t_gas t); with_balances s os (t_gas t); with_balances s os (sled_flush (t_gas t)); t_flush t].

(** The states a call [o] on [t] can be left in.  An emission awaits only when it is about to rotate the databases. *)
Definition drop_points (p : profile) (t : bct) (o : op) : list bct :=
  match o with
  | OFlush => tree_flush_points t
  | OMainFlush => map (with_main t) (main_flush_points (t_main t))
  | ODerivFlush w =>
      match assoc_get w (t_derivs t) with
      | Some c => map (fun c' => with_derivs t (assoc_set w c' (t_derivs t))) (deriv_flush_points c)
      | None => [t]
      end
  | OEmitMain pow founder txs ts =>
      match (let! i := u256_sub (mc_height (t_main t)) 1 in
             emit_block p pow founder txs ts (mc_find_raw_by_height i (t_main t)) t) with
      | Ok (SummBlock _ _) => tree_flush_points t
      | _ => [t]
      end
  | _ => [t]
  end.
