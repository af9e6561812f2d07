(** Notions used in the statements about directories with any contents.  Definitions only. *)
From Verif Require Import Base Tools Transaction Block Sled Chain Tree Spec NodeSpec.

(** Every value in the database is a string of bytes: all that is known of a database the node did not write. *)
Definition byte_values (s : sled) : Prop := forall k v, sled_get k s = Some v -> bytes_ok v.
Definition any_disk (d : disk) : Prop :=
  byte_values (md_blocks (k_main d)) /\ byte_values (md_txs (k_main d)) /\ (forall w k, In (w, k) (k_derivs d) -> byte_values (dd_blocks k)).
Definition any_tree (t : bct) : Prop :=
  byte_values (mc_blocks (t_main t)) /\ byte_values (mc_txs (t_main t)) /\
  (forall w c, In (w, c) (t_derivs t) -> byte_values (dc_blocks c)) /\ (forall w k, In (w, k) (t_closed t) -> byte_values (dd_blocks k)).

(** [t] is what opening [d] gives when its config file says (or, absent, stands for) height [h]. *)
Definition opened_at (h : N) (d : disk) (t : bct) : Prop :=
  let m := t_main t in let k := k_main d in
  mc_height m = (if h =? 0 then 1 else h) /\
  (forall x, sled_get x (mc_blocks m) = if (h =? 0) && bytes_eqb x (repeat 0 32) then Some (block_dump first_block) else sled_get x (md_blocks k)) /\
  (forall x, sled_get x (mc_refs m) = if (h =? 0) && bytes_eqb x (block_hash first_block) then Some (repeat 0 32) else sled_get x (md_refs k)) /\
  mc_txs m = md_txs k /\
  (forall w, (1 < h \/ w <> ROOT_PUBLIC_ADDRESS) -> sled_get w (t_summary t) = sled_get w (k_summary d)) /\
  (h <= 1 -> t_get_amount ROOT_PUBLIC_ADDRESS t = Ok COINS_PER_CYCLE) /\
  t_old_summary t = k_old_summary d /\ t_gas t = k_gas d /\ t_old_gas t = k_old_gas d /\ t_derivs t = [] /\ t_closed t = k_derivs d.

(** [c] is what opening the side chain [k] gives. *)
Definition side_opened (h : N) (genesis : bytes) (k : deriv_disk) (c : deriv_chain) : Prop :=
  dc_height c = h /\ dc_genesis c = genesis /\ dc_blocks c = dd_blocks k /\ dc_refs c = dd_refs k.

(** The next difficulty after [b] for a block with timestamp [ts] is computed by doubling a target that fills its first byte. *)
Definition doubles_too_far (b : block) (ts : N) : Prop :=
  exists s, seconds Release (bi_timestamp (get_info b)) ts = Some s /\ 600 < s /\ hd_error (bi_difficulty (get_info b)) = Some 255.
(** The calls that leave the array of the difficulty in a release build. *)
Definition leaves_array (t : bct) (o : op) : Prop :=
  match o with
  | OEmitMain pow _ txs ts =>
      exists b, mc_get_last_block (t_main t) = Ok (Some b) /\
        enough_work (block_hash b) (bi_difficulty (get_info b)) (root_of txs) pow = true /\ doubles_too_far b ts
  | OEmitDeriv pow w ts =>
      exists c b, snd (t_get_derivative_chain w t) = Ok c /\ dc_get_last_block c = Ok (Some b) /\ bi_height (get_info b) + 1 < 2 ^ 256 /\
        enough_work (block_hash b) (bi_difficulty (get_info b)) (root_of []) pow = true /\ doubles_too_far b ts
  | _ => False
  end.

(** What a lookup may give: nothing, a well-formed value, the errors of the chain, or a panic. *)
Definition safe_lookup {A} (ok : A -> Prop) (r : out (option A)) : Prop :=
  match r with Ok (Some x) => ok x | Ok None => True | Err e => e = EChainFindByHeight \/ e = EChainFindByHash | Panic => True | UB => False end.
