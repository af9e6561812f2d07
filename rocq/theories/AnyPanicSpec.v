(** Notions used in the statements about panics of nodes whose databases hold anything.  Definitions only. *)
From Verif Require Import Base Sha256 Tools Transaction Block Sled Chain Tree Spec LedgerSpec NodeSpec AnyDirSpec DamageSpec.

(** A stored main-chain block that breaks off where the reader does not look first: after the header byte, inside the block header, before the fee or inside it. *)
Definition broken_block (v : bytes) : Prop :=
  exists h rest, v = h :: rest /\
  ((h = 2 /\ (length rest < 32)%nat) \/
   ((h = 2 \/ h = 4 /\ (32 < length rest)%nat) /\ (32 <= length rest)%nat /\ header_cut (skipn 32 rest)) \/
   (h = 2 /\ (32 <= length rest)%nat /\ exists i, info_parse (skipn 32 rest) = Ok i /\
      ((length rest < 32 + info_get_dump_size i)%nat \/ number_cut (skipn (32 + info_get_dump_size i) rest)))).
(** The same for a block of a side chain, of which the first byte is not looked at, and for a transaction. *)
Definition broken_side (v : bytes) : Prop := v = [] \/ header_cut (tl v).
Definition broken_tx (v : bytes) : Prop := exists rest, v = 0 :: rest /\ (138 < length rest)%nat /\ number_cut (skipn 138 rest).

(** [v] is stored under height [h], which the chain looks up. *)
Definition main_at (h : N) (m : main_chain) (v : bytes) : Prop := h <= mc_height m /\ sled_get (to_be 32 h) (mc_blocks m) = Some v.
Definition side_at (h : N) (c : deriv_chain) (v : bytes) : Prop := h <= dc_height c /\ sled_get (to_be 32 h) (dc_blocks c) = Some v.

(** Looking up by height, by hash, the last block. *)
Definition broken_at (h : N) (m : main_chain) : Prop := exists v, main_at h m v /\ broken_block v.
Definition broken_hash (h : bytes) (m : main_chain) : Prop :=
  exists r, sled_get h (mc_refs m) = Some r /\ ((32 < length r)%nat \/ broken_at (be_val r) m).
Definition broken_last (m : main_chain) : Prop := mc_height m = 0 \/ broken_at (mc_height m - 1) m.
Definition side_broken_at (h : N) (c : deriv_chain) : Prop := exists v, side_at h c v /\ broken_side v.
Definition side_broken_hash (h : bytes) (c : deriv_chain) : Prop :=
  exists r, sled_get h (dc_refs c) = Some r /\ ((32 < length r)%nat \/ side_broken_at (be_val r) c).
Definition side_broken_last (c : deriv_chain) : Prop := dc_height c <> 0 /\ side_broken_at (dc_height c - 1) c.
(** There is no last block, or it is broken. *)
Definition no_last (m : main_chain) : Prop := broken_last m \/ sled_get (to_be 32 (mc_height m - 1)) (mc_blocks m) = None.

(** What an entry of the ledger stands for; entries that cannot be increased, decreased. *)
Definition holding (e : option bytes) (x : N) : Prop := match e with None => x = 0 | Some v => reads_as v x end.
Definition damaged_entry (e : option bytes) : Prop := exists v, e = Some v /\ damaged v.
Definition cannot_add (e : option bytes) (a : N) : Prop := damaged_entry e \/ exists x, holding e x /\ 2 ^ 256 <= x + a.
Definition cannot_take (e : option bytes) (a : N) : Prop := damaged_entry e \/ exists x, holding e x /\ x < a.

(** A block that follows [b] at [ts]: the clock of a checked build runs backwards, or the difficulty leaves its array. *)
Definition retarget_panics (p : profile) (b : block) (ts : N) : Prop := p = Debug /\ (ts < bi_timestamp (get_info b) \/ doubles_too_far b ts).
Definition retarget_undefined (p : profile) (b : block) (ts : N) : Prop := p = Release /\ doubles_too_far b ts.

(** The calls that panic. *)
Definition panics_any (p : profile) (t : bct) (o : op) : Prop :=
  match o with
  | OAddAmount w a => cannot_add (amount_entry w t) a
  | OSubAmount w a => cannot_take (amount_entry w t) a
  | OSendAmount x y a => x <> y /\ (cannot_take (amount_entry x t) a \/ cannot_add (amount_entry y t) a)
  | OAddGas w a => cannot_add (gas_entry w t) a
  | OSubGas w a => cannot_take (gas_entry w t) a
  | OSendGas x y a => cannot_take (gas_entry x t) a \/ cannot_add (gas_entry y t) a
  | OSendTx tx =>
      let s := tx_sender tx in let r := tx_receiver tx in let a := tx_amount tx in
      damaged_entry (gas_entry s t) \/ damaged_entry (amount_entry s t) \/
      exists g f, holding (gas_entry s t) g /\ holding (amount_entry s t) f /\
        gas_for (N.of_nat (length (tx_dump tx)) + (if a =? 0 then 1 else 0)) <= g /\
        (no_last (t_main t) \/
         exists b, mc_get_last_block (t_main t) = Ok (Some b) /\
           (2 ^ 256 <= fee_after b + a \/ fee_after b + a <= f /\ s <> r /\ cannot_add (amount_entry r t) a))
  | OEmitMain pow _ txs ts =>
      no_last (t_main t) \/
      exists b, mc_get_last_block (t_main t) = Ok (Some b) /\
        enough_work (block_hash b) (bi_difficulty (get_info b)) (root_of txs) pow = true /\
        (retarget_panics p b ts \/
         ~ retarget_undefined p b ts /\
         (2 ^ 256 <= bi_height (get_info b) + 1 \/
          mc_height (t_main t) = bi_height (get_info b) + 1 /\ 2 ^ 256 <= bi_height (get_info b) + 2 /\
          ((bi_height (get_info b) + 1) mod 1000000 = 0 <-> txs = [])))
  | OEmitDeriv pow w ts =>
      (assoc_get w (t_derivs t) = None /\ no_last (t_main t)) \/
      exists c, snd (t_get_derivative_chain w t) = Ok c /\
        (side_broken_last c \/
         (exists b, dc_get_last_block c = Ok (Some b) /\
            (2 ^ 256 <= bi_height (get_info b) + 1 \/
             enough_work (block_hash b) (bi_difficulty (get_info b)) (root_of []) pow = true /\
             (retarget_panics p b ts \/
              ~ retarget_undefined p b ts /\ dc_height c = bi_height (get_info b) + 1 /\ 2 ^ 256 <= bi_height (get_info b) + 2))) \/
         (dc_get_last_block c = Ok None /\
            (broken_hash (dc_genesis c) (t_main t) \/
             p = Debug /\ exists b, mc_find_by_hash (dc_genesis c) (t_main t) = Ok (Some b) /\
               enough_work (block_hash b) BEGINNING_DIFFICULTY (root_of []) pow = true /\ ts < bi_timestamp (get_info b))))
  | OGetDeriv w => assoc_get w (t_derivs t) = None /\ no_last (t_main t)
  | OAddNewBlock b _ => bi_height (get_info b) = mc_height (t_main t) /\ 2 ^ 256 <= mc_height (t_main t) + 1
  | ODerivAddBlock w i => exists c, assoc_get w (t_derivs t) = Some c /\ bi_height i = dc_height c /\ 2 ^ 256 <= dc_height c + 1
  | OSetAmount _ _ | OAddTxs _ | OFlush | OMainFlush | ODerivFlush _ => False
  end.
