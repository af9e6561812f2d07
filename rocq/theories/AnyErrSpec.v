(** Notions used in the statements about what lookups and calls report when the databases hold anything.  Definitions only. *)
From Verif Require Import Base Sha256 Tools Transaction Block Sled Chain Tree Spec CanonSpec LedgerSpec NodeSpec AnyDirSpec DamageSpec AnyPanicSpec.

(** [v] is laid out as the main-chain block [b], the side-chain block [b], the transaction [x]. *)
Definition main_laid_out (v : bytes) (b : block) : Prop :=
  block_wf b /\
  match b with
  | TxBlock fee root i txs => exists e rest k e', u256_code e (bi_height i) /\ v = 2 :: root ++ info_layout e i ++ rest /\
      assumed_size (bi_height i) k /\ u256_code e' fee /\ skipn k (e ++ rest) = e' ++ concat txs
  | SummBlock i root => exists e rest, u256_code e (bi_height i) /\ v = 4 :: root ++ info_layout e i ++ rest
  | DerivBlock _ => False
  end.
Definition side_laid_out (v : bytes) (b : block) : Prop :=
  exists h i e rest, b = DerivBlock i /\ info_wf i /\ u256_code e (bi_height i) /\ v = h :: info_layout e i ++ rest.
Definition tx_laid_out (v : bytes) (x : transaction) : Prop :=
  exists d, v = 0 :: d /\ tx_wf x /\ tx_hash x = sha256 (tx_dump x) /\ tx_data x <> Some [] /\ exists e, u256_code e (tx_amount x) /\ tx_layout d e x.

(** What reading the stored value [v] gives: exactly one of three things. *)
Definition read_as {A} (laid_out : bytes -> A -> Prop) (broken : bytes -> Prop) (e : error) (v : option bytes) (r : out (option A)) : Prop :=
  match v with
  | None => r = Ok None
  | Some v => (exists x, laid_out v x /\ r = Ok (Some x)) \/ (broken v /\ r = Panic) \/ ((forall x, ~ laid_out v x) /\ ~ broken v /\ r = Err e)
  end.
Definition read_main := read_as main_laid_out broken_block EChainFindByHeight.
Definition read_side := read_as side_laid_out broken_side EChainFindByHeight.
Definition read_tx := read_as tx_laid_out broken_tx EChainFindByHash.
(** What is stored under a height, under the height a reference stands for. *)
Definition main_value (h : N) (m : main_chain) : option bytes := if h <=? mc_height m then sled_get (to_be 32 h) (mc_blocks m) else None.
Definition side_value (h : N) (c : deriv_chain) : option bytes := if h <=? dc_height c then sled_get (to_be 32 h) (dc_blocks c) else None.
Definition by_reference {A} (ref : option bytes) (read : N -> out (option A) -> Prop) (r : out (option A)) : Prop :=
  match ref with None => r = Ok None | Some k => if Nat.leb (length k) 32 then read (be_val k) r else r = Panic end.

(** The last block is stored but is neither a block nor broken. *)
Definition unreadable_last (m : main_chain) : Prop :=
  mc_height m <> 0 /\ exists v, sled_get (to_be 32 (mc_height m - 1)) (mc_blocks m) = Some v /\ ~ broken_block v /\ forall b, ~ main_laid_out v b.
Definition last_is (m : main_chain) (b : block) : Prop :=
  mc_height m <> 0 /\ exists v, sled_get (to_be 32 (mc_height m - 1)) (mc_blocks m) = Some v /\ main_laid_out v b.
Definition side_unreadable_last (c : deriv_chain) : Prop :=
  dc_height c <> 0 /\ exists v, sled_get (to_be 32 (dc_height c - 1)) (dc_blocks c) = Some v /\ ~ broken_side v /\ forall b, ~ side_laid_out v b.
Definition side_last_is (c : deriv_chain) (b : block) : Prop :=
  dc_height c <> 0 /\ exists v, sled_get (to_be 32 (dc_height c - 1)) (dc_blocks c) = Some v /\ side_laid_out v b.
Definition side_no_last (c : deriv_chain) : Prop := dc_height c = 0 \/ sled_get (to_be 32 (dc_height c - 1)) (dc_blocks c) = None.

(** Opening the side chain of [w] fails. *)
Definition side_refused (w : bytes) (t : bct) (e : error) : Prop :=
  assoc_get w (t_derivs t) = None /\
  ((unreadable_last (t_main t) /\ e = EChainFindByHeight) \/
   (exists b, last_is (t_main t) b) /\ e = EChainInit /\
   exists k cfg, assoc_get (hex_encode w) (t_closed t) = Some k /\ file_cur (dd_cfg k) = Some cfg /\ (length cfg < 96)%nat).

(** The calls that return the error [e]. *)
Definition errors_any (p : profile) (t : bct) (o : op) (e : error) : Prop :=
  match o with
  | OSendTx tx =>
      let s := tx_sender tx in let a := tx_amount tx in
      let gas := gas_for (N.of_nat (length (tx_dump tx)) + (if a =? 0 then 1 else 0)) in
      exists g f, holding (gas_entry s t) g /\ holding (amount_entry s t) f /\
        (g < gas /\ e = ETreeNewTransaction \/
         gas <= g /\ (unreadable_last (t_main t) /\ e = EChainFindByHeight \/
                      exists b, last_is (t_main t) b /\ fee_after b + a < 2 ^ 256 /\ f < fee_after b + a /\ e = ETreeNewTransaction))
  | OEmitMain pow _ txs ts =>
      (unreadable_last (t_main t) /\ e = EChainFindByHeight) \/
      exists b, last_is (t_main t) b /\
        let w := enough_work (block_hash b) (bi_difficulty (get_info b)) (root_of txs) pow in
        let h := bi_height (get_info b) + 1 in
        (w = false /\ e = ETreeWrongPow \/
         w = true /\ ~ retarget_panics p b ts /\ ~ retarget_undefined p b ts /\ h < 2 ^ 256 /\
         (h mod 1000000 = 0 /\ txs <> [] /\ e = ETreeSummarizeWrongTxAmount \/
          h mod 1000000 <> 0 /\ txs = [] /\ e = ETreeCreateMainChainBlock \/
          (h mod 1000000 = 0 <-> txs = []) /\ h <> mc_height (t_main t) /\ e = EChainAddingBlock))
  | OEmitDeriv pow w ts =>
      side_refused w t e \/
      exists c, snd (t_get_derivative_chain w t) = Ok c /\
        ((side_unreadable_last c /\ e = EChainFindByHeight) \/
         (exists b, side_last_is c b /\
            let w := enough_work (block_hash b) (bi_difficulty (get_info b)) (root_of []) pow in
            let h := bi_height (get_info b) + 1 in
            h < 2 ^ 256 /\
            (w = false /\ e = ETreeWrongPow \/
             w = true /\ ~ retarget_panics p b ts /\ ~ retarget_undefined p b ts /\ h <> dc_height c /\ e = EChainAddingBlock)) \/
         (side_no_last c /\
            (mc_find_by_hash (dc_genesis c) (t_main t) = Err e \/
             mc_find_by_hash (dc_genesis c) (t_main t) = Ok None /\ e = EChainFindByHash \/
             exists b, mc_find_by_hash (dc_genesis c) (t_main t) = Ok (Some b) /\
               let w := enough_work (block_hash b) BEGINNING_DIFFICULTY (root_of []) pow in
               (w = false /\ e = ETreeWrongPow \/
                w = true /\ (p = Debug -> bi_timestamp (get_info b) <= ts) /\ dc_height c <> 0 /\ e = EChainAddingBlock))))
  | OGetDeriv w => side_refused w t e
  | OAddNewBlock b _ => bi_height (get_info b) <> mc_height (t_main t) /\ e = EChainAddingBlock
  | ODerivAddBlock w i => exists c, assoc_get w (t_derivs t) = Some c /\ bi_height i <> dc_height c /\ e = EChainAddingBlock
  | _ => False
  end.

(** An emission that closes an epoch although the height after the last block is not the recorded one. *)
Definition closes_epoch_and_fails (t : bct) (o : op) : Prop :=
  match o with
  | OEmitMain _ _ [] _ => exists b, last_is (t_main t) b /\ (bi_height (get_info b) + 1) mod 1000000 = 0 /\ bi_height (get_info b) + 1 <> mc_height (t_main t)
  | _ => False
  end.
(** What such an emission leaves behind once its block is refused: the chains as they were, copies of the accounts as old accounts, and the root account overwritten. *)
Definition closed_without_block (t t' : bct) : Prop :=
  (forall k, sled_get k (mc_blocks (t_main t')) = sled_get k (mc_blocks (t_main t))) /\ (forall k, sled_get k (mc_refs (t_main t')) = sled_get k (mc_refs (t_main t))) /\
  (forall k, sled_get k (mc_txs (t_main t')) = sled_get k (mc_txs (t_main t))) /\ mc_height (t_main t') = mc_height (t_main t) /\ t_derivs t' = t_derivs t /\ t_closed t' = t_closed t /\
  (forall a, a <> ROOT_PUBLIC_ADDRESS -> amount_entry a t' = amount_entry a t) /\ holding (amount_entry ROOT_PUBLIC_ADDRESS t') COINS_PER_CYCLE /\
  (forall a, gas_entry a t' = gas_entry a t) /\
  (forall a, sled_get a (t_old_summary t') = amount_entry a t) /\ (forall a, sled_get a (t_old_gas t') = gas_entry a t).
