(** Flushes and restarts as silent events.  Definitions only. *)
From Verif Require Import Base Tools Transaction Block Sled Chain Tree Spec Reach.

(** The calls that only write to disk. *)
Definition flushing (o : op) : bool :=
  match o with OFlush | OMainFlush | ODerivFlush _ => true | _ => false end.

(** Every question a derivative chain answers. *)
Definition same_chain (c c' : deriv_chain) : Prop :=
  dc_get_height c = dc_get_height c' /\ dc_genesis c = dc_genesis c' /\ dc_difficulty c = dc_difficulty c' /\
  (forall h, dc_find_raw_by_height h c = dc_find_raw_by_height h c' /\ dc_find_by_height h c = dc_find_by_height h c') /\
  (forall h, dc_find_raw_by_hash h c = dc_find_raw_by_hash h c' /\ dc_find_by_hash h c = dc_find_by_hash h c') /\
  dc_get_last_raw_block c = dc_get_last_raw_block c' /\ dc_get_last_block c = dc_get_last_block c'.

(** Every question the main chain answers. *)
Definition same_main (m m' : main_chain) : Prop :=
  mc_get_height m = mc_get_height m' /\
  (forall h, mc_find_raw_by_height h m = mc_find_raw_by_height h m' /\ mc_find_by_height h m = mc_find_by_height h m') /\
  (forall h, mc_find_raw_by_hash h m = mc_find_raw_by_hash h m' /\ mc_find_by_hash h m = mc_find_by_hash h m') /\
  mc_get_last_raw_block m = mc_get_last_raw_block m' /\ mc_get_last_block m = mc_get_last_block m' /\
  (forall h, mc_transaction_exists h m = mc_transaction_exists h m' /\
     mc_get_transaction_raw h m = mc_get_transaction_raw h m' /\ mc_get_transaction h m = mc_get_transaction h m').

(** Every question about balances, present and of the previous epoch, and their summary. *)
Definition same_balances (t t' : bct) : Prop :=
  (forall w, t_get_amount w t = t_get_amount w t' /\ t_get_gas w t = t_get_gas w t') /\
  (forall w, led_get w (t_old_summary t) = led_get w (t_old_summary t') /\ led_get w (t_old_gas t) = led_get w (t_old_gas t')) /\
  t_summarize t = t_summarize t'.

(** Equal results; chains given out answer every question alike. *)
Definition same_result (r r' : out result) : Prop :=
  match r, r' with
  | Ok (RChain c), Ok (RChain c') => same_chain c c'
  | _, _ => r = r'
  end.

(** Everything a user can ask a tree. *)
Definition same_answers (t t' : bct) : Prop :=
  same_main (t_main t) (t_main t') /\ same_balances t t' /\
  forall w, match snd (t_get_derivative_chain w t), snd (t_get_derivative_chain w t') with
            | Ok c, Ok c' => same_chain c c'
            | r, r' => r = r'
            end.

(** The results of the calls [ops] made one after the other, those of flushes left out. *)
Fixpoint results (p : profile) (t : bct) (ops : list op) : list (out result) :=
  match ops with
  | [] => []
  | o :: ops =>
      if flushing o then results p (fst (step p t o)) ops
      else snd (step p t o) :: results p (fst (step p t o)) ops
  end.

(** Calls about the main chain and the balances. *)
Definition main_call (o : op) : bool :=
  match o with
  | OFlush | OMainFlush | ODerivFlush _ | OEmitDeriv _ _ _ | OGetDeriv _ | ODerivAddBlock _ _ => false
  | _ => true
  end.

(** [session p n ops rs t]: in a history of [n] calls with clean restarts, none of them while the
    chain consists of the first block only, the main calls were [ops] and returned [rs];
    flushes and derivative calls came in between at will. *)
Inductive session (p : profile) : nat -> list op -> list (out result) -> bct -> Prop :=
| session_open : forall t, t_new disk_empty = Ok t -> session p 0 [] [] t
| session_call : forall n ops rs t o, session p n ops rs t -> op_wf o -> main_call o = true ->
    session p (S n) (ops ++ [o]) (rs ++ [snd (step p t o)]) (fst (step p t o))
| session_other : forall n ops rs t o, session p n ops rs t -> op_wf o -> main_call o = false ->
    session p (S n) ops rs (fst (step p t o))
| session_reopen : forall n ops rs t t', session p n ops rs t -> mc_get_height (t_main t) <> 1 ->
    t_new (t_close (t_flush t)) = Ok t' -> session p n ops rs t'.
