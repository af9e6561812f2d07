(** Histories of which only the calls that matter for some parts of the node are kept.  Definitions only. *)
From Verif Require Import Base Sha256 Tools Transaction Block Sled Chain Tree Spec Reach LedgerSpec NodeSpec ObsSpec.

(** [Q] is a set of parts.  A call can be kept when everything it can change or depends on is in [Q], and left out when
    nothing it can change is. *)
Definition may_keep (Q : part -> Prop) (o : op) : Prop := forall q, touches o q \/ looks o q -> Q q.
Definition may_drop (Q : part -> Prop) (o : op) : Prop := forall q, touches o q -> ~ Q q.
(** A history with marks: [true] for what is kept.  Restarts are kept; they can give the root account its coins back, depending on the height of the main chain. *)
Definition sliced (Q : part -> Prop) (l : list (bool * event)) : Prop :=
  Forall (fun x : bool * event => let (k, e) := x in match e with
    | Call o => if k then may_keep Q o else may_drop Q o
    | Restart => k = true /\ (Q PBlocks \/ ~ Q (PAmount ROOT_PUBLIC_ADDRESS))
    end) l.
(** What remains of the history, and of its results. *)
Definition remaining (l : list (bool * event)) : list event := map snd (filter fst l).
Fixpoint remaining_results {A} (l : list (bool * event)) (rs : list A) : list A :=
  match l, rs with
  | (_, Restart) :: l, _ => remaining_results l rs
  | (true, Call _) :: l, r :: rs => r :: remaining_results l rs
  | (false, Call _) :: l, r :: rs => remaining_results l rs
  | _, _ => []
  end.

(** No question about the part [q] tells [t] and [t'] apart. *)
Definition alike_part (q : part) (t t' : bct) : Prop :=
  match q with
  | PAmount w => t_get_amount w t = t_get_amount w t'
  | PGas w => t_get_gas w t = t_get_gas w t'
  | PBlocks =>
      mc_get_height (t_main t) = mc_get_height (t_main t') /\
      (forall i, mc_find_by_height i (t_main t) = mc_find_by_height i (t_main t')) /\
      (forall h, mc_find_by_hash h (t_main t) = mc_find_by_hash h (t_main t')) /\
      mc_get_last_block (t_main t) = mc_get_last_block (t_main t') /\
      (forall w, led_get w (t_old_summary t) = led_get w (t_old_summary t') /\ led_get w (t_old_gas t) = led_get w (t_old_gas t'))
  | PTx h => mc_get_transaction_raw h (t_main t) = mc_get_transaction_raw h (t_main t')
  | PSide w => is_array 33 w -> alike_result (let! c := snd (t_get_derivative_chain w t) in Ok (RChain c))
                                             (let! c := snd (t_get_derivative_chain w t') in Ok (RChain c))
  end.
