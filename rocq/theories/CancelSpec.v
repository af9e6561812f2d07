(** Histories in which calls are dropped before they return.  Definitions only. *)
From Verif Require Import Base Tools Transaction Block Sled Chain Tree Spec Reach QuietSpec Cancel.

(** A call made, or a call dropped at its await point number [k] (0: nothing done; beyond the last: never polled). *)
Inductive event := Made (o : op) | Dropped (o : op) (k : nat).
Definition drop_at (p : profile) (t : bct) (o : op) (k : nat) : bct := nth k (drop_points p t o) t.
Definition happen (p : profile) (t : bct) (e : event) : bct :=
  match e with Made o => fst (step p t o) | Dropped o k => drop_at p t o k end.
Definition happened (p : profile) (t : bct) (es : list event) : bct := fold_left (happen p) es t.
(** The calls not dropped. *)
Definition made (es : list event) : list op := flat_map (fun e => match e with Made o => [o] | Dropped _ _ => [] end) es.
(** What they returned, flushes left out. *)
Fixpoint event_results (p : profile) (t : bct) (es : list event) : list (out result) :=
  match es with
  | [] => []
  | Made o :: es => (if flushing o then [] else [snd (step p t o)]) ++ event_results p (fst (step p t o)) es
  | Dropped o k :: es => event_results p (drop_at p t o k) es
  end.
Definition event_wf (e : event) : Prop := match e with Made o | Dropped o _ => op_wf o end.
