(** Notions used in the theorems about SummaryDB with failing operations.  Definitions only. *)
From Verif Require Import Base Tools Sled SummaryDb Io SdbIo Conc ConcSpec.

(** A history: the database at its end and the answers. *)
Fixpoint sdb_history (s : sled) (es : list sdb_event) : sled * list (option (out unit)) :=
  match es with
  | [] => (s, [])
  | e :: es =>
      let '(s1, a) := sdb_happens s e in
      let '(s2, l) := sdb_history s1 es in (s2, a :: l)
  end.
(** The update an event asks for. *)
Definition update_of (e : sdb_event) : option sdb_call :=
  match e with SdCall c _ | SdDropped c _ => Some c | _ => None end.
Definition event_wf (e : sdb_event) : Prop := match update_of e with Some c => sdb_call_wf c | None => True end.
(** No database operation of the event fails. *)
Definition all_fine (e : sdb_event) : Prop :=
  match e with
  | SdCall _ fs | SdDropped _ fs | SdFlush fs => forall f, In f fs -> f = Fine
  | SdKilled _ => True
  end.
(** What an event put on, or took from, the balance of [w], if it [counts]. *)
Definition put_on (w : bytes) (x : bool * sdb_event) : N :=
  match fst x, update_of (snd x) with
  | true, Some (SAdd v a) => if bytes_eqb w v then a else 0
  | _, _ => 0
  end.
Definition taken_from (w : bytes) (x : bool * sdb_event) : N :=
  match fst x, update_of (snd x) with
  | true, Some (SDecrease v a) => if bytes_eqb w v then a else 0
  | _, _ => 0
  end.
(** The last event of a history answered success after writing everything out: a flush, or an update of something. *)
Definition settled (es : list sdb_event) (answers : list (option (out unit))) : Prop :=
  es = [] \/
  exists es1 e l1, es = es1 ++ [e] /\ answers = l1 ++ [Some (Ok tt)] /\
    match e with
    | SdFlush _ | SdCall (SDecrease _ _) _ => True
    | SdCall (SAdd _ a) _ => a <> 0
    | _ => False
    end.
