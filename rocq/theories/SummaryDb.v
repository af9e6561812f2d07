(** Model of src/summary_db.rs.  [SummaryDB] is not used by the tree itself but is public.
    Database errors are not modelled.  Model file: definitions only. *)
From Verif Require Import Base Tools Sled.

(** [std::str::from_utf8(..).is_ok()] (standard library, RFC 3629). *)
Definition between (lo hi b : N) : bool := (lo <=? b) && (b <=? hi).
Fixpoint utf8_ok (l : bytes) : bool :=
  match l with
  | [] => true
  | b :: l =>
      if b <? 128 then utf8_ok l
      else if between 194 223 b then
        match l with c :: l => between 128 191 c && utf8_ok l | _ => false end
      else if between 224 239 b then
        match l with
        | c :: d :: l =>
            between (if b =? 224 then 160 else 128) (if b =? 237 then 159 else 191) c &&
            between 128 191 d && utf8_ok l
        | _ => false
        end
      else if between 240 244 b then
        match l with
        | c :: d :: e :: l =>
            between (if b =? 240 then 144 else 128) (if b =? 244 then 143 else 191) c &&
            between 128 191 d && between 128 191 e && utf8_ok l
        | _ => false
        end
      else false
  end.

(** The text argument of [attach_printable] is built whether or not there is an error; it
    contains [std::str::from_utf8(addr).unwrap()] in add_funds and, when there is no entry,
    in decrease_funds. *)
Definition printable {A} (addr : bytes) (x : out A) : out A :=
  if utf8_ok addr then x else Panic.

(** summary_db.rs:22-42 [get_funds] *)
Definition sdb_get_funds (addr : bytes) (s : sled) : out N :=
  match sled_get addr s with
  | None => Ok 0
  | Some prev => let! r := change_context (load_biguint prev) ETreeGetFunds in Ok (fst r)
  end.

(** ** The calls step by step: a read, a write, a flush *)
Inductive sdb_call := SAdd (addr : bytes) (funds : N) | SDecrease (addr : bytes) (funds : N).
Inductive sdb_thread :=
| SStart (c : sdb_call)
| SInsert (c : sdb_call) (value : bytes)   (* about to insert *)
| SFlush (c : sdb_call)                    (* about to flush *)
| SDone (c : sdb_call) (r : out unit).

Definition sdb_step (s : sled) (t : sdb_thread) : option (sled * sdb_thread) :=
  match t with
  | SStart (SAdd addr funds as c) =>
      (* summary_db.rs:127-136 and 161-172 *)
      if funds =? 0 then Some (s, SDone c (Ok tt))
      else
        let dump :=
          match sled_get addr s with
          | None => Ok (dump_u256 funds [])
          | Some prev =>
              let! r := change_context (load_u256 prev) ETreeAddFunds in
              let! x := u256_add (fst r) funds in
              Ok (dump_u256 x [])
          end in
        match dump with
        | Ok d => Some (s, SInsert c d)
        | Err e => Some (s, SDone c (Err e))
        | Panic => Some (s, SDone c Panic)
        | UB => Some (s, SDone c UB)
        end
  | SStart (SDecrease addr funds as c) =>
      (* summary_db.rs:62-88 *)
      let dump :=
        match sled_get addr s with
        | None => printable addr (Err ETreeDecreaseFunds)
        | Some prev =>
            let! r := change_context (load_u256 prev) ETreeDecreaseFunds in
            if fst r <? funds then Err ETreeDecreaseFunds
            else let! x := u256_sub (fst r) funds in Ok (dump_u256 x [])
        end in
      match dump with
      | Ok d => Some (s, SInsert c d)
      | Err e => Some (s, SDone c (Err e))
      | Panic => Some (s, SDone c Panic)
      | UB => Some (s, SDone c UB)
      end
  | SInsert (SAdd addr _ as c) d =>
      (* summary_db.rs:138-146, 174-182: the panic comes after the insert *)
      Some (sled_insert addr d s, match printable addr (Ok tt) with Ok _ => SFlush c | r => SDone c r end)
  | SInsert (SDecrease addr _ as c) d =>
      (* summary_db.rs:90-95 *)
      Some (sled_insert addr d s, SFlush c)
  | SFlush c => Some (sled_flush s, SDone c (Ok tt))   (* summary_db.rs:97-105, 148-157, 184-193 *)
  | SDone _ _ => None
  end.

(** A call on its own. *)
Fixpoint sdb_solo (fuel : nat) (s : sled) (t : sdb_thread) : sled * out unit :=
  match t with
  | SDone _ r => (s, r)
  | _ =>
      match fuel with
      | O => (s, UB)
      | S fuel => match sdb_step s t with Some (s, t) => sdb_solo fuel s t | None => (s, UB) end
      end
  end.
Definition sdb_call_alone (c : sdb_call) (s : sled) : sled * out unit := sdb_solo 3 s (SStart c).
(** summary_db.rs:122-205 [add_funds], :57-117 [decrease_funds] *)
Definition sdb_add_funds (addr : bytes) (funds : N) : sled -> sled * out unit := sdb_call_alone (SAdd addr funds).
Definition sdb_decrease_funds (addr : bytes) (funds : N) : sled -> sled * out unit := sdb_call_alone (SDecrease addr funds).
