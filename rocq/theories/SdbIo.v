(** src/summary_db.rs when database operations fail, callers give up and processes are killed.  Operations fail as in Io.v;
    [attach_printable(..)] builds its text before the result of the operation is looked at, so with an address that is not
    UTF-8 both outcomes of the operation are a panic (see SummaryDb.v).
    Model file: definitions only. *)
From Verif Require Import Base Tools Sled SummaryDb Io.

(** summary_db.rs:22-42 [get_funds] *)
Definition sdb_get_funds_io (addr : bytes) : io sled N :=
  do! r := io_read (printable addr (Err ETreeGetDerivChain)) (sled_get addr) in
  io_out (match r with
          | None => Ok 0
          | Some prev => let! x := change_context (load_biguint prev) ETreeGetFunds in Ok (fst x)
          end).
(** summary_db.rs:44-52 [flush] *)
Definition sdb_flush_io : io sled unit := io_op (Err EChainDumpConfig) (fun s => (sled_flush s, Ok tt)).
(** summary_db.rs:57-117 [decrease_funds] *)
Definition sdb_decrease_io (addr : bytes) (funds : N) : io sled unit :=
  do! r := io_read (printable addr (Err ETreeDecreaseFunds)) (sled_get addr) in
  do! d := io_out (match r with
                   | None => printable addr (Err ETreeDecreaseFunds)
                   | Some prev =>
                       let! x := change_context (load_u256 prev) ETreeDecreaseFunds in
                       if fst x <? funds then Err ETreeDecreaseFunds
                       else let! y := u256_sub (fst x) funds in Ok (dump_u256 y [])
                   end) in
  do! _ := io_op (Err ETreeDecreaseFunds) (fun s => (sled_insert addr d s, Ok tt)) in
  io_op (Err ETreeAddFunds) (fun s => (sled_flush s, Ok tt)).
(** summary_db.rs:122-205 [add_funds] *)
Definition sdb_add_io (addr : bytes) (funds : N) : io sled unit :=
  if funds =? 0 then io_out (Ok tt)
  else
    do! r := io_read (printable addr (Err ETreeAddFunds)) (sled_get addr) in
    do! d := io_out (match r with
                     | None => Ok (dump_u256 funds [])
                     | Some prev =>
                         let! x := change_context (load_u256 prev) ETreeAddFunds in
                         let! y := u256_add (fst x) funds in
                         Ok (dump_u256 y [])
                     end) in
    do! _ := io_op (printable addr (Err ETreeAddFunds)) (fun s => (sled_insert addr d s, printable addr (Ok tt))) in
    io_op (printable addr (Err ETreeAddFunds)) (fun s => (sled_flush s, printable addr (Ok tt))).
Definition sdb_call_io (c : sdb_call) : io sled unit :=
  match c with SAdd addr funds => sdb_add_io addr funds | SDecrease addr funds => sdb_decrease_io addr funds end.

(** What can happen to a database.  A call whose future is dropped has got to its only [await], the flush: what comes before it
    runs when the future is first polled; sled flushes on a thread of its own, whether or not somebody waits for it.
    A process killed during a call is [SdDropped] (or nothing) followed by [SdKilled]. *)
Inductive sdb_event :=
| SdCall (c : sdb_call) (fs : list fault)      (* [fs]: what its database operations do *)
| SdDropped (c : sdb_call) (fs : list fault)   (* the same, but nobody learns its result *)
| SdFlush (fs : list fault)
| SdKilled (n : nat).                          (* killed and opened again *)
(** The database afterwards and the answer, if there is one. *)
Definition sdb_happens (s : sled) (e : sdb_event) : sled * option (out unit) :=
  match e with
  | SdCall c fs => let '(_, s', r) := sdb_call_io c fs s in (s', Some r)
  | SdDropped c fs => let '(_, s', _) := sdb_call_io c fs s in (s', None)
  | SdFlush fs => let '(_, s', r) := sdb_flush_io fs s in (s', Some r)
  | SdKilled n => (sled_crash n s, None)
  end.
