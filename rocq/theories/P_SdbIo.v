(** Property C118: SummaryDB with failing operations, callers that give up and killed processes.
    Only theorem statements (closed by [exact]), examples showing that their
    premises are met, and the assumptions of each theorem. *)
From Coq Require Import Lia ZifyBool ZifyNat ZifyN.
From Verif Require Import Base Tools Sled Tree Spec LedgerSpec SummaryDb Conc ConcSpec Io SdbIo SdbIoSpec.
From Verif Require Import BaseFacts ToolsFacts SledFacts LedgerFacts SdbProps.
From Verif Require Import SdbIoProps.

(** C118. The accounts of a SummaryDB through any history of updates whose database operations fail at any points, updates whose callers gave
   up, flushes and kills: each update counts wholly or not at all, from the last moment at which everything had been written out
   on, every balance is the balance then, plus what the counting additions put on it, minus what the counting decreases took.
   An update that was answered with success counts, whatever happens later; an update whose operations all worked and which was answered with an
   error does not. *)
Theorem C118_accounts : forall es0 es, Forall event_wf (es0 ++ es) ->
  let '(s0, answers0) := sdb_history sled_empty es0 in let '(s, answers) := sdb_history s0 es in
  settled es0 answers0 ->
  exists counts, length counts = length es /\
  (forall i e, nth_error es i = Some e -> update_of e <> None -> nth_error answers i = Some (Some (Ok tt)) -> nth_error counts i = Some true) /\
  (forall i e er, nth_error es i = Some e -> all_fine e -> nth_error answers i = Some (Some (Err er)) -> nth_error counts i = Some false) /\
  forall w, exists x0 x, sdb_get_funds w s0 = Ok x0 /\ sdb_get_funds w s = Ok x /\ x < 2 ^ 256 /\
    x + total (taken_from w) (combine counts es) = x0 + total (put_on w) (combine counts es).
Proof. exact p_C118_accounts. Qed.
Print Assumptions C118_accounts.

(** An addition is answered with success, the next one is given up before its flush and survives, a kill loses a decrease that reported an error. *)
Example C118_accounts_ex : let w := repeat 97 33 in
  let '(s, answers) := sdb_history sled_empty [SdCall (SAdd w 100) []; SdDropped (SAdd w 7) [Fine; Fine; Fails 0]; SdCall (SDecrease w 30) [Fine; Fine; Fails 0]; SdKilled 1] in
  answers = [Some (Ok tt); None; Some (Err ETreeAddFunds); None] /\ sdb_get_funds w s = Ok 107.
Proof. vm_compute. split; reflexivity. Qed.
Example C118_accounts_ex_settled : let w := repeat 97 33 in
  let '(s, answers) := sdb_history sled_empty [SdDropped (SAdd w 7) [Fine; Fine; Fails 0]; SdFlush []] in
  settled [SdDropped (SAdd w 7) [Fine; Fine; Fails 0]; SdFlush []] answers /\ sdb_get_funds w (sled_crash 0 s) = Ok 7.
Proof. split; [right; exists [SdDropped (SAdd (repeat 97 33) 7) [Fine; Fine; Fails 0]], (SdFlush []), [None]; split; [reflexivity|]; split; [reflexivity|exact I]|vm_compute; reflexivity]. Qed.

(** C118. When all operations work the calls are those of C66. *)
Theorem C118_nothing_fails : forall c s fs, (forall f, In f fs -> f = Fine) ->
  let '(_, s', r) := sdb_call_io c fs s in (s', r) = sdb_call_alone c s.
Proof. exact p_C118_nothing_fails. Qed.
Print Assumptions C118_nothing_fails.

Example C118_nothing_fails_ex : snd (sdb_call_io (SAdd (repeat 97 33) 5) [Fine; Fine] sled_empty) = Ok tt.
Proof. vm_compute. reflexivity. Qed.

(** C118. Panics, and what a read reports, after any history: no call runs into undefined behaviour; a call on a text address panics only when a balance would exceed 256 bits;
   [get_funds] reports the balance when its read works, and otherwise an error, or panics for an address that is not text. *)
Theorem C118_answers : forall es c fs, Forall event_wf es -> sdb_call_wf c ->
  let '(s, _) := sdb_history sled_empty es in
  (let '(_, _, r) := sdb_call_io c fs s in r <> UB /\
   (r = Panic -> match c with SAdd w a => utf8_ok w = true -> exists x, sdb_get_funds w s = Ok x /\ 2 ^ 256 <= x + a
                            | SDecrease w _ => utf8_ok w = false end)) /\
  forall w, exists x, sdb_get_funds w s = Ok x /\
    let '(_, s', r) := sdb_get_funds_io w fs s in s' = s /\
    match next_fault fs with Fine => r = Ok x | Fails _ => r = if utf8_ok w then Err ETreeGetDerivChain else Panic end.
Proof. exact p_C118_answers. Qed.
Print Assumptions C118_answers.

Example C118_answers_ex : let w := repeat 97 33 in let '(s, _) := sdb_history sled_empty [SdCall (SAdd w (2 ^ 256 - 1)) []] in
  snd (sdb_call_io (SAdd w 1) [] s) = Panic /\ snd (sdb_get_funds_io w [Fails 0] s) = Err ETreeGetDerivChain /\ snd (sdb_get_funds_io (repeat 200 33) [Fails 0] s) = Panic.
Proof. vm_compute. repeat split; reflexivity. Qed.

(** C118, errors.  What a call reports when it reports an error: [add_funds] always its own kind; [decrease_funds] its own kind, except that the failure of its
   flush, after everything else went well, is reported as that of an addition; [flush] fails with its operation. *)
Theorem C118_errors : forall c fs s,
  (let '(_, _, r) := sdb_call_io c fs s in forall er, r = Err er ->
   match c with
   | SAdd _ _ => er = ETreeAddFunds
   | SDecrease _ _ => er = if (match fs with Fine :: Fine :: Fails _ :: _ => true | _ => false end) && (match sdb_call_io c [] s with (_, _, Ok _) => true | _ => false end)
                           then ETreeAddFunds else ETreeDecreaseFunds
   end) /\
  (let '(_, _, r) := sdb_flush_io fs s in r = match next_fault fs with Fine => Ok tt | Fails _ => Err EChainDumpConfig end).
Proof. exact p_C118_errors. Qed.
Print Assumptions C118_errors.

Example C118_errors_ex : let w := repeat 97 33 in let s := snd (fst (sdb_call_io (SAdd w 100) [] sled_empty)) in
  snd (sdb_call_io (SDecrease w 30) [Fine; Fine; Fails 0] s) = Err ETreeAddFunds /\ snd (sdb_call_io (SDecrease w 30) [Fine; Fails 1] s) = Err ETreeDecreaseFunds /\
  snd (sdb_call_io (SDecrease w 130) [Fine; Fine; Fails 0] s) = Err ETreeDecreaseFunds /\ snd (sdb_call_io (SAdd w 1) [Fails 0] s) = Err ETreeAddFunds.
Proof. vm_compute. repeat split. Qed.

(** C118 does not make updates safe to repeat: an addition that was given up, or that was answered with an error because its flush failed, has been made all the same, so that making it again
   counts it twice. *)
Theorem C118_repeated_refuted : forall w a n, utf8_ok w = true -> 0 < a -> a + a < 2 ^ 256 ->
  (let '(s, answers) := sdb_history sled_empty [SdDropped (SAdd w a) [Fine; Fine; Fails n]; SdCall (SAdd w a) []] in
   answers = [None; Some (Ok tt)] /\ sdb_get_funds w s = Ok (a + a)) /\
  (let '(s, answers) := sdb_history sled_empty [SdCall (SAdd w a) [Fine; Fine; Fails n]; SdCall (SAdd w a) []] in
   answers = [Some (Err ETreeAddFunds); Some (Ok tt)] /\ sdb_get_funds w s = Ok (a + a)).
Proof. exact p_C118_repeated_refuted. Qed.
Print Assumptions C118_repeated_refuted.

Example C118_repeated_ex : utf8_ok (repeat 97 33) = true /\
  sdb_get_funds (repeat 97 33) (fst (sdb_history sled_empty [SdDropped (SAdd (repeat 97 33) 5) [Fine; Fine; Fails 0]; SdCall (SAdd (repeat 97 33) 5) []])) = Ok 10.
Proof. vm_compute. split; reflexivity. Qed.

