(** SummaryDB.
    Only theorem statements (closed by [exact]), examples showing that their
    premises are met, and the assumptions of each theorem. *)
From Coq Require Import Lia ZifyBool ZifyNat ZifyN.
From Verif Require Import Base Tools Sled Tree Spec LedgerSpec SummaryDb Conc ConcSpec TextSpec Demo.
From Verif Require Import BaseFacts ToolsFacts SledFacts LedgerFacts.
From Verif Require Import SdbProps.

(** C66. The addresses called text are exactly the UTF-8 encodings of sequences of Unicode scalar values. *)
Theorem C66_text_is_utf8 : forall l, utf8_ok l = true <-> utf8 l.
Proof. exact p_C66_text_is_utf8. Qed.
Print Assumptions C66_text_is_utf8.

Example C66_text_is_utf8_ex : utf8_ok [195; 169; 226; 130; 172; 240; 159; 153; 130] = true /\ utf8_ok [128] = false /\ utf8_ok [237; 160; 128] = false.
Proof. split; [reflexivity|]. split; reflexivity. Qed.

(** C66. After any calls made one after the other every address has a balance; what the next [add_funds] and [decrease_funds] do
   to it, and to every other address, for addresses that are valid UTF-8: add, unless the sum overflows; subtract, or fail
   without effect.
   Missing: addresses that are not UTF-8 text, see below. *)
Theorem C66_text_addresses_partial : forall calls w a, Forall sdb_call_wf calls -> u256_ok a -> utf8_ok w = true ->
  exists f, funds (sdb_after calls) f /\ (forall w, u256_ok (f w)) /\
  (let '(s', r) := sdb_add_funds w a (sdb_after calls) in
   if f w + a <? 2 ^ 256 then r = Ok tt /\ funds s' (upd f w (f w + a)) else r = Panic /\ s' = sdb_after calls) /\
  (let '(s', r) := sdb_decrease_funds w a (sdb_after calls) in
   match r with
   | Ok _ => a <= f w /\ funds s' (upd f w (f w - a))
   | Err e => (f w < a \/ f w = 0) /\ s' = sdb_after calls
   | _ => False
   end).
Proof. exact p_C66_text_addresses_partial. Qed.
Print Assumptions C66_text_addresses_partial.

Definition text_addr : bytes := repeat 97 33.
Example C66_ex : let s := sdb_after [SAdd text_addr 100; SDecrease text_addr 30; SAdd (repeat 98 33) 5; SDecrease text_addr 1000] in
  utf8_ok text_addr = true /\ sdb_get_funds text_addr s = Ok 70 /\ sdb_get_funds (repeat 98 33) s = Ok 5 /\
  snd (sdb_add_funds text_addr 1 s) = Ok tt /\ snd (sdb_decrease_funds text_addr 71 s) = Err ETreeDecreaseFunds.
Proof. vm_compute. repeat split; reflexivity. Qed.

(** C66 fails for every address that is not UTF-8 text, such as most public keys: [add_funds] stores the new balance and then panics while
   building an error text for an error that did not occur; [decrease_funds] on an absent entry panics for the same reason. *)
Theorem C66_binary_addresses_panic_refuted : forall calls w a, Forall sdb_call_wf calls -> u256_ok a -> utf8_ok w = false -> a <> 0 ->
  exists f, funds (sdb_after calls) f /\
  (let '(s', r) := sdb_add_funds w a (sdb_after calls) in
   r = Panic /\ (f w + a < 2 ^ 256 -> funds s' (upd f w (f w + a)))) /\
  (sled_get w (sdb_after calls) = None -> sdb_decrease_funds w a (sdb_after calls) = (sdb_after calls, Panic)).
Proof. exact p_C66_binary_addresses_panic_refuted. Qed.
Print Assumptions C66_binary_addresses_panic_refuted.

(** A compressed public key. *)
Example C66_ex_key : utf8_ok (2 :: repeat 200 32) = false /\
  snd (sdb_add_funds (2 :: repeat 200 32) 7 sled_empty) = Panic /\
  sdb_get_funds (2 :: repeat 200 32) (fst (sdb_add_funds (2 :: repeat 200 32) 7 sled_empty)) = Ok 7.
Proof. vm_compute. repeat split; reflexivity. Qed.

(** C74. When [add_funds] or [decrease_funds] returns success having changed something, no crash loses it: whatever survives, the balances
   are those after the call. *)
Theorem C74_completed_update_is_durable : forall calls c n s', Forall sdb_call_wf calls -> sdb_call_wf c ->
  sdb_call_alone c (sdb_after calls) = (s', Ok tt) -> s' <> sdb_after calls ->
  forall w, sled_get w (sled_crash n s') = sled_get w s'.
Proof. exact p_C74_completed_update_is_durable. Qed.
Print Assumptions C74_completed_update_is_durable.

Example C74_ex : let s' := fst (sdb_call_alone (SAdd text_addr 5) (sdb_after [])) in
  snd (sdb_call_alone (SAdd text_addr 5) (sdb_after [])) = Ok tt /\ s' <> sdb_after [] /\ sled_get text_addr (sled_crash 0 s') = Some [1; 5].
Proof. split; [vm_compute; reflexivity|]. split; [vm_compute; discriminate|vm_compute; reflexivity]. Qed.

(** C63, what holds: when no two calls in progress concern the same address, every schedule gives every finished call the result, and its
   address the balance, as if it had run alone; addresses of no call keep their balance.
   Missing: several calls on one address, where updates are lost, see below. *)
Theorem C63_distinct_addresses_partial : forall s0 calls schedule,
  NoDup (map (fun c => match c with SAdd w _ | SDecrease w _ => w end) calls) ->
  let '(s, ts) := exec sdb_step schedule (s0, map SStart calls) in
  (forall i c r, nth_error ts i = Some (SDone c r) ->
     nth_error calls i = Some c /\ r = snd (sdb_call_alone c s0) /\
     forall w, match c with SAdd v _ | SDecrease v _ => w = v end ->
       sdb_get_funds w s = sdb_get_funds w (fst (sdb_call_alone c s0))) /\
  (forall w, ~ In w (map (fun c => match c with SAdd w _ | SDecrease w _ => w end) calls) -> sdb_get_funds w s = sdb_get_funds w s0).
Proof. exact p_C63_distinct_addresses_partial. Qed.
Print Assumptions C63_distinct_addresses_partial.

Example C63_ex : let st := exec sdb_step [0; 1; 1; 0; 0; 1]%nat (sdb_after [SAdd text_addr 10], map SStart [SAdd text_addr 1; SAdd (repeat 98 33) 2]) in
  snd st = [SDone (SAdd text_addr 1) (Ok tt); SDone (SAdd (repeat 98 33) 2) (Ok tt)] /\ sdb_get_funds text_addr (fst st) = Ok 11.
Proof. vm_compute. split; reflexivity. Qed.

(** C63 fails: [add_funds] and [decrease_funds] read, compute and write back without a lock.  For every text address with a balance, two concurrent
   additions can both succeed and leave only one of them; two concurrent decreases can both succeed although the balance covers one. *)
Theorem C63_lost_updates_refuted : forall w x a b, utf8_ok w = true -> 0 < x -> 0 < a -> 0 < b -> x + a < 2 ^ 256 -> x + b < 2 ^ 256 ->
  let s0 := sdb_after [SAdd w x] in
  sdb_get_funds w s0 = Ok x /\
  (exists schedule s, exec sdb_step schedule (s0, map SStart [SAdd w a; SAdd w b]) = (s, [SDone (SAdd w a) (Ok tt); SDone (SAdd w b) (Ok tt)]) /\
     sdb_get_funds w s = Ok (x + b)) /\
  (exists schedule s, exec sdb_step schedule (s0, map SStart [SDecrease w x; SDecrease w x]) = (s, [SDone (SDecrease w x) (Ok tt); SDone (SDecrease w x) (Ok tt)]) /\
     sdb_get_funds w s = Ok 0).
Proof. exact p_C63_lost_updates_refuted. Qed.
Print Assumptions C63_lost_updates_refuted.

Example C63_ex_lost : let st := exec sdb_step [0; 1; 0; 1; 0; 1]%nat (sdb_after [SAdd text_addr 10], map SStart [SAdd text_addr 1; SAdd text_addr 2]) in
  snd st = [SDone (SAdd text_addr 1) (Ok tt); SDone (SAdd text_addr 2) (Ok tt)] /\ sdb_get_funds text_addr (fst st) = Ok 12.
Proof. vm_compute. split; reflexivity. Qed.

