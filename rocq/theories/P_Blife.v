(** Property C110: balances, failing operations, killed processes and failing openings.
    Only theorem statements (closed by [exact]), examples showing that their
    premises are met, and the assumptions of each theorem. *)
From Coq Require Import Lia ZifyBool ZifyNat ZifyN.
From Verif Require Import Base Sha256 Merkle Tools Transaction Block Sled Chain Tree Spec Reach LedgerSpec SupplySpec QuietSpec Conc ConcTree ConcFlush ConcEmit Cancel ConcDeriv CrashSpec Io IoSpec LifeSpec BlifeSpec Demo.
From Verif Require Import BaseFacts ToolsFacts MerkleFacts DiffFacts CodecFacts SledFacts ChainFacts TreeFacts LedgerFacts CrashFacts ConcFacts EmitFacts IoFacts IoSure DcrashProps SupplyProps IoMoneyProps LifeFacts LifeProps BlifeFacts.
From Verif Require Import BlifeProps.

(** C110: whatever fails and whenever the process is killed, every account has an amount and gas that can be read, 256-bit numbers, and every call makes
   each of its changes of a balance as a whole or not at all: it has made all of them when it returns success, and those of a transaction
   are made in order. *)
Theorem C110_balances : forall p n h, life any_faults p (Down disk_empty) n (Up h) -> exists f g, funds (h_tree h) f g /\ (forall w, f w < 2 ^ 256 /\ g w < 2 ^ 256) /\
  forall o fs, op_wf o -> funds_after o (exists r, io_result (io_step p o) fs h = Ok r) f g (h_tree (io_after (io_step p o) fs h)).
Proof. exact p_C110_balances. Qed.
Print Assumptions C110_balances.

(** C110: after a flush in which nothing failed, with the config file on disk, any calls and failures, and a crash: the amounts found by the next process are those
   of one moment since that flush, all of one moment, and so is the gas.  The root account is excepted while the chain consists of the first block only. *)
Theorem C110_balances_of_one_moment : forall p m n k h0 h s h',
  life any_faults p (Down disk_empty) m (Up h0) -> life any_faults p (Up (saved h0)) n (Up h) -> life no_calls p (Down (t_crash s (h_tree h))) k (Up h') ->
  (exists n1 h1 n2, n = (n1 + n2)%nat /\ life any_faults p (Up (saved h0)) n1 (Up h1) /\ life any_faults p (Up h1) n2 (Up h) /\
     forall w, w <> ROOT_PUBLIC_ADDRESS \/ 2 <= mc_get_height (t_main (h_tree h0)) -> t_get_amount w (h_tree h') = t_get_amount w (h_tree h1)) /\
  (exists n1 h1 n2, n = (n1 + n2)%nat /\ life any_faults p (Up (saved h0)) n1 (Up h1) /\ life any_faults p (Up h1) n2 (Up h) /\
     forall w, t_get_gas w (h_tree h') = t_get_gas w (h_tree h1)).
Proof. exact p_C110_balances_of_one_moment. Qed.
Print Assumptions C110_balances_of_one_moment.

(** C110: once the chain has a second block and was flushed, with the config file on disk, calls that are not meant to change the supply leave it as it
   is whatever fails and whenever the process is killed: failures and restarts create and destroy no coins. *)
Theorem C110_supply_partial : forall p m n h0 h a, life any_faults p (Down disk_empty) m (Up h0) -> 2 <= mc_get_height (t_main (h_tree h0)) ->
  life coins_move p (Up (saved h0)) n (Up h) -> supply (h_tree h0) a -> supply (h_tree h) a.
Proof. exact p_C110_supply_partial. Qed.
Print Assumptions C110_supply_partial.

(* a payment, a flush, a payment that is made but fails, a payment, then a crash after which the first of these two is found *)
Example C110_ex :
  let call o fs h := io_after (io_step Debug o) fs h in
  let pay a := OSendAmount ROOT_PUBLIC_ADDRESS addrA a in
  let h0 := call (pay 1000) [] (call emit_good [] (opened fresh)) in
  let h1 := call (pay 20) [Fails 1] (saved h0) in
  let h2 := call (pay 3) [] h1 in
  let h3 := match io_result t_new_io [] (t_crash (svs 0 0 0 0 1 0) (h_tree h2)) with Ok t => opened t | _ => h0 end in
  map (fun h => (mc_get_height (t_main (h_tree h)), t_get_amount addrA (h_tree h), bind (t_get_amount ROOT_PUBLIC_ADDRESS (h_tree h)) (fun x => Ok (COINS_PER_CYCLE - x)))) [h0; h1; h2; h3] =
    [(2, Ok 1000, Ok 1000); (2, Ok 1020, Ok 1020); (2, Ok 1023, Ok 1023); (2, Ok 1020, Ok 1020)].
Proof. vm_compute. reflexivity. Qed.

(** C110 for the supply without a flush is false: a chain of two blocks whose config file did not reach the disk is opened as a chain of one block, and opening it
   gives the root account back what it has paid since. *)
Theorem C110_supply_refuted : exists n h s h', life coins_move Debug (Down disk_empty) n (Up h) /\ mc_get_height (t_main (h_tree h)) = 2 /\
  life no_calls Debug (Down (t_crash s (h_tree h))) 0 (Up h') /\ supply (h_tree h) COINS_PER_CYCLE /\ supply (h_tree h') (COINS_PER_CYCLE + 1000).
Proof. exact p_C110_supply_refuted. Qed.
Print Assumptions C110_supply_refuted.

