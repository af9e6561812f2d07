(** Model of the example program examples/send_transaction.rs.  As the two miners (Miner.v) it calls [check_pow] with three arguments;
    the model passes the transactions that are then put into the block.  Console output is left out.  Model file: definitions only. *)
From Verif Require Import Base Sha256 Tools Transaction Block Sled Chain Tree Miner.

(** examples/send_transaction.rs:26-28 and :50-52: the balances printed before and after. *)
Definition show_balances (wallet receiver : bytes) (t : bct) : bct * out unit :=
  and_then (t, t_get_amount wallet t) (fun _ t =>
  and_then (t, t_get_gas wallet t) (fun _ t =>
  and_then (t, t_get_amount receiver t) (fun _ t => (t, Ok tt)))).

(** examples/send_transaction.rs:30-47: one transaction of 228 to the root account; its hash. *)
Definition send_228 (E : ecdsa) (key wallet : bytes) (ts : N) (t : bct) : bct * out bytes :=
  and_then (show_balances wallet ROOT_PUBLIC_ADDRESS t) (fun _ t =>
  and_then (t, tx_new E wallet ROOT_PUBLIC_ADDRESS ts 228 key None) (fun tx t =>
  and_then (t_send_transaction tx t) (fun _ t =>
  and_then (show_balances wallet ROOT_PUBLIC_ADDRESS t) (fun _ t => (t, Ok (tx_hash tx)))))).

(** examples/send_transaction.rs:10-101 after the tree was opened; [ts] and [ts'] are the two times read from the clock, [tries] bounds the
    rounds of the search.  The program reads the last block once before the search and the miner of [mine_search] in every round; nothing changes it in
    between.  It stops after the first block, and so does [mine_search]. *)
Definition send_program (tries : nat) (p : profile) (E : ecdsa) (key wallet : bytes) (ts ts' : N) (t : bct) : bct * out bool :=
  and_then (send_228 E key wallet ts t) (fun h t => mine_search tries p wallet h 0 ts' t).

(** examples/mine_derivative.rs:10-84: the chain of the wallet is opened, then the search. *)
Definition mine_deriv_program (tries : nat) (p : profile) (wallet : bytes) (nonce ts : N) (t : bct) : bct * out bool :=
  and_then (t_get_derivative_chain wallet t) (fun _ t => mine_deriv_search tries p wallet nonce ts t).
