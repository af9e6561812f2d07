(** Property C124: hashes of different kinds of things
    Only theorem statements (closed by [exact]), examples showing that their
    premises are met, and the assumptions of each theorem. *)
From Coq Require Import Lia ZifyBool ZifyNat ZifyN DecimalN DecimalFacts.
From Verif Require Import Base Sha256 Merkle Tools Transaction Block Sled Chain Tree Spec Reach LedgerSpec CrashSpec Io IoSpec LifeSpec DlifeSpec DomainSpec Demo.
From Verif Require Import BaseFacts ToolsFacts MerkleFacts CodecFacts SledFacts ChainFacts TreeFacts LedgerFacts CrashFacts IoFacts MainProps LifeFacts LifeProps DlifeFacts DlifeProps.
From Verif Require Import DomainProps.

(** C124: of the eight kinds of things that are hashed, two share a text exactly if the pair is listed in [confusable]: equal kinds, and what is signed with a transaction, an account
   or a proof of work, and an account with a proof of work. *)
Theorem C124_exactly : forall k k', (exists d, text_of k d /\ text_of k' d) <-> confusable k k' = true.
Proof. exact p_C124_exactly. Qed.
Print Assumptions C124_exactly.

(** C124: things of kinds that share no text have different hashes, unless the two texts are a SHA-256 collision. *)
Theorem C124_hashes_differ : forall k k' d d', text_of k d -> text_of k' d' -> confusable k k' = false -> sha256 d = sha256 d' -> collision d d'.
Proof. exact p_C124_hashes_differ. Qed.
Print Assumptions C124_hashes_differ.

Example C124_ex : map (fun k => map (confusable k) [KNode; KAccount; KWork; KSigned; KTransaction; KTxBlock; KDerivBlock; KSummBlock]) [KNode; KTransaction; KTxBlock] =
  [[true; false; false; false; false; false; false; false]; [false; false; false; true; true; false; false; false]; [false; false; false; false; false; true; false; false]].
Proof. reflexivity. Qed.
Example C124_ex_block : exists d d', text_of KTxBlock d /\ text_of KTransaction d' /\ confusable KTxBlock KTransaction = false.
Proof.
  exists (block_dump (emitted Debug fresh emit_good)), (tx_dump (demo_tx 5 (repeat 9 64))). split; [|split; [|reflexivity]].
  - destruct (emitted Debug fresh emit_good) as [fee root i txs|i|i root] eqn:E; [|vm_compute in E; discriminate E..]. apply text_txblock. rewrite <- E.
    vm_compute. repeat split; repeat constructor.
  - apply text_transaction. vm_compute. repeat split; repeat constructor.
Qed.

(** C124: a transaction's dump is also what another transaction signs exactly if its signature begins with 0, or with a length of at most 32 followed by a byte other than 0: the hash
   of such a transaction is the digest the other one signs. *)
Theorem C124_signed : forall tx a b sig, tx_wf tx -> tx_signature tx = a :: b :: sig ->
  (text_of KSigned (tx_dump tx) <-> a = 0 \/ (a <= 32 /\ b <> 0)).
Proof. exact p_C124_signed. Qed.
Print Assumptions C124_signed.

(** C124: whatever happened to two nodes, a transaction found in one and a block found in the other (in the main chain, in a derivative chain) never have the same hash, unless they are
   a SHA-256 collision; and if the transaction is found under the hash of the block, they are one. *)
Theorem C124_transaction_or_block : forall p q n m hA hB k d i d', life any_faults p (Down disk_empty) n (Up hA) -> life any_faults q (Down disk_empty) m (Up hB) ->
  mc_get_transaction_raw k (t_main (h_tree hA)) = Some d ->
  (mc_find_raw_by_height i (t_main (h_tree hB)) = Some d' \/ exists w c, assoc_get w (t_derivs (h_tree hB)) = Some c /\ dc_find_raw_by_height i c = Some d') ->
  (sha256 d = sha256 d' -> collision d d') /\ (k = sha256 d' -> collision d d').
Proof. exact p_C124_transaction_or_block. Qed.
Print Assumptions C124_transaction_or_block.

(* both are found in one node *)
Example C124_ex_lookups :
  let t := fst (step Debug (fst (step Debug fresh (OAddNewBlock (emitted Debug fresh emit_good) [demo_tx 5 (repeat 9 64)]))) (OEmitDeriv (repeat 4 32) addrA 1597925000)) in
  mc_get_transaction_raw (sha256 (tx_dump (demo_tx 5 (repeat 9 64)))) (t_main t) = Some (tx_dump (demo_tx 5 (repeat 9 64))) /\
  mc_find_raw_by_height 1 (t_main t) = Some (block_dump (emitted Debug fresh emit_good)).
Proof. vm_compute. split; reflexivity. Qed.
(* a transaction whose hash is what another transaction signs, and one whose hash is not *)
Example C124_ex_signed : text_of KSigned (tx_dump (demo_tx 5 (3 :: repeat 7 63))) /\ ~ text_of KSigned (tx_dump (demo_tx 5 (33 :: repeat 7 63))).
Proof.
  assert (W : forall a, a < 256 -> tx_wf (demo_tx 5 (a :: repeat 7 63))).
  { intros a Ha. unfold demo_tx, tx_new_signed, tx_wf. cbn [tx_sender tx_receiver tx_timestamp tx_signature tx_amount tx_data]. repeat split; repeat constructor. exact Ha. }
  split.
  - apply (C124_signed _ 3 7 (repeat 7 62) (W 3 ltac:(reflexivity)) eq_refl). right. split; [vm_compute; discriminate|discriminate].
  - intros H. apply (C124_signed _ 33 7 (repeat 7 62) (W 33 ltac:(reflexivity)) eq_refl) in H. destruct H as [H|[H _]]; [discriminate H|]. apply H. reflexivity.
Qed.

(** C35: the account in the first block, byte by byte: the root address, its coins in decimal digits (5001 and 22 zeros), no gas. *)
Theorem C35_genesis_text : exists root, merkle_root_of [sha256
    ([3; 27; 132; 197; 86; 123; 18; 100; 64; 153; 93; 62; 213; 170; 186; 5; 101; 215; 30; 24; 52; 96; 72; 25; 255; 156; 23; 245; 233; 213; 221; 7; 143] ++
     [124] ++ [53; 48; 48; 49] ++ repeat 48 22 ++ [124; 48])] root /\
  genesis_block = Ok (SummBlock (MkInfo 1597924800 (repeat 0 32) (repeat 0 32) 0 (127 :: repeat 255 31) ROOT_PUBLIC_ADDRESS) root).
Proof. exact p_C35_genesis_text. Qed.
Print Assumptions C35_genesis_text.

(** C35: numbers are printed in decimal: the digits are those of the number, without leading zeros; 0 is printed as one digit. *)
Theorem C35_decimal : forall x,
  decimal_value (u256_to_string x) = x /\ Forall (fun c => 48 <= c <= 57) (u256_to_string x) /\ (x = 0 -> u256_to_string x = [48]) /\ (0 < x -> hd 48 (u256_to_string x) <> 48).
Proof. exact p_C35_decimal. Qed.
Print Assumptions C35_decimal.

Example C35_ex_decimal : u256_to_string 1234567890 = [49; 50; 51; 52; 53; 54; 55; 56; 57; 48] /\ decimal_value [52; 48; 55] = 407.
Proof. split; reflexivity. Qed.

