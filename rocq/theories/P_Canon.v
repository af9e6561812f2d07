(** Property C96: byte strings accepted by the parsers.
    Only theorem statements (closed by [exact]), examples showing that their
    premises are met, and the assumptions of each theorem. *)
From Coq Require Import Lia ZifyBool ZifyNat ZifyN.
From Verif Require Import Base Sha256 Tools Transaction Block Spec CanonSpec Demo.
From Verif Require Import BaseFacts ToolsFacts CodecFacts.
From Verif Require Import CanonProps.

(** C96.  A byte string is accepted as a transaction exactly when it is laid out as one, with the amount in some code of at most 32 bytes after the length byte; what is
   read is that transaction, with its hash recomputed. *)
Theorem C96_tx_accepted : forall d t, bytes_ok d ->
  (tx_parse d = Ok t <-> tx_wf t /\ tx_hash t = sha256 (tx_dump t) /\ tx_data t <> Some [] /\ exists e, u256_code e (tx_amount t) /\ tx_layout d e t).
Proof. exact p_C96_tx_accepted. Qed.
Print Assumptions C96_tx_accepted.

(* The amount 300 with a zero in front, and two bytes of data. *)
Example C96_tx_accepted_ex :
  let d := addrA ++ addrB ++ to_be 8 77 ++ repeat 9 64 ++ [3; 0; 1; 44] ++ [8; 9] in
  bytes_ok d /\ tx_parse d = Ok (tx_new_signed addrA addrB 77 300 (Some [8; 9]) (repeat 9 64)).
Proof. split; [repeat constructor|vm_compute; reflexivity]. Qed.

(** C96.  The dump of a transaction is the shortest byte string that is read as it, and the only one of its length; two byte strings of the same length that are
   read as the same transaction are equal. *)
Theorem C96_tx_shortest : forall d t, bytes_ok d -> tx_parse d = Ok t ->
  (length (tx_dump t) <= S (length d))%nat /\ (length (tx_dump t) = S (length d) -> tx_dump t = 0 :: d) /\
  forall d', bytes_ok d' -> tx_parse d' = Ok t -> length d' = length d -> d' = d.
Proof. exact p_C96_tx_shortest. Qed.
Print Assumptions C96_tx_shortest.

Example C96_tx_shortest_ex :
  let t := tx_new_signed addrA addrB 77 300 None (repeat 9 64) in
  let d := addrA ++ addrB ++ to_be 8 77 ++ repeat 9 64 ++ [3; 0; 1; 44] in
  tx_parse d = Ok t /\ length (tx_dump t) = length d /\ tx_parse (tl (tx_dump t)) = Ok t.
Proof. split; [vm_compute; reflexivity|]. split; vm_compute; reflexivity. Qed.

(** C96.  Every transaction has one byte string for each length of its amount field from the shortest one to 32. *)
Theorem C96_tx_encodings : forall t s k, tx_wf t -> tx_hash t = sha256 (tx_dump t) -> tx_data t <> Some [] -> minimal_be (tx_amount t) s -> (length s <= k <= 32)%nat ->
  exists d, bytes_ok d /\ tx_parse d = Ok t /\ nth_error d 138 = Some (N.of_nat k).
Proof. exact p_C96_tx_encodings. Qed.
Print Assumptions C96_tx_encodings.

Example C96_tx_encodings_ex : let t := tx_new_signed addrA addrB 77 300 None (repeat 9 64) in
  tx_hash t = sha256 (tx_dump t) /\ minimal_be (tx_amount t) [1; 44].
Proof. split; [apply tx_new_signed_hash|]. split; [repeat constructor|]. split; [reflexivity|discriminate]. Qed.

(** C96, refuted.  That what is read determines the bytes: there are byte strings that are read as a transaction and are not its dump. *)
Theorem C96_tx_canonical_refuted : ~ (forall d t, bytes_ok d -> tx_parse d = Ok t -> tx_dump t = 0 :: d).
Proof. exact p_C96_tx_canonical_refuted. Qed.
Print Assumptions C96_tx_canonical_refuted.

(** C96.  A byte string is accepted as a derivative block exactly when it starts with a header's layout; whatever comes after it is ignored. *)
Theorem C96_deriv_accepted : forall d b, bytes_ok d ->
  (deriv_block_parse d = Ok b <-> exists i e rest, b = DerivBlock i /\ info_wf i /\ u256_code e (bi_height i) /\ d = info_layout e i ++ rest).
Proof. exact p_C96_deriv_accepted. Qed.
Print Assumptions C96_deriv_accepted.

Example C96_deriv_accepted_ex : let i := MkInfo 5 (repeat 1 32) (repeat 2 32) 9 (repeat 3 32) addrA in
  deriv_block_parse (info_layout [2; 0; 9] i ++ [1; 2; 3]) = Ok (DerivBlock i).
Proof. vm_compute. reflexivity. Qed.

(** C96.  What is accepted as a block of the main chain, exactly.  A summary block: header byte 4, the merkle root and a header's layout; what comes after is
   ignored.  A transaction block: header byte 2, root, a header's layout with the height in some code, and then, counted from where the height's code would end if it were the minimal one
   (two bytes for zero), the code of the fee and the 32-byte hashes of the transactions. *)
Theorem C96_main_accepted : forall d b, bytes_ok d ->
  (deserialize_main_chain_block d = Ok b <->
   block_wf b /\
   match b with
   | TxBlock fee root i txs => exists e rest k e', u256_code e (bi_height i) /\ d = 2 :: root ++ info_layout e i ++ rest /\
       assumed_size (bi_height i) k /\ u256_code e' fee /\ skipn k (e ++ rest) = e' ++ concat txs
   | SummBlock i root => exists e rest, u256_code e (bi_height i) /\ d = 4 :: root ++ info_layout e i ++ rest
   | DerivBlock _ => False
   end).
Proof. exact p_C96_main_accepted. Qed.
Print Assumptions C96_main_accepted.

Example C96_main_accepted_ex : let i := MkInfo 5 (repeat 1 32) (repeat 2 32) 9 (repeat 3 32) addrA in
  deserialize_main_chain_block (4 :: repeat 7 32 ++ info_layout [2; 0; 9] i ++ [1; 2; 3]) = Ok (SummBlock i (repeat 7 32)) /\
  deserialize_main_chain_block (2 :: repeat 7 32 ++ info_layout [1; 9] i ++ [2; 0; 6] ++ repeat 8 32) = Ok (TxBlock 6 (repeat 7 32) i [repeat 8 32]).
Proof. split; vm_compute; reflexivity. Qed.

(** C96.  If the height has its minimal code and is not zero, a transaction block is read as it is laid out: the fee, the transactions and nothing else. *)
Theorem C96_main_minimal : forall root i e rest fee root' i' txs, is_array 32 root -> info_wf i -> bi_height i <> 0 -> u256_minimal e (bi_height i) -> bytes_ok rest ->
  deserialize_main_chain_block (2 :: root ++ info_layout e i ++ rest) = Ok (TxBlock fee root' i' txs) ->
  root' = root /\ i' = i /\ exists e', u256_code e' fee /\ rest = e' ++ concat txs.
Proof. exact p_C96_main_minimal. Qed.
Print Assumptions C96_main_minimal.

Example C96_main_minimal_ex : u256_minimal [1; 9] 9 /\ ~ u256_minimal [2; 0; 9] 9.
Proof.
  split; [exists [9]; split; [reflexivity|]; split; [cbn; lia|]; split; [repeat constructor|]; split; [reflexivity|discriminate]|].
  intros (s & E & _ & _ & _ & H). injection E as _ <-. apply H. reflexivity.
Qed.

(** C96, refuted.  That a transaction block is read as it is laid out, whatever the code of its height: with one zero in front of the height, a block without transactions is read
   as one with another fee and a transaction. *)
Theorem C96_main_layout_refuted : ~ (forall fee root i txs e e' b, block_wf (TxBlock fee root i txs) -> bi_height i <> 0 -> u256_code e (bi_height i) -> u256_code e' fee ->
  deserialize_main_chain_block (2 :: root ++ info_layout e i ++ e' ++ concat txs) = Ok b -> b = TxBlock fee root i txs).
Proof. exact p_C96_main_layout_refuted. Qed.
Print Assumptions C96_main_layout_refuted.

(** C96.  The dump of a block is the shortest byte string that is read as it by the main chain, unless the block is a transaction block at height zero. *)
Theorem C96_main_shortest : forall d b, bytes_ok d -> deserialize_main_chain_block d = Ok b -> (forall fee root i txs, b = TxBlock fee root i txs -> bi_height i <> 0) ->
  (length (block_dump b) <= length d)%nat.
Proof. exact p_C96_main_shortest. Qed.
Print Assumptions C96_main_shortest.

Example C96_main_shortest_ex : let i := MkInfo 5 (repeat 1 32) (repeat 2 32) 9 (repeat 3 32) addrA in
  let d := 2 :: repeat 7 32 ++ info_layout [1; 9] i ++ [2; 0; 6] ++ repeat 8 32 in
  match deserialize_main_chain_block d with Ok b => S (length (block_dump b)) = length d | _ => False end.
Proof. vm_compute. reflexivity. Qed.

