(** The unit tests of the repository, run on the model (tests of the model's fidelity, not proofs of
    properties).  Tests that only print, and calls that do not compile against the pinned commit
    (tests/tools_test.rs calls [check_pow] with three arguments), are left out. *)
From Verif Require Import Base Sha256 Merkle Tools Transaction Block Sled Chain Tree Demo.

(** src/tools.rs:260-281 [dump_load_u256] *)
Example test_dump_load_u256 :
  let n := 10000000000000000000001000000001 in load_u256 (dump_u256 n []) = Ok (n, 13%nat).
Proof. vm_compute. reflexivity. Qed.

(** src/tools.rs:283-350 [recalculate_difficulty_test] *)
Definition ff (n : nat) : bytes := repeat 255 n.
Example test_recalculate_difficulty :
  recalculate_difficulty Debug 10 20 (127 :: ff 31) = Ok (63 :: ff 31) /\
  recalculate_difficulty Debug 10 20 (0 :: ff 31) = Ok (0 :: 127 :: ff 30) /\
  recalculate_difficulty Debug 10 700 (127 :: ff 31) = Ok (127 :: ff 31) /\
  recalculate_difficulty Debug 10 700 (0 :: ff 31) = Ok (1 :: ff 31) /\
  recalculate_difficulty Debug 10 700 (1 :: ff 31) = Ok (3 :: ff 31).
Proof. vm_compute. repeat split. Qed.

(** tests/block_test.rs:6-31 [dump_parse_basic_info] *)
Definition t_info : basic_info :=
  MkInfo 160000 (repeat 0 32) (repeat 5 32) 6378216378216387213672813821736 (repeat 101 32) (repeat 6 33).
Example test_dump_parse_basic_info : info_parse (info_dump t_info []) = Ok t_info.
Proof. vm_compute. reflexivity. Qed.

(** tests/block_test.rs:33-78 [dump_parse_block] *)
Definition t_hashes : list bytes := [repeat 1 32; repeat 2 32; repeat 3 32].
Definition t_block : block := TxBlock 9089878746387246532 (repeat 5 32) t_info t_hashes.
Example test_dump_parse_block : tx_block_parse (tl (block_dump t_block)) = Ok t_block.
Proof. vm_compute. reflexivity. Qed.

(** tests/block_test.rs:80-119 [dump_parse_summarize_block] *)
Example test_dump_parse_summarize_block :
  summ_block_parse (tl (block_dump (SummBlock t_info (repeat 5 32)))) = Ok (SummBlock t_info (repeat 5 32)).
Proof. vm_compute. reflexivity. Qed.

(** tests/block_test.rs:121-156 [validate_block_test] *)
Definition t_info_at (prev : bytes) (h : N) : basic_info :=
  MkInfo 160000 (repeat 0 32) prev h (repeat 101 32) (repeat 6 33).
Definition t_prev : block := TxBlock 9089878746387246532 (repeat 5 32) (t_info_at (repeat 5 32) 1) t_hashes.
Example test_validate_block :
  validate Debug (TxBlock 9089878746387246532 (repeat 5 32) (t_info_at (block_hash t_prev) 2) t_hashes)
    (Some t_prev) = Ok false.
Proof. vm_compute. reflexivity. Qed.

(** tests/block_test.rs:158-199 [dump_parse_derivative_block] *)
Definition t_deriv : basic_info := t_info_at (repeat 0 32) 2.
Example test_dump_parse_derivative_block :
  deriv_block_parse (tl (block_dump (DerivBlock t_deriv))) = Ok (DerivBlock t_deriv).
Proof. vm_compute. reflexivity. Qed.

(** tests/block_test.rs:201-229 [validate_derivative_block] *)
Example test_validate_derivative_block :
  validate Debug (DerivBlock t_deriv) (Some (DerivBlock t_deriv)) = Ok false.
Proof. vm_compute. reflexivity. Qed.

(** tests/transaction_test.rs:5-36 [dump_parse_transaction] *)
Example test_dump_parse_transaction :
  let t := tx_new_signed (repeat 0 33) (repeat 20 33) 100 3627836287 None (repeat 33 64) in
  tx_parse (tl (tx_dump t)) = Ok t.
Proof. vm_compute. reflexivity. Qed.

(** tests/transaction_test.rs:53-71 [sign_verify_transaction], with the toy signature scheme *)
Example test_sign_verify_transaction :
  (let! t := tx_new toy addrA addrA 100 3627836287 (repeat 7 32) (Some [1; 3; 3; 3; 3; 3; 3]) in
   tx_verify toy t) = Ok true.
Proof. vm_compute. reflexivity. Qed.

(** tests/chain_test.rs:9-51 [init_flush_get_block_by_height_chain_test] *)
Definition t_chain_block (h : N) : block :=
  TxBlock 1 (repeat 0 32) (t_info_at (repeat 0 32) h) [repeat 0 32; repeat 1 32].
Example test_chain_block_by_height :
  (let! mc := mc_new (k_main disk_empty) in
   let! mc := mc_new (mc_close (mc_flush mc)) in
   let height := mc_get_height mc in
   let '(mc, r) := mc_add_block (t_chain_block height) mc in
   let! _ := r in
   let height := mc_get_height mc in
   let! b := mc_find_by_height (height - 1) mc in
   Ok (height, b)) = Ok (2, Some (t_chain_block 1)).
Proof. vm_compute. reflexivity. Qed.

(** tests/chain_test.rs:53-82 [init_get_transaction_chain_test] *)
Definition t_chain_tx : transaction :=
  tx_new_signed (repeat 20 33) (repeat 20 33) 100 3627836287 (Some [228; 123]) (repeat 33 64).
Example test_chain_transaction :
  (let! mc := mc_new (k_main disk_empty) in
   mc_get_transaction (sha256 (tx_dump t_chain_tx)) (mc_add_transactions [t_chain_tx] mc)) = Ok (Some t_chain_tx).
Proof. vm_compute. reflexivity. Qed.

(** tests/chain_test.rs:84-150 [init_flush_get_block_by_height_deriv_chain_test] *)
Definition t_genesis : bytes :=
  [57; 26; 43; 126; 188; 137; 234; 205; 234; 97; 128; 221; 242; 186; 198; 206; 3; 25; 250;
   35; 169; 60; 208; 8; 94; 13; 60; 218; 72; 73; 207; 80].
Example test_deriv_chain_block_by_height :
  (let! dc := dc_new deriv_disk_empty t_genesis in
   let! dc := dc_new (dc_close (dc_flush dc)) t_genesis in
   let i := t_info_at (repeat 0 32) 0 in
   let '(dc, r) := dc_add_block i dc in
   let! _ := r in
   let! b := dc_find_by_height 0 dc in
   Ok b) = Ok (Some (DerivBlock (t_info_at (repeat 0 32) 0))).
Proof. vm_compute. reflexivity. Qed.

(** tests/blockchaintree_test.rs:4-26 [test_amounts] *)
Example test_amounts :
  let a := repeat 0 33 in let b := repeat 1 33 in
  let t1 := fst (t_add_amount a 10000000000 fresh) in
  let t2 := fst (t_send_amount a b 100 t1) in
  t_get_amount a t1 = Ok 10000000000 /\ t_get_amount a t2 = Ok (10000000000 - 100) /\ t_get_amount b t2 = Ok 100.
Proof. vm_compute. repeat split. Qed.
