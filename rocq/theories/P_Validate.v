(** Properties C27, C29, C30: block validation.
    Only theorem statements (closed by [exact]), examples showing that their
    premises are met, and the assumptions of each theorem. *)
From Coq Require Import Lia ZifyBool ZifyNat ZifyN.
From Verif Require Import Base Sha256 Merkle Tools Transaction Block Sled Chain Tree Spec Reach Demo.
From Verif Require Import BaseFacts ToolsFacts MerkleFacts DiffFacts CodecFacts SledFacts ChainFacts.
From Verif Require Import ValidateProps.

(** C27: without predecessor every block is accepted *)
Theorem C27_validate_none : forall p b, validate p b None = Ok true.
Proof. exact p_C27_validate_none. Qed.
Print Assumptions C27_validate_none.

(** C27: [verify_block] compares the previous hash and nothing else *)
Theorem C27_verify_block : forall b h, verify_block b h = true <-> bi_previous_hash (get_info b) = h.
Proof. exact p_C27_verify_block. Qed.
Print Assumptions C27_verify_block.

Example C27_verify_block_ex : let b := DerivBlock (MkInfo 0 [] [1; 2] 0 [] []) in verify_block b [1; 2] = true /\ verify_block b [1; 3] = false.
Proof. split; reflexivity. Qed.

(** C27: the exact rule.  The pow check hashes the merkle root twice (not the previous
    hash as emission does). *)
Theorem C27_validate_transaction_block : forall p fee root info txs prev,
  bytes_ok (bi_difficulty (get_info prev)) ->
  (validate p (TxBlock fee root info txs) (Some prev) = Ok true <->
   bi_previous_hash info = sha256 (block_dump prev) /\ merkle_root_of txs root /\
   recalculate_difficulty p (bi_timestamp (get_info prev)) (bi_timestamp info)
     (bi_difficulty (get_info prev)) = Ok (bi_difficulty info) /\
   work root (bi_difficulty (get_info prev)) root (bi_pow info)).
Proof. exact p_C27_validate_transaction_block. Qed.
Print Assumptions C27_validate_transaction_block.

(** C27 for summarize blocks: same rule without the merkle test; the second root is that of the empty list. *)
Theorem C27_validate_summarize_block : forall p info root prev,
  bytes_ok (bi_difficulty (get_info prev)) ->
  (validate p (SummBlock info root) (Some prev) = Ok true <->
   bi_previous_hash info = sha256 (block_dump prev) /\
   recalculate_difficulty p (bi_timestamp (get_info prev)) (bi_timestamp info)
     (bi_difficulty (get_info prev)) = Ok (bi_difficulty info) /\
   work root (bi_difficulty (get_info prev)) ff32 (bi_pow info)).
Proof. exact p_C27_validate_summarize_block. Qed.
Print Assumptions C27_validate_summarize_block.

(** C27: validation of main-chain blocks terminates with a verdict, except that a
    debug build panics when the block is older than its predecessor. *)
Theorem C27_validate_safe : forall p b prev,
  difficulty_reachable p (bi_difficulty (get_info prev)) ->
  match b with DerivBlock _ => False | _ => True end ->
  (exists r, validate p b (Some prev) = Ok r) \/
  (p = Debug /\ bi_timestamp (get_info b) < bi_timestamp (get_info prev) /\ validate p b (Some prev) = Panic).
Proof. exact p_C27_validate_safe. Qed.
Print Assumptions C27_validate_safe.

Example C27_ex : bytes_ok (bi_difficulty (get_info (last_of fresh))) /\
  validate Debug (emitted Debug fresh emit_good) (Some (last_of fresh)) = Ok true /\
  validate Debug (emitted Debug fresh emit_bad) (Some (last_of fresh)) = Ok false /\
  validate Debug (last_of fresh) (Some (last_of fresh)) = Ok false /\
  difficulty_reachable Debug (bi_difficulty (get_info (last_of fresh))).
Proof.
  split; [vm_compute; repeat constructor|]. split; [vm_compute; reflexivity|]. split; [vm_compute; reflexivity|].
  split; [vm_compute; reflexivity|].
  replace (bi_difficulty _) with BEGINNING_DIFFICULTY by (vm_compute; reflexivity). constructor.
Qed.

(** C29/C27: a derivative block with a predecessor is never accepted: the verdict is
    "invalid", or the call panics exactly when its other tests pass. *)
Theorem C29_derivative_validate : forall p info prev,
  validate p (DerivBlock info) (Some prev) =
  if bytes_eqb (bi_previous_hash info) (sha256 (block_dump prev)) then
    let! d := recalculate_difficulty p (bi_timestamp (get_info prev)) (bi_timestamp info)
                (bi_difficulty (get_info prev)) in
    if bytes_eqb (bi_difficulty info) d then Panic else Ok false
  else Ok false.
Proof. exact p_C29_derivative_validate. Qed.
Print Assumptions C29_derivative_validate.

(** C30: the verdict does not depend on the height or the fee ... *)
Theorem C30_validate_ignores_height_and_fee : forall p fee fee' root info txs h' prev,
  validate p (TxBlock fee root info txs) (Some prev) =
  validate p (TxBlock fee' root (MkInfo (bi_timestamp info) (bi_pow info) (bi_previous_hash info) h'
                                  (bi_difficulty info) (bi_founder info)) txs) (Some prev).
Proof. exact p_C30_validate_ignores_height_and_fee. Qed.
Print Assumptions C30_validate_ignores_height_and_fee.

Example C30_ex : validate Debug (emitted Debug fresh emit_good) (Some (last_of fresh)) = Ok true /\
  bi_height (get_info (emitted Debug fresh emit_good)) = 1.
Proof. split; vm_compute; reflexivity. Qed.

(** C30: the fee, root and transactions that a block reports are its own; summaries and derivative blocks have no fee and no
    transactions, and derivative blocks panic when asked for a root (block.rs:279-282) *)
Theorem C30_reported : forall fee root info txs,
  get_fee (TxBlock fee root info txs) = fee /\ get_fee (SummBlock info root) = 0 /\ get_fee (DerivBlock info) = 0 /\
  get_merkle_root (TxBlock fee root info txs) = Ok root /\ get_merkle_root (SummBlock info root) = Ok root /\
  get_merkle_root (DerivBlock info) = Panic /\
  block_transactions (TxBlock fee root info txs) = Some txs /\ block_transactions (SummBlock info root) = None /\
  block_transactions (DerivBlock info) = None.
Proof. exact p_C30_reported. Qed.
Print Assumptions C30_reported.

Example C30_reported_ex : let b := emitted Debug fresh emit_good in
  get_fee b = 125000 /\ block_transactions b = Some [txh] /\ get_fee (last_of fresh) = 0.
Proof. vm_compute. repeat split. Qed.

