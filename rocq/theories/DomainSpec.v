(** Notions used in the statements about hashes of different kinds of things.  Definitions only. *)
From Verif Require Import Base Sha256 Tools Transaction Block Sled Chain Tree Spec LedgerSpec.

(** What the node computes SHA-256 of. *)
Inductive kind := KNode | KAccount | KWork | KSigned | KTransaction | KTxBlock | KDerivBlock | KSummBlock.

(** [text_of k d]: [d] is hashed as a thing of kind [k] for some values of the types of the code. *)
Inductive text_of : kind -> bytes -> Prop :=
(** a node of a Merkle tree: two children combined into 32 bytes (merkletree.rs:55-75) *)
| text_node d : is_array 32 d -> text_of KNode d
(** an account at the end of an epoch (blockchaintree.rs:336-367); the first block (chain.rs:118-138) writes its account in decimal *)
| text_account w x g : is_array 33 w -> u256_ok x -> match g with Some y => u256_ok y | None => True end -> text_of KAccount (leaf_text w x g)
| text_first : text_of KAccount (ROOT_PUBLIC_ADDRESS ++ [124] ++ u256_to_string COINS_PER_CYCLE ++ [124] ++ [48])
(** proof of work: hash, root, pow (tools.rs:200-217) *)
| text_work h r pow : is_array 32 h -> is_array 32 r -> is_array 32 pow -> text_of KWork (h ++ r ++ pow)
(** what is signed, and what a transaction is known by (transaction.rs:89-134, :166-187) *)
| text_signed tx : tx_wf tx -> text_of KSigned (signed_bytes (tx_sender tx) (tx_receiver tx) (tx_timestamp tx) (tx_amount tx) (tx_data tx))
| text_transaction tx : tx_wf tx -> text_of KTransaction (tx_dump tx)
(** blocks (block.rs:230-234, :276-278, :466-474) *)
| text_txblock fee root i txs : block_wf (TxBlock fee root i txs) -> text_of KTxBlock (block_dump (TxBlock fee root i txs))
| text_derivblock i : block_wf (DerivBlock i) -> text_of KDerivBlock (block_dump (DerivBlock i))
| text_summblock i root : block_wf (SummBlock i root) -> text_of KSummBlock (block_dump (SummBlock i root)).

(** The pairs of kinds that share a text. *)
Definition confusable (k k' : kind) : bool :=
  match k, k' with
  | KNode, KNode | KAccount, KAccount | KWork, KWork | KSigned, KSigned | KTransaction, KTransaction
  | KTxBlock, KTxBlock | KDerivBlock, KDerivBlock | KSummBlock, KSummBlock
  | KSigned, KTransaction | KTransaction, KSigned
  | KSigned, KAccount | KAccount, KSigned
  | KSigned, KWork | KWork, KSigned
  | KAccount, KWork | KWork, KAccount => true
  | _, _ => false
  end.

(** The number written by ASCII decimal digits. *)
Definition decimal_value (l : bytes) : N := fold_left (fun v c => 10 * v + (c - 48)) l 0.
