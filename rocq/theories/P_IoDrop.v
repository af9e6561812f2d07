(** Property C94: a dropped call is a call that failed.
    Only theorem statements (closed by [exact]), examples showing that their
    premises are met, and the assumptions of each theorem. *)
From Coq Require Import Lia ZifyBool ZifyNat ZifyN.
From Verif Require Import Base Sha256 Merkle Tools Transaction Block Sled Chain Tree Spec Reach QuietSpec Conc ConcTree ConcFlush ConcEmit Cancel CancelSpec Io IoSpec Demo.
From Verif Require Import BaseFacts ToolsFacts SledFacts ChainFacts IoFacts IoRetryProps.
From Verif Require Import IoDropProps.

(** C94: a call dropped at any of its await points is a call in which an I/O operation failed: what C97 to C103 and C107 say of failing operations holds of dropped calls. *)
Theorem C94_dropped_is_failed : forall p t o k, exists fs, drop_at p t o k = h_tree (io_after (io_step p o) fs (opened t)).
Proof. exact p_C94_dropped_is_failed. Qed.
Print Assumptions C94_dropped_is_failed.

(* a flush dropped between the references and the transactions *)
Example C94_dropped_ex : let t := run Debug fresh [OAddTxs [demo_tx 7 []]] in
  drop_at Debug t OMainFlush 5%nat = h_tree (io_after (io_step Debug OMainFlush) [Fine; Fine; Fine; Fine; Fails 1] (opened t)) /\ pend (mc_refs (t_main (drop_at Debug t OMainFlush 5%nat))) = [] /\ pend (mc_txs (t_main (drop_at Debug t OMainFlush 5%nat))) <> [].
Proof. split; [vm_compute; reflexivity|split; [vm_compute; reflexivity|vm_compute; discriminate]]. Qed.

