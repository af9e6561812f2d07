(** Proofs of the statements in P_Validate.v. *)
From Coq Require Import Lia ZifyBool ZifyNat ZifyN.
From Verif Require Import Base Sha256 Merkle Tools Transaction Block Sled Chain Tree Spec Reach Demo.
From Verif Require Import BaseFacts ToolsFacts MerkleFacts DiffFacts CodecFacts SledFacts ChainFacts.

Lemma validate_merkle_tx fee root info txs :
  validate_merkle (TxBlock fee root info txs) = Ok (bytes_eqb root (mroot txs)).
Proof.
  unfold validate_merkle. pose proof (mroot_ok txs) as H.
  destruct (build_tree txs) as [t|e| |]; cbn [bind] in *; try discriminate. rewrite H. reflexivity.
Qed.

Lemma validate_tx_eq p fee root info txs prev :
  validate p (TxBlock fee root info txs) (Some prev) =
  if negb (bytes_eqb (bi_previous_hash info) (block_hash prev)) then Ok false
  else if negb (bytes_eqb root (mroot txs)) then Ok false
  else let! d := recalculate_difficulty p (bi_timestamp (get_info prev)) (bi_timestamp info)
                   (bi_difficulty (get_info prev)) in
       if negb (bytes_eqb (bi_difficulty info) d) then Ok false
       else check_pow root (bi_difficulty (get_info prev)) txs (bi_pow info).
Proof.
  unfold validate. cbn [get_info]. rewrite validate_merkle_tx. cbn [bind get_merkle_root block_transactions].
  reflexivity.
Qed.

(*@T C27: without predecessor every block is accepted *)
Lemma p_C27_validate_none : forall p b, validate p b None = Ok true.
Proof. reflexivity. Qed.

(*@T C27: [verify_block] compares the previous hash and nothing else *)
Lemma p_C27_verify_block : forall b h, verify_block b h = true <-> bi_previous_hash (get_info b) = h.
Proof. intros b h. apply bytes_eqb_eq. Qed.
(*@E
Example C27_verify_block_ex : let b := DerivBlock (MkInfo 0 [] [1; 2] 0 [] []) in verify_block b [1; 2] = true /\ verify_block b [1; 3] = false.
Proof. split; reflexivity. Qed.
@*)

(*@T C27: the exact rule.  The pow check hashes the merkle root twice (not the previous
    hash as emission does). *)
Lemma p_C27_validate_transaction_block : forall p fee root info txs prev,
  bytes_ok (bi_difficulty (get_info prev)) ->
  (validate p (TxBlock fee root info txs) (Some prev) = Ok true <->
   bi_previous_hash info = sha256 (block_dump prev) /\ merkle_root_of txs root /\
   recalculate_difficulty p (bi_timestamp (get_info prev)) (bi_timestamp info)
     (bi_difficulty (get_info prev)) = Ok (bi_difficulty info) /\
   work root (bi_difficulty (get_info prev)) root (bi_pow info)).
Proof.
  intros p fee root info txs prev Hok. rewrite validate_tx_eq, mroot_iff. unfold work.
  rewrite <- !clz_spec by (try exact Hok; apply sha256_array).
  fold (block_hash prev).
  destruct (bytes_eqb (bi_previous_hash info) (block_hash prev)) eqn:E1; cbn [negb].
  2:{ apply bytes_eqb_neq in E1. split; [discriminate|]. intros (H & _). contradiction. }
  apply bytes_eqb_eq in E1. destruct (bytes_eqb root (mroot txs)) eqn:E2; cbn [negb].
  2:{ apply bytes_eqb_neq in E2. split; [discriminate|]. intros (_ & H & _). contradiction. }
  apply bytes_eqb_eq in E2. rewrite check_pow_eq, <- E2.
  destruct (recalculate_difficulty _ _ _ _) as [d|e| |]; cbn [bind].
  2-4: split; [discriminate|intros (_ & _ & H & _); discriminate].
  destruct (bytes_eqb (bi_difficulty info) d) eqn:E3; cbn [negb].
  - apply bytes_eqb_eq in E3 as <-. split.
    + intros H. injection H as H. apply N.leb_le in H. auto.
    + intros (_ & _ & _ & H). f_equal. apply N.leb_le, H.
  - apply bytes_eqb_neq in E3. split; [discriminate|]. intros (_ & _ & H & _). congruence.
Qed.
(*@T C27 for summarize blocks: same rule without the merkle test; the second root is that of the empty list. *)
Lemma p_C27_validate_summarize_block : forall p info root prev,
  bytes_ok (bi_difficulty (get_info prev)) ->
  (validate p (SummBlock info root) (Some prev) = Ok true <->
   bi_previous_hash info = sha256 (block_dump prev) /\
   recalculate_difficulty p (bi_timestamp (get_info prev)) (bi_timestamp info)
     (bi_difficulty (get_info prev)) = Ok (bi_difficulty info) /\
   work root (bi_difficulty (get_info prev)) ff32 (bi_pow info)).
Proof.
  intros p info root prev Hok. unfold validate, work. cbn [get_info validate_merkle bind get_merkle_root block_transactions].
  rewrite <- !clz_spec by (try exact Hok; apply sha256_array).
  fold (block_hash prev).
  destruct (bytes_eqb (bi_previous_hash info) (block_hash prev)) eqn:E1; cbn [negb].
  2:{ apply bytes_eqb_neq in E1. split; [discriminate|]. intros (H & _). contradiction. }
  apply bytes_eqb_eq in E1. rewrite check_pow_eq.
  replace (mroot []) with ff32 by (apply mroot_iff; exists 0%nat; split; [split; [|left]; cbn; lia|reflexivity]).
  destruct (recalculate_difficulty _ _ _ _) as [d|e| |]; cbn [bind].
  2-4: split; [discriminate|intros (_ & H & _); discriminate].
  destruct (bytes_eqb (bi_difficulty info) d) eqn:E3; cbn [negb].
  - apply bytes_eqb_eq in E3 as <-. split.
    + intros H. injection H as H. apply N.leb_le in H. auto.
    + intros (_ & _ & H). f_equal. apply N.leb_le, H.
  - apply bytes_eqb_neq in E3. split; [discriminate|]. intros (_ & H & _). congruence.
Qed.

Lemma reachable_difficulty_domain p d : difficulty_reachable p d -> In d domain.
Proof.
  intros H. induction H as [|d d' a b _ IH E]; [exact beginning_domain|].
  destruct (recalc_domain p a b d IH) as [(d1 & E1 & H1)|(_ & _ & E1)]; rewrite E in E1; [congruence|discriminate].
Qed.

(*@T C27: validation of main-chain blocks terminates with a verdict, except that a
    debug build panics when the block is older than its predecessor. *)
Lemma p_C27_validate_safe : forall p b prev,
  difficulty_reachable p (bi_difficulty (get_info prev)) ->
  match b with DerivBlock _ => False | _ => True end ->
  (exists r, validate p b (Some prev) = Ok r) \/
  (p = Debug /\ bi_timestamp (get_info b) < bi_timestamp (get_info prev) /\ validate p b (Some prev) = Panic).
Proof.
  intros p b prev Hd Hk. apply reachable_difficulty_domain in Hd. unfold validate.
  destruct (negb _); [left; eauto|].
  assert (Hm : exists m, validate_merkle b = Ok m).
  { destruct b; [rewrite validate_merkle_tx; eauto|contradiction|cbn; eauto]. }
  destruct Hm as (m & ->). cbn [bind]. destruct (negb m); [left; eauto|].
  destruct (recalc_domain p (bi_timestamp (get_info prev)) (bi_timestamp (get_info b)) _ Hd) as [(d1 & -> & _)|(Hp & Ht & ->)]; cbn [bind].
  - destruct (negb _); [left; eauto|]. left. destruct b; [|contradiction|]; cbn [get_merkle_root bind]; rewrite check_pow_eq; eauto.
  - right. auto.
Qed.

(*@E
Example C27_ex : bytes_ok (bi_difficulty (get_info (last_of fresh))) /\
  validate Debug (emitted Debug fresh emit_good) (Some (last_of fresh)) = Ok true /\
  validate Debug (emitted Debug fresh emit_bad) (Some (last_of fresh)) = Ok false /\
  validate Debug (last_of fresh) (Some (last_of fresh)) = Ok false /\
  difficulty_reachable Debug (bi_difficulty (get_info (last_of fresh))).
Proof.
  split; [vm_compute; repeat constructor|]. split; [vm_compute; reflexivity|]. split; [vm_compute; reflexivity|].
  split; [vm_compute; reflexivity|].
  replace (bi_difficulty _) with BEGINNING_DIFFICULTY by (vm_compute; reflexivity). constructor.
Qed.
@*)

(*@T C29/C27: a derivative block with a predecessor is never accepted: the verdict is
    "invalid", or the call panics exactly when its other tests pass. *)
Lemma p_C29_derivative_validate : forall p info prev,
  validate p (DerivBlock info) (Some prev) =
  if bytes_eqb (bi_previous_hash info) (sha256 (block_dump prev)) then
    let! d := recalculate_difficulty p (bi_timestamp (get_info prev)) (bi_timestamp info)
                (bi_difficulty (get_info prev)) in
    if bytes_eqb (bi_difficulty info) d then Panic else Ok false
  else Ok false.
Proof.
  intros p info prev. unfold validate. cbn [get_info validate_merkle bind get_merkle_root]. fold (block_hash prev).
  destruct (bytes_eqb (bi_previous_hash info) (block_hash prev)); cbn [negb]; [|reflexivity].
  destruct (recalculate_difficulty _ _ _ _); cbn [bind]; try reflexivity.
  destruct (bytes_eqb _ _); reflexivity.
Qed.

(*@T C30: the verdict does not depend on the height or the fee ... *)
Lemma p_C30_validate_ignores_height_and_fee : forall p fee fee' root info txs h' prev,
  validate p (TxBlock fee root info txs) (Some prev) =
  validate p (TxBlock fee' root (MkInfo (bi_timestamp info) (bi_pow info) (bi_previous_hash info) h'
                                  (bi_difficulty info) (bi_founder info)) txs) (Some prev).
Proof. reflexivity. Qed.
(*@E
Example C30_ex : validate Debug (emitted Debug fresh emit_good) (Some (last_of fresh)) = Ok true /\
  bi_height (get_info (emitted Debug fresh emit_good)) = 1.
Proof. split; vm_compute; reflexivity. Qed.
@*)

(*@T C30: the fee, root and transactions that a block reports are its own; summaries and derivative blocks have no fee and no
    transactions, and derivative blocks panic when asked for a root (block.rs:279-282) *)
Lemma p_C30_reported : forall fee root info txs,
  get_fee (TxBlock fee root info txs) = fee /\ get_fee (SummBlock info root) = 0 /\ get_fee (DerivBlock info) = 0 /\
  get_merkle_root (TxBlock fee root info txs) = Ok root /\ get_merkle_root (SummBlock info root) = Ok root /\
  get_merkle_root (DerivBlock info) = Panic /\
  block_transactions (TxBlock fee root info txs) = Some txs /\ block_transactions (SummBlock info root) = None /\
  block_transactions (DerivBlock info) = None.
Proof. repeat split. Qed.
(*@E
Example C30_reported_ex : let b := emitted Debug fresh emit_good in
  get_fee b = 125000 /\ block_transactions b = Some [txh] /\ get_fee (last_of fresh) = 0.
Proof. vm_compute. repeat split. Qed.
@*)
