(** Hashes of different kinds of things. *)
From Coq Require Import Lia ZifyBool ZifyNat ZifyN DecimalN DecimalFacts.
From Verif Require Import Base Sha256 Merkle Tools Transaction Block Sled Chain Tree Spec Reach LedgerSpec CrashSpec Io IoSpec LifeSpec DlifeSpec DomainSpec Demo.
From Verif Require Import BaseFacts ToolsFacts MerkleFacts CodecFacts SledFacts ChainFacts TreeFacts LedgerFacts CrashFacts IoFacts MainProps LifeFacts LifeProps DlifeFacts DlifeProps.

Local Strategy 1000 [signed_bytes tx_dump block_dump u256_to_string COINS_PER_CYCLE dump_u256].

(** What separates the kinds: the first byte and the length. *)
Definition shape (k : kind) (d : bytes) : Prop :=
  match k with
  | KNode => length d = 32%nat
  | KAccount => (36 <= length d <= 101)%nat
  | KWork => length d = 96%nat
  | KSigned => hd_error d = Some 0 /\ (76 <= length d)%nat
  | KTransaction => hd_error d = Some 0 /\ (140 <= length d)%nat
  | KTxBlock => hd_error d = Some 2 /\ (139 <= length d)%nat
  | KDerivBlock => hd_error d = Some 3 /\ (139 <= length d)%nat
  | KSummBlock => hd_error d = Some 4 /\ (139 <= length d)%nat
  end.

Lemma enc_bounds x : (1 <= length (enc x) <= 33)%nat.
Proof. unfold enc. cbn [length]. pose proof (payload_length x). lia. Qed.

Lemma leaf_text_length w x g : length w = 33%nat -> (36 <= length (leaf_text w x g) <= 101)%nat.
Proof.
  intros H. unfold leaf_text. rewrite !app_length, H, dump_u256_eq. cbn [app]. pose proof (enc_bounds x). change (length [124]) with 1%nat.
  destruct g as [y|]; [rewrite dump_u256_eq; cbn [app]; pose proof (enc_bounds y)|change (length (@nil N)) with 0%nat]; lia.
Qed.

Lemma text_shape k d : text_of k d -> shape k d.
Proof.
  intros H. destruct H as [d H|w x g Hw Hx Hg| |h r pow (H1 & _) (H2 & _) (H3 & _)|tx ((H1 & _) & (H2 & _) & _)|tx ((H1 & _) & (H2 & _) & _ & (H3 & _) & _)|fee root i txs (_ & (Hr & _) & Hi & _)|i Hi|i root (Hi & (Hr & _))]; cbn [shape].
  - apply H.
  - apply leaf_text_length, Hw.
  - rewrite !app_length. vm_compute. lia.
  - rewrite !app_length. lia.
  - rewrite signed_bytes_eq. split; [reflexivity|]. cbn [length]. rewrite !app_length, to_be_length. pose proof (enc_bounds (tx_amount tx)). lia.
  - rewrite tx_dump_eq. split; [reflexivity|]. cbn [length]. rewrite !app_length, to_be_length. pose proof (enc_bounds (tx_amount tx)). lia.
  - rewrite block_dump_eq. split; [reflexivity|]. cbn [length]. rewrite !app_length, (info_enc_length _ Hi). lia.
  - rewrite block_dump_eq. split; [reflexivity|]. cbn [length]. rewrite (info_enc_length _ Hi). pose proof (enc_bounds (bi_height i)). lia.
  - rewrite block_dump_eq. split; [reflexivity|]. cbn [length]. rewrite !app_length, (info_enc_length _ Hi). lia.
Qed.

Lemma text_common k k' d : text_of k d -> text_of k' d -> confusable k k' = true.
Proof.
  intros H H'. apply text_shape in H. apply text_shape in H'.
  destruct k, k'; try reflexivity; exfalso; cbn [shape] in *;
    repeat match goal with H : _ /\ _ |- _ => destruct H end; first [lia|congruence].
Qed.

(** Texts that two kinds share. *)
Lemma zeros_array n : is_array n (repeat 0 n).
Proof. split; [apply repeat_length|]. apply Forall_forall. intros x H. apply repeat_spec in H. subst. unfold byte_ok. lia. Qed.
Definition plain_tx (s r : bytes) (ts a : N) (d : option bytes) : transaction := MkTx s r ts (repeat 0 64) a d [].
Lemma plain_tx_wf s r ts a d : is_array 33 s -> is_array 33 r -> u64_ok ts -> u256_ok a -> match d with Some d => bytes_ok d | None => True end -> tx_wf (plain_tx s r ts a d).
Proof. intros H1 H2 H3 H4 H5. split; [exact H1|]. split; [exact H2|]. split; [exact H3|]. split; [apply (zeros_array 64)|]. split; [exact H4|exact H5]. Qed.
Definition zero_info : basic_info := MkInfo 0 (repeat 0 32) (repeat 0 32) 0 (repeat 0 32) (repeat 0 33).
Lemma zero_info_wf : info_wf zero_info.
Proof. repeat split; try apply (zeros_array 32); try apply (zeros_array 33); unfold u64_ok, u256_ok; cbn; lia. Qed.

Lemma both_signed_transaction : exists d, text_of KSigned d /\ text_of KTransaction d.
Proof.
  exists (tx_dump (plain_tx (repeat 0 33) (repeat 0 33) 0 0 None)). split; [|apply text_transaction, plain_tx_wf; try apply zeros_array; unfold u64_ok, u256_ok; lia || exact Logic.I].
  replace (tx_dump _) with (let tx := plain_tx (repeat 0 33) (repeat 0 33) 0 0 (Some (repeat 0 64)) in signed_bytes (tx_sender tx) (tx_receiver tx) (tx_timestamp tx) (tx_amount tx) (tx_data tx))
    by (vm_compute; reflexivity).
  apply text_signed, plain_tx_wf; try apply zeros_array; unfold u64_ok, u256_ok; lia.
Qed.
Lemma both_signed_work : exists d, text_of KSigned d /\ text_of KWork d.
Proof.
  exists (repeat 0 32 ++ repeat 0 32 ++ repeat 0 32). split; [|apply text_work; apply zeros_array].
  replace (_ ++ _) with (let tx := plain_tx (repeat 0 33) (repeat 0 33) 0 0 (Some (repeat 0 20)) in signed_bytes (tx_sender tx) (tx_receiver tx) (tx_timestamp tx) (tx_amount tx) (tx_data tx))
    by (vm_compute; reflexivity).
  apply text_signed, plain_tx_wf; try apply zeros_array; unfold u64_ok, u256_ok; lia.
Qed.
Lemma both_signed_account : exists d, text_of KSigned d /\ text_of KAccount d.
Proof.
  exists (leaf_text (repeat 0 33) (from_be (repeat 1 32)) (Some (from_be (repeat 1 8)))).
  split; [|apply text_account; [apply zeros_array|vm_compute; reflexivity..]].
  replace (leaf_text _ _ _) with (let tx := plain_tx (repeat 0 32 ++ [124]) (32 :: repeat 1 32) (from_be ([124; 8] ++ repeat 1 6)) 1 None in signed_bytes (tx_sender tx) (tx_receiver tx) (tx_timestamp tx) (tx_amount tx) (tx_data tx))
    by (vm_compute; reflexivity).
  apply text_signed, plain_tx_wf; [split; [reflexivity|repeat constructor]..| | |exact Logic.I]; vm_compute; reflexivity.
Qed.
Lemma both_account_work : exists d, text_of KAccount d /\ text_of KWork d.
Proof.
  exists (leaf_text (repeat 0 33) (from_be (repeat 1 32)) (Some (from_be (repeat 1 27)))).
  split; [apply text_account; [apply zeros_array|vm_compute; reflexivity..]|].
  replace (leaf_text _ _ _) with (repeat 0 32 ++ ([0; 124; 32] ++ repeat 1 29) ++ (repeat 1 3 ++ [124; 27] ++ repeat 1 27)) by (vm_compute; reflexivity).
  apply text_work; split; try reflexivity; repeat constructor.
Qed.

(*@T C124: of the eight kinds of things that are hashed, two share a text exactly if the pair is listed in [confusable]: equal kinds, and what is signed with a transaction, an account
   or a proof of work, and an account with a proof of work. *)
Lemma p_C124_exactly : forall k k', (exists d, text_of k d /\ text_of k' d) <-> confusable k k' = true.
Proof.
  intros k k'. split; [intros (d & H & H'); exact (text_common _ _ _ H H')|].
  assert (T : exists d, text_of KTransaction d) by (destruct both_signed_transaction as (d & _ & H); eauto).
  destruct k, k'; cbn [confusable]; intros E; try discriminate E; clear E;
    first [exact both_signed_transaction|exact both_signed_work|exact both_signed_account|exact both_account_work
          |destruct both_signed_transaction as (d & H1 & H2); exists d; split; assumption|destruct both_signed_work as (d & H1 & H2); exists d; split; assumption
          |destruct both_signed_account as (d & H1 & H2); exists d; split; assumption|destruct both_account_work as (d & H1 & H2); exists d; split; assumption|idtac].
  - exists (repeat 0 32). split; apply text_node, zeros_array.
  - exists (block_dump (TxBlock 0 (repeat 0 32) zero_info [])). split; (apply text_txblock; split; [unfold u256_ok; lia|split; [apply zeros_array|split; [apply zero_info_wf|constructor]]]).
  - exists (block_dump (DerivBlock zero_info)). split; apply text_derivblock, zero_info_wf.
  - exists (block_dump (SummBlock zero_info (repeat 0 32))). split; (apply text_summblock; split; [apply zero_info_wf|apply zeros_array]).
Qed.

(*@T C124: things of kinds that share no text have different hashes, unless the two texts are a SHA-256 collision. *)
Lemma p_C124_hashes_differ : forall k k' d d', text_of k d -> text_of k' d' -> confusable k k' = false -> sha256 d = sha256 d' -> collision d d'.
Proof.
  intros k k' d d' H H' C E. split; [|exact E]. intros ->. rewrite (text_common _ _ _ H H') in C. discriminate C.
Qed.

(*@E
Example C124_ex : map (fun k => map (confusable k) [KNode; KAccount; KWork; KSigned; KTransaction; KTxBlock; KDerivBlock; KSummBlock]) [KNode; KTransaction; KTxBlock] =
  [[true; false; false; false; false; false; false; false]; [false; false; false; true; true; false; false; false]; [false; false; false; false; false; true; false; false]].
Proof. reflexivity. Qed.
Example C124_ex_block : exists d d', text_of KTxBlock d /\ text_of KTransaction d' /\ confusable KTxBlock KTransaction = false.
Proof.
  exists (block_dump (emitted Debug fresh emit_good)), (tx_dump (demo_tx 5 (repeat 9 64))). split; [|split; [|reflexivity]].
  - destruct (emitted Debug fresh emit_good) as [fee root i txs|i|i root] eqn:E; [|vm_compute in E; discriminate E..]. apply text_txblock. rewrite <- E.
    vm_compute. repeat split; repeat constructor.
  - apply text_transaction. vm_compute. repeat split; repeat constructor.
Qed.
@*)

Lemma payload_of l : bytes_ok l -> (length l <= 32)%nat -> hd_error l <> Some 0 -> payload (from_be l) = l.
Proof.
  intros Hb Hl Hh. assert (U := from_be_u256 _ Hb Hl). pose proof (payload_minimal _ U) as M. assert (M' : minimal_be (from_be l) l) by (split; [exact Hb|split; [apply be_val_from_be|exact Hh]]).
  destruct (N.eq_dec (from_be l) 0) as [E|E].
  - destruct l as [|c l]; [reflexivity|]. exfalso. rewrite from_be_cons in E. assert (c <> 0) by (intros ->; apply Hh; reflexivity).
    assert (0 < 256 ^ N.of_nat (length l)) by (apply N.neq_0_lt_0, N.pow_nonzero; lia). nia.
  - apply from_be_inj; [apply M|exact Hb| |apply payload_value, U]. pose proof (minimal_length _ _ M E) as B. pose proof (minimal_length _ _ M' E) as B'.
    assert (K : forall a b x, 256 ^ (N.of_nat b - 1) <= x -> x < 256 ^ N.of_nat a -> (b <= a)%nat).
    { intros a b x X Y. destruct (Nat.le_gt_cases b a) as [Z|Z]; [exact Z|exfalso]. pose proof (N.pow_le_mono_r 256 (N.of_nat a) (N.of_nat b - 1) ltac:(lia) ltac:(lia)). lia. }
    pose proof (K _ _ _ (proj1 B) (proj2 B')). pose proof (K _ _ _ (proj1 B') (proj2 B)). lia.
Qed.

Lemma signed_inv d : text_of KSigned d -> exists tx, tx_wf tx /\ d = signed_bytes (tx_sender tx) (tx_receiver tx) (tx_timestamp tx) (tx_amount tx) (tx_data tx).
Proof. intros H. remember KSigned as k eqn:E. destruct H; try discriminate E. eauto. Qed.

(*@T C124: a transaction's dump is also what another transaction signs exactly if its signature begins with 0, or with a length of at most 32 followed by a byte other than 0: the hash
   of such a transaction is the digest the other one signs. *)
Lemma p_C124_signed : forall tx a b sig, tx_wf tx -> tx_signature tx = a :: b :: sig ->
  (text_of KSigned (tx_dump tx) <-> a = 0 \/ (a <= 32 /\ b <> 0)).
Proof.
  intros tx a b sig ((H1 & H1') & (H2 & H2') & H3 & (H4 & H4') & H5 & H6) Es. rewrite Es in H4, H4'. inversion H4' as [|? ? Ha H4'' E1]. subst. inversion H4'' as [|? ? Hb Hs E1]. subst.
  rewrite tx_dump_eq, Es. split.
  - intros H. apply signed_inv in H as (tx' & ((G1 & G1') & (G2 & G2') & G3 & (G4 & G4') & G5 & G6) & E2). rewrite signed_bytes_eq in E2. apply (f_equal (@tl N)) in E2. cbn [tl] in E2. symmetry in E2.
    apply app_inj_len in E2 as [_ E2]; [|congruence]. apply app_inj_len in E2 as [_ E2]; [|congruence]. apply app_inj_len in E2 as [_ E2]; [|rewrite !to_be_length; reflexivity].
    pose proof (payload_minimal _ G5) as (_ & _ & Hh). pose proof (payload_length (tx_amount tx')) as Hl. unfold enc in E2 at 1. cbn [app] in E2. apply cons_inv in E2 as [<- E2].
    destruct (payload (tx_amount tx')) as [|c l]; [left; reflexivity|right]. cbn [app] in E2. apply cons_inv in E2 as [<- _]. cbn [length] in Hl |- *. split; [lia|]. intros ->. apply Hh. reflexivity.
  - intros C. set (R := b :: sig ++ enc (tx_amount tx) ++ data_or_empty (tx_data tx)).
    assert (HR : bytes_ok R).
    { unfold R. constructor; [exact Hb|]. apply Forall_app. split; [exact Hs|]. apply Forall_app. split; [apply enc_ok|]. destruct (tx_data tx); [exact H6|constructor]. }
    assert (Hlen : (63 <= length R)%nat) by (unfold R; cbn [length] in *; rewrite app_length; lia).
    set (l := firstn (N.to_nat a) R). assert (Hll : length l = N.to_nat a) by (unfold l; rewrite firstn_length; lia).
    assert (Hlo : bytes_ok l) by (apply Forall_forall; intros x Hx; apply (proj1 (Forall_forall _ _) HR); apply firstn_In in Hx || (rewrite <- (firstn_skipn (N.to_nat a) R); apply in_or_app; left; exact Hx); assumption).
    assert (Hp : payload (from_be l) = l).
    { apply payload_of; [exact Hlo|lia|]. unfold l, R. destruct C as [->|[_ C]]; [discriminate|]. destruct (N.to_nat a); [discriminate|]. cbn [firstn hd_error]. congruence. }
    replace (0 :: _) with (let u := plain_tx (tx_sender tx) (tx_receiver tx) (tx_timestamp tx) (from_be l) (Some (skipn (N.to_nat a) R)) in
      signed_bytes (tx_sender u) (tx_receiver u) (tx_timestamp u) (tx_amount u) (tx_data u)).
    + apply text_signed, plain_tx_wf; [split; assumption|split; assumption|assumption|apply from_be_u256; [exact Hlo|lia]|].
      apply Forall_forall. intros x Hx. apply (proj1 (Forall_forall _ _) HR). rewrite <- (firstn_skipn (N.to_nat a) R). apply in_or_app. right. exact Hx.
    + cbv zeta. rewrite signed_bytes_eq. unfold plain_tx. cbn [tx_sender tx_receiver tx_timestamp tx_amount tx_data data_or_empty]. do 4 f_equal.
      unfold enc at 1. rewrite Hp, Hll, Nnat.N2Nat.id. cbn [app]. f_equal. unfold l. rewrite firstn_skipn. reflexivity.
Qed.

(** ** Lookups *)
Definition txs_dumped (x : smap) : Prop := forall k v, sm_get k x = Some v -> sha256 v = k /\ hd_error v = Some 0.
Lemma txs_dumped_insert tx x : txs_dumped x -> txs_dumped (sm_insert (sha256 (tx_dump tx)) (tx_dump tx) x).
Proof.
  intros H k v. rewrite sm_get_insert. destruct (bytes_eqb k _) eqn:Ek; [|apply H]. intros X. injection X as <-. apply bytes_eqb_eq in Ek as ->.
  split; [reflexivity|rewrite tx_dump_eq; reflexivity].
Qed.
Lemma life_dumped ok p n h : life ok p (Down disk_empty) n (Up h) -> keeps entries txs_dumped 0 (t_main (h_tree h)).
Proof.
  intros L. apply (kp_life entries txs_dumped 0) in L; [exact L|auto| | |apply txs_dumped_insert|].
  - intros x i b Hx Hi. apply entries_insert; [exact Hx|lia].
  - intros _. apply entries_genesis.
  - split; cbn [k_main disk_empty md_blocks md_txs md_cfg]; [apply alw_flat; intros ? ? X; discriminate X..|split; [reflexivity|constructor]].
Qed.

(*@T C124: whatever happened to two nodes, a transaction found in one and a block found in the other (in the main chain, in a derivative chain) never have the same hash, unless they are
   a SHA-256 collision; and if the transaction is found under the hash of the block, they are one. *)
Lemma p_C124_transaction_or_block : forall p q n m hA hB k d i d', life any_faults p (Down disk_empty) n (Up hA) -> life any_faults q (Down disk_empty) m (Up hB) ->
  mc_get_transaction_raw k (t_main (h_tree hA)) = Some d ->
  (mc_find_raw_by_height i (t_main (h_tree hB)) = Some d' \/ exists w c, assoc_get w (t_derivs (h_tree hB)) = Some c /\ dc_find_raw_by_height i c = Some d') ->
  (sha256 d = sha256 d' -> collision d d') /\ (k = sha256 d' -> collision d d').
Proof.
  intros p q n m hA hB k d i d' HA HB E F. pose proof (life_dumped _ _ _ _ HA) as KA. destruct (alw_cur _ _ (kp_txs _ _ _ _ KA) _ _ E) as [Ek E0].
  assert (Hne : d <> d').
  { intros <-. destruct F as [F|(w & c & Hc & F)].
    - destruct (p_C107_nothing_else_is_found _ _ _ HB) as [_ G]. destruct (G _ _ F) as (b & _ & _ & -> & _). rewrite block_dump_eq in E0. destruct b; discriminate E0.
    - destruct (p_C109_nothing_else_is_found _ _ _ _ _ HB Hc) as [_ G]. destruct (G _ _ F) as (x & _ & _ & -> & _). rewrite block_dump_eq in E0. discriminate E0. }
  split; intros X; (split; [exact Hne|congruence]).
Qed.

(*@E
(* both are found in one node *)
Example C124_ex_lookups :
  let t := fst (step Debug (fst (step Debug fresh (OAddNewBlock (emitted Debug fresh emit_good) [demo_tx 5 (repeat 9 64)]))) (OEmitDeriv (repeat 4 32) addrA 1597925000)) in
  mc_get_transaction_raw (sha256 (tx_dump (demo_tx 5 (repeat 9 64)))) (t_main t) = Some (tx_dump (demo_tx 5 (repeat 9 64))) /\
  mc_find_raw_by_height 1 (t_main t) = Some (block_dump (emitted Debug fresh emit_good)).
Proof. vm_compute. split; reflexivity. Qed.
(* a transaction whose hash is what another transaction signs, and one whose hash is not *)
Example C124_ex_signed : text_of KSigned (tx_dump (demo_tx 5 (3 :: repeat 7 63))) /\ ~ text_of KSigned (tx_dump (demo_tx 5 (33 :: repeat 7 63))).
Proof.
  assert (W : forall a, a < 256 -> tx_wf (demo_tx 5 (a :: repeat 7 63))).
  { intros a Ha. unfold demo_tx, tx_new_signed, tx_wf. cbn [tx_sender tx_receiver tx_timestamp tx_signature tx_amount tx_data]. repeat split; repeat constructor. exact Ha. }
  split.
  - apply (C124_signed _ 3 7 (repeat 7 62) (W 3 ltac:(reflexivity)) eq_refl). right. split; [vm_compute; discriminate|discriminate].
  - intros H. apply (C124_signed _ 33 7 (repeat 7 62) (W 33 ltac:(reflexivity)) eq_refl) in H. destruct H as [H|[H _]]; [discriminate H|]. apply H. reflexivity.
Qed.
@*)

(*@T C35: the account in the first block, byte by byte: the root address, its coins in decimal digits (5001 and 22 zeros), no gas. *)
Lemma p_C35_genesis_text : exists root, merkle_root_of [sha256
    ([3; 27; 132; 197; 86; 123; 18; 100; 64; 153; 93; 62; 213; 170; 186; 5; 101; 215; 30; 24; 52; 96; 72; 25; 255; 156; 23; 245; 233; 213; 221; 7; 143] ++
     [124] ++ [53; 48; 48; 49] ++ repeat 48 22 ++ [124; 48])] root /\
  genesis_block = Ok (SummBlock (MkInfo 1597924800 (repeat 0 32) (repeat 0 32) 0 (127 :: repeat 255 31) ROOT_PUBLIC_ADDRESS) root).
Proof.
  destruct p_C35_genesis as (root & _ & H1 & H2). exists root. split; [|exact H2].
  match type of H1 with merkle_root_of [sha256 ?a] _ => match goal with |- merkle_root_of [sha256 ?b] _ => replace b with a; [exact H1|vm_compute; reflexivity] end end.
Qed.

Lemma of_uint_acc_ascii d : forall acc, fold_left (fun v c => 10 * v + (c - 48)) (uint_ascii d) (N.pos acc) = N.pos (Pos.of_uint_acc d acc).
Proof. induction d; intros acc; cbn [uint_ascii fold_left Pos.of_uint_acc]; try reflexivity; rewrite <- IHd; f_equal; lia. Qed.
Lemma of_uint_ascii d : decimal_value (uint_ascii d) = Pos.of_uint d.
Proof. unfold decimal_value. induction d; cbn [uint_ascii fold_left Pos.of_uint]; try reflexivity; try exact IHd; apply of_uint_acc_ascii. Qed.
(*@T C35: numbers are printed in decimal: the digits are those of the number, without leading zeros; 0 is printed as one digit. *)
Lemma p_C35_decimal : forall x,
  decimal_value (u256_to_string x) = x /\ Forall (fun c => 48 <= c <= 57) (u256_to_string x) /\ (x = 0 -> u256_to_string x = [48]) /\ (0 < x -> hd 48 (u256_to_string x) <> 48).
Proof.
  intros x. unfold u256_to_string. split; [|split; [|split]].
  - rewrite of_uint_ascii. apply (DecimalN.Unsigned.of_to x).
  - induction (N.to_uint x); cbn [uint_ascii]; constructor; auto; lia.
  - intros ->. reflexivity.
  - intros H E. pose proof (DecimalN.Unsigned.to_of (N.to_uint x)) as U. rewrite DecimalN.Unsigned.of_to in U.
    pose proof (DecimalN.Unsigned.of_to x) as V. unfold Decimal.unorm in U.
    destruct (N.to_uint x) as [|d|d|d|d|d|d|d|d|d|d] eqn:X; cbn [uint_ascii hd] in E; try discriminate E; [cbn in V; lia|].
    destruct (Decimal.nzhead (Decimal.D0 d)) eqn:Z; try discriminate U; [|exact (DecimalFacts.nzhead_nonzero _ _ Z)].
    injection U as ->. cbn in V. lia.
Qed.
(*@E
Example C35_ex_decimal : u256_to_string 1234567890 = [49; 50; 51; 52; 53; 54; 55; 56; 57; 48] /\ decimal_value [52; 48; 55] = 407.
Proof. split; reflexivity. Qed.
@*)
