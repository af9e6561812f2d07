(** Properties C18-C26: merkle trees, proof of work, difficulty, fee.
    Only theorem statements (closed by [exact]), examples showing that their
    premises are met, and the assumptions of each theorem. *)
From Coq Require Import Lia ZifyBool ZifyNat ZifyN.
From Verif Require Import Base Sha256 Merkle Tools Spec Reach.
From Verif Require Import BaseFacts ToolsFacts MerkleFacts DiffFacts.
From Verif Require Import PowProps.

(** C18.  [build_tree] and [get_root] succeed (no out-of-bounds access, no endless
    loop) and the root is the one of the specification, which is unique. *)
Theorem C18_build_tree : forall items : list bytes,
  (exists t root, build_tree items = Ok t /\ get_root t = Ok root /\ merkle_root_of items root) /\
  (forall r r', merkle_root_of items r -> merkle_root_of items r' -> r = r').
Proof. exact p_C18_build_tree. Qed.
Print Assumptions C18_build_tree.

Definition leafA : bytes := repeat 0xA5 32.
Definition leafB : bytes := repeat 0x3C 32.
Definition leafC : bytes := repeat 0x77 32.
Example C18_ex : merkle_root_of [leafA; leafB; leafC]
  (node (node leafA leafB) (node leafC ff32)).
Proof. exists 2%nat. split; [split; [|right]; cbn; auto with arith|reflexivity]. Qed.
Example C18_ex_empty : merkle_root_of [] ff32.
Proof. exists 0%nat. split; [split; [|left]; auto with arith|reflexivity]. Qed.

(** C19 *)
Theorem C19_proof_complete : forall items t h,
  build_tree items = Ok t -> In h items ->
  exists proof root, get_proof t h = Ok (proof ++ [root]) /\ get_root t = Ok root /\
    length (proof ++ [root]) = mt_depth t /\ verify_proof h root proof = Ok true.
Proof. exact p_C19_proof_complete. Qed.
Print Assumptions C19_proof_complete.

(** C19, safety: for any queried value [get_proof] stays in bounds and returns depth
    entries; [verify_proof] panics exactly on the empty proof. *)
Theorem C19_proof_safe :
  (forall items t h, build_tree items = Ok t ->
     exists proof, get_proof t h = Ok proof /\ length proof = mt_depth t) /\
  (forall h root proof, verify_proof h root proof = Panic <-> proof = []) /\
  (forall h root proof, proof <> [] ->
     verify_proof h root proof = Ok true <-> climb_proof h proof = root).
Proof. exact p_C19_proof_safe. Qed.
Print Assumptions C19_proof_safe.

Example C19_ex : exists t, build_tree [leafA; leafB; leafC] = Ok t /\
  get_proof t leafC = Ok [ff32; node leafA leafB; node (node leafA leafB) (node leafC ff32)] /\
  mt_depth t = 3%nat.
Proof. eexists. split; [vm_compute; reflexivity|]. split; [vm_compute; reflexivity|reflexivity]. Qed.

(** C20, what holds: if a proof obtained from a tree also verifies for a value [x]
    that is not in it, then on the way up two different values have the same AND with
    the sibling, or SHA-256 collides.  (The first case is easy to bring about, see below.) *)
Theorem C20_proof_sound_partial : forall items t h x proof root,
  build_tree items = Ok t -> items <> [] -> get_proof t h = Ok (proof ++ [root]) ->
  ~ In x items -> verify_proof x root proof = Ok true ->
  exists y, In y items /\ exists pre q suf, proof = pre ++ q :: suf /\
    let u := climb_proof x pre in let v := climb_proof y pre in
    u <> v /\ (band u q = band v q \/ collision (band u q) (band v q)).
Proof. exact p_C20_proof_sound_partial. Qed.
Print Assumptions C20_proof_sound_partial.

(** C20 is false of the code: the proof of an item of a two-item tree also verifies
    for a value that is not in it. *)
Theorem C20_proof_sound_refuted : exists items t h x proof root,
  build_tree items = Ok t /\ In h items /\ get_proof t h = Ok (proof ++ [root]) /\
  ~ In x items /\ Forall (is_array 32) (x :: items) /\ verify_proof x root proof = Ok true.
Proof. exact p_C20_proof_sound_refuted. Qed.
Print Assumptions C20_proof_sound_refuted.

(** C21, what holds: two lists with the same root are the same up to trailing 0xFF items, unless two different pairs of
    children have the same AND, SHA-256 collides on two of them, or a node of one tree is a SHA-256 preimage
    of the all-0xFF string. *)
Theorem C21_root_binding_partial : forall items items' k k' root,
  height_for (length items) k -> height_for (length items') k' ->
  merkle_root_of items root -> merkle_root_of items' root ->
  (k = k' /\ padded k items = padded k' items') \/
  (exists l r l' r', In (l, r) (children k (padded k items)) /\ In (l', r') (children k' (padded k' items')) /\
    (l, r) <> (l', r') /\ (band l r = band l' r' \/ collision (band l r) (band l' r'))) \/
  (exists l r, In (l, r) (children k (padded k items) ++ children k' (padded k' items')) /\ sha256 (band l r) = ff32).
Proof. exact p_C21_root_binding_partial. Qed.
Print Assumptions C21_root_binding_partial.

(** C21 is false of the code: swapping the first two transactions, or appending an
    all-0xFF item to an even number not one below a power of two, never changes the root. *)
Theorem C21_root_binding_refuted :
  (forall a b rest root, merkle_root_of (a :: b :: rest) root -> merkle_root_of (b :: a :: rest) root) /\
  (forall items k root, height_for (length items) k -> height_for (length items + 1) k ->
     merkle_root_of items root -> merkle_root_of (items ++ [ff32]) root) /\
  (exists a b root, [a; b] <> [b; a] /\ merkle_root_of [a; b] root /\ merkle_root_of [b; a] root).
Proof. exact p_C21_root_binding_refuted. Qed.
Print Assumptions C21_root_binding_refuted.

Example C21_ex : height_for (length [leafA; leafB]) 2 /\ height_for (length [leafA; leafB; ff32]) 2 /\
  merkle_root_of [leafA; leafB] (mroot [leafA; leafB]) /\ merkle_root_of [leafA; leafB; ff32] (mroot [leafA; leafB]) /\
  mroot [leafA; leafB] <> mroot [leafA] /\ mroot [leafA; leafB] <> mroot [leafA; leafC].
Proof.
  split; [split; [|right]; cbn; auto with arith|]. split; [split; [|right]; cbn; auto with arith|]. split; [apply mroot_spec|].
  split; [replace (mroot [leafA; leafB]) with (mroot [leafA; leafB; ff32]) by (vm_compute; reflexivity); apply mroot_spec|].
  split; vm_compute; discriminate.
Qed.

(** C22 *)
Theorem C22_count_leading_zeros : forall l, bytes_ok l -> count_leading_zeros l = leading_zero_bits l.
Proof. exact p_C22_count_leading_zeros. Qed.
Print Assumptions C22_count_leading_zeros.

Example C22_ex : leading_zero_bits [0; 0; 19; 255] = 19 /\ leading_zero_bits [0; 0] = 16 /\
  leading_zero_bits [] = 0 /\ bytes_ok [0; 0; 19; 255].
Proof. vm_compute. repeat split. repeat constructor. Qed.

(** C23: acceptance is decided by leading zeros only, never fails ... *)
Theorem C23_check_pow : forall h d txs pow root, bytes_ok d -> merkle_root_of txs root ->
  exists r, check_pow h d txs pow = Ok r /\
    (r = true <-> leading_zero_bits d <= leading_zero_bits (sha256 (h ++ root ++ pow))).
Proof. exact p_C23_check_pow. Qed.
Print Assumptions C23_check_pow.

(** ... and is monotone in the difficulty. *)
Theorem C23_check_pow_monotone : forall h d d' txs pow, bytes_ok d -> bytes_ok d' ->
  leading_zero_bits d' <= leading_zero_bits d ->
  check_pow h d txs pow = Ok true -> check_pow h d' txs pow = Ok true.
Proof. exact p_C23_check_pow_monotone. Qed.
Print Assumptions C23_check_pow_monotone.

Example C23_ex : check_pow (repeat 7 32) (127 :: repeat 255 31) [leafA] [1] = Ok true /\
  check_pow (repeat 7 32) (repeat 0 32) [leafA] [1] = Ok false.
Proof. vm_compute. auto. Qed.

(** C24 for every difficulty 2^m-1 except 0. *)
Theorem C24_retarget_partial : forall p prev_ts ts d m,
  prev_ts <= ts -> ts < 2 ^ 64 -> is_array 32 d -> (1 <= m <= 255)%nat -> be_val d = 2 ^ N.of_nat m - 1 ->
  exists d', recalculate_difficulty p prev_ts ts d = Ok d' /\ is_array 32 d' /\
    be_val d' = (let g := ts - prev_ts in
                 if g <? 600 then 2 ^ N.of_nat (m - 1) - 1
                 else if 600 <? g then 2 ^ N.of_nat (Nat.min 255 (m + 1)) - 1
                 else be_val d).
Proof. exact p_C24_retarget_partial. Qed.
Print Assumptions C24_retarget_partial.

(** C24 is false at the hardest difficulty 0: a slow block gives 2^248, not 2^1-1
    (the difficulty drops from 256 leading zeros to 7). *)
Theorem C24_retarget_refuted : forall p, exists d d', is_array 32 d /\ be_val d = 2 ^ 0 - 1 /\
  recalculate_difficulty p 0 601 d = Ok d' /\ be_val d' = 2 ^ 248 /\ leading_zero_bits d' = 7.
Proof. exact p_C24_retarget_refuted. Qed.
Print Assumptions C24_retarget_refuted.

Example C24_ex : be_val (127 :: repeat 255 31) = 2 ^ N.of_nat 255 - 1 /\
  recalculate_difficulty Debug 1000 1100 (127 :: repeat 255 31) = Ok (63 :: repeat 255 31) /\
  recalculate_difficulty Debug 1000 1700 (127 :: repeat 255 31) = Ok (127 :: repeat 255 31) /\
  recalculate_difficulty Debug 1000 1700 (0 :: 3 :: repeat 255 30) = Ok (0 :: 7 :: repeat 255 30).
Proof. vm_compute. auto. Qed.

(** C25: every reachable difficulty keeps a leading zero bit, and retargeting it
    always succeeds except that a debug build panics when time goes backwards. *)
Theorem C25_difficulty_domain : forall p d, difficulty_reachable p d ->
  is_array 32 d /\ 1 <= leading_zero_bits d /\
  forall prev_ts ts,
    (exists d', recalculate_difficulty p prev_ts ts d = Ok d') \/
    (p = Debug /\ ts < prev_ts /\ recalculate_difficulty p prev_ts ts d = Panic).
Proof. exact p_C25_difficulty_domain. Qed.
Print Assumptions C25_difficulty_domain.

Example C25_ex : difficulty_reachable Release (63 :: repeat 255 31).
Proof.
  apply (difficulty_step Release BEGINNING_DIFFICULTY _ 1000 1100); [constructor|vm_compute; reflexivity].
Qed.

(** C25, outside that domain: a difficulty with its top bit set (which no reachable
    state has) makes a slow block read and write out of bounds. *)
Theorem C25_domain_needed : forall t, bytes_ok t ->
  recalculate_difficulty Release 0 601 (255 :: t) = UB /\
  recalculate_difficulty Debug 0 601 (255 :: t) = Panic.
Proof. exact p_C25_domain_needed. Qed.
Print Assumptions C25_domain_needed.

(** C26 *)
Theorem C26_fee : forall d, is_array 32 d ->
  recalculate_fee d = Ok (62500 * leading_zero_bits d) /\ 62500 * leading_zero_bits d <= 16000000.
Proof. exact p_C26_fee. Qed.
Print Assumptions C26_fee.

Example C26_ex : recalculate_fee (0 :: 0 :: 19 :: repeat 0 29) = Ok 1187500 /\
  recalculate_fee (repeat 0 32) = Ok 16000000.
Proof. vm_compute. auto. Qed.

