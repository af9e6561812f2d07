(** SHA-256: the model computes what FIPS 180-4 describes; a collision is a collision of the compression function. *)
From Coq Require Import Lia ZifyBool ZifyNat ZifyN.
From Verif Require Import Base Sha256 Spec ShaSpec.
From Verif Require Import BaseFacts.

Local Strategy 1000 [compress round expand rev sha_k combine nth].

(** ** Words *)
Lemma w32_mod x : w32 x = x mod 2 ^ 32.
Proof. unfold w32. change mask32 with (N.ones 32). apply N.land_ones. Qed.
Lemma w32_word x : word (w32 x).
Proof. rewrite w32_mod. apply N.mod_lt. discriminate. Qed.
Lemma word_bits x : word x <-> forall i, 32 <= i -> N.testbit x i = false.
Proof.
  unfold word. split.
  - intros H i Hi. destruct (N.eq_dec x 0) as [->|Hx]; [apply N.bits_0|]. apply N.bits_above_log2. apply N.log2_lt_pow2 in H; lia.
  - intros H. destruct (N.eq_dec x 0) as [->|Hx]; [reflexivity|]. apply N.log2_lt_pow2; [lia|]. destruct (N.lt_ge_cases (N.log2 x) 32) as [Hl|Hl]; [exact Hl|].
    specialize (H _ Hl). rewrite N.bit_log2 in H by exact Hx. discriminate.
Qed.
Lemma word_eq x y : word x -> word y -> (forall i, i < 32 -> N.testbit x i = N.testbit y i) -> x = y.
Proof.
  intros Hx Hy H. apply N.bits_inj. intros i. destruct (N.lt_ge_cases i 32) as [Hi|Hi]; [apply H, Hi|].
  rewrite (proj1 (word_bits x) Hx i Hi), (proj1 (word_bits y) Hy i Hi). reflexivity.
Qed.
Lemma lor_add a b n : a < 2 ^ n -> N.lor a (b * 2 ^ n) = a + b * 2 ^ n.
Proof.
  intros Ha. assert (Z : N.land a (b * 2 ^ n) = 0).
  { apply N.bits_inj. intros i. rewrite N.bits_0, N.land_spec. destruct (N.lt_ge_cases i n) as [Hi|Hi].
    - rewrite N.mul_pow2_bits_low by exact Hi. apply Bool.andb_false_r.
    - destruct (N.eq_dec a 0) as [->|Ha0]; [rewrite N.bits_0; reflexivity|]. rewrite (N.bits_above_log2 a i); [reflexivity|]. apply N.log2_lt_pow2 in Ha; lia. }
  rewrite <- N.lxor_lor by exact Z. symmetry. apply N.add_nocarry_lxor, Z.
Qed.
Lemma rotr_Rotr n x : 0 < n < 32 -> word x -> rotr x n = Rotr n x.
Proof.
  intros Hn Hx. unfold rotr, Rotr. rewrite w32_mod, N.shiftr_div_pow2, N.shiftl_mul_pow2.
  assert (E : 2 ^ 32 = 2 ^ n * 2 ^ (32 - n)) by (rewrite <- N.pow_add_r; f_equal; lia).
  assert (P1 : 2 ^ n <> 0) by (apply N.pow_nonzero; discriminate). assert (P2 : 2 ^ (32 - n) <> 0) by (apply N.pow_nonzero; discriminate).
  rewrite E, N.mul_mod_distr_r by assumption. apply lor_add. apply N.div_lt_upper_bound; [exact P1|]. rewrite <- E. exact Hx.
Qed.
Lemma Rotr_word n x : 0 < n < 32 -> word x -> word (Rotr n x).
Proof.
  intros Hn Hx. rewrite <- rotr_Rotr by assumption. unfold rotr. apply word_bits. intros i Hi. rewrite N.lor_spec, (proj1 (word_bits _) (w32_word _) i Hi), N.shiftr_spec', Bool.orb_false_r.
  apply (proj1 (word_bits x) Hx). lia.
Qed.
Lemma lxor_word x y : word x -> word y -> word (N.lxor x y).
Proof. intros Hx Hy. apply word_bits. intros i Hi. rewrite N.lxor_spec, (proj1 (word_bits x) Hx i Hi), (proj1 (word_bits y) Hy i Hi). reflexivity. Qed.
Lemma shr_word n x : word x -> word (Shr n x).
Proof. intros Hx. unfold Shr. rewrite <- N.shiftr_div_pow2. apply word_bits. intros i Hi. rewrite N.shiftr_spec'. apply (proj1 (word_bits x) Hx). lia. Qed.
Lemma bsig0_S x : word x -> bsig0 x = Sigma0 x.
Proof. intros H. unfold bsig0, Sigma0. rewrite !rotr_Rotr by (lia || assumption). reflexivity. Qed.
Lemma bsig1_S x : word x -> bsig1 x = Sigma1 x.
Proof. intros H. unfold bsig1, Sigma1. rewrite !rotr_Rotr by (lia || assumption). reflexivity. Qed.
Lemma ssig0_S x : word x -> ssig0 x = sigma0 x.
Proof. intros H. unfold ssig0, sigma0, Shr. rewrite !rotr_Rotr, N.shiftr_div_pow2 by (lia || assumption). reflexivity. Qed.
Lemma ssig1_S x : word x -> ssig1 x = sigma1 x.
Proof. intros H. unfold ssig1, sigma1, Shr. rewrite !rotr_Rotr, N.shiftr_div_pow2 by (lia || assumption). reflexivity. Qed.
Lemma not32_bit x i : i < 32 -> N.testbit (not32 x) i = negb (N.testbit x i).
Proof. intros H. unfold not32. change mask32 with (N.ones 32). rewrite N.lxor_spec, N.ones_spec_low by exact H. destruct (N.testbit x i); reflexivity. Qed.
Lemma ch_choice x y z : word x -> word y -> word z -> is_choice x y z (ch x y z).
Proof.
  intros Hx Hy Hz. unfold ch. split.
  - apply word_bits. intros i Hi. rewrite N.lxor_spec, !N.land_spec, (proj1 (word_bits x) Hx i Hi), (proj1 (word_bits z) Hz i Hi), Bool.andb_false_r. reflexivity.
  - intros i Hi. rewrite N.lxor_spec, !N.land_spec, not32_bit by exact Hi. destruct (N.testbit x i), (N.testbit y i), (N.testbit z i); reflexivity.
Qed.
Lemma maj_majority x y z : word x -> word y -> word z -> is_majority x y z (maj x y z).
Proof.
  intros Hx Hy Hz. unfold maj. split.
  - apply word_bits. intros i Hi. rewrite !N.lxor_spec, !N.land_spec, (proj1 (word_bits x) Hx i Hi), (proj1 (word_bits y) Hy i Hi). reflexivity.
  - intros i Hi. rewrite !N.lxor_spec, !N.land_spec. destruct (N.testbit x i), (N.testbit y i), (N.testbit z i); reflexivity.
Qed.
Lemma choice_ch x y z r : word x -> word y -> word z -> is_choice x y z r -> r = ch x y z.
Proof. intros Hx Hy Hz [Hr H]. destruct (ch_choice x y z Hx Hy Hz) as [Hc H']. apply word_eq; [exact Hr|exact Hc|]. intros i Hi. rewrite H, H' by exact Hi. reflexivity. Qed.
Lemma majority_maj x y z r : word x -> word y -> word z -> is_majority x y z r -> r = maj x y z.
Proof. intros Hx Hy Hz [Hr H]. destruct (maj_majority x y z Hx Hy Hz) as [Hc H']. apply word_eq; [exact Hr|exact Hc|]. intros i Hi. rewrite H, H' by exact Hi. reflexivity. Qed.
Lemma sum32_word l : word (sum32 l).
Proof. apply N.mod_lt. discriminate. Qed.

(** ** Rounds *)
Definition lst (s : st8) : list N := [sa s; sb s; sc s; sd s; se s; sf s; sg s; sh s].
Definition st (l : list N) : st8 := St8 (nth 0 l 0) (nth 1 l 0) (nth 2 l 0) (nth 3 l 0) (nth 4 l 0) (nth 5 l 0) (nth 6 l 0) (nth 7 l 0).
Lemma st_lst s : st (lst s) = s.
Proof. destruct s. reflexivity. Qed.
Lemma lst_st l : length l = 8%nat -> lst (st l) = l.
Proof. intros H. do 8 (destruct l as [|? l]; [discriminate H|]). destruct l; [reflexivity|discriminate H]. Qed.
Lemma lst_length s : length (lst s) = 8%nat.
Proof. reflexivity. Qed.
Definition words8 (s : st8) : Prop := Forall word (lst s).
Lemma words8_in s : words8 s -> word (sa s) /\ word (sb s) /\ word (sc s) /\ word (sd s) /\ word (se s) /\ word (sf s) /\ word (sg s) /\ word (sh s).
Proof. intros H. unfold words8, lst in H. repeat match goal with X : Forall _ (_ :: _) |- _ => inversion X; clear X; subst end. auto 10. Qed.
Lemma words8_mk s : word (sa s) -> word (sb s) -> word (sc s) -> word (sd s) -> word (se s) -> word (sf s) -> word (sg s) -> word (sh s) -> words8 s.
Proof. intros. unfold words8, lst. repeat constructor; assumption. Qed.
Lemma round_words s kw : words8 s -> words8 (round s kw).
Proof. intros H. apply words8_in in H as (H1 & H2 & H3 & H4 & H5 & H6 & H7 & H8). apply words8_mk; cbn [round sa sb sc sd se sf sg sh]; try assumption; apply w32_word. Qed.
Lemma sum_flat a b : (a mod 2 ^ 32 + b) mod 2 ^ 32 = (a + b) mod 2 ^ 32.
Proof. rewrite N.add_mod_idemp_l by discriminate. reflexivity. Qed.
Lemma round_eq s k w cho mj : words8 s -> is_choice (se s) (sf s) (sg s) cho -> is_majority (sa s) (sb s) (sc s) mj ->
  lst (round s (k, w)) = [sum32 [sum32 [sh s; Sigma1 (se s); cho; k; w]; sum32 [Sigma0 (sa s); mj]]; sa s; sb s; sc s; sum32 [sd s; sum32 [sh s; Sigma1 (se s); cho; k; w]]; se s; sf s; sg s].
Proof.
  intros H Hc Hm. apply words8_in in H as (H1 & H2 & H3 & H4 & H5 & H6 & H7 & H8).
  rewrite (choice_ch _ _ _ _ H5 H6 H7 Hc), (majority_maj _ _ _ _ H1 H2 H3 Hm).
  unfold lst, round, sum32. cbn [sa sb sc sd se sf sg sh fst snd fold_right]. rewrite !w32_mod, bsig0_S, bsig1_S by assumption. rewrite !N.add_0_r.
  f_equal; [|do 3 f_equal; f_equal].
  - rewrite N.add_mod_idemp_l, N.add_mod_idemp_r by discriminate. f_equal. lia.
  - rewrite N.add_mod_idemp_r by discriminate. f_equal. lia.
Qed.
Lemma round_ok s k w : words8 s -> round_of k w (lst s) (lst (round s (k, w))).
Proof.
  intros H. pose proof (words8_in _ H) as (H1 & H2 & H3 & H4 & H5 & H6 & H7 & H8).
  exists (sa s), (sb s), (sc s), (sd s), (se s), (sf s), (sg s), (sh s), (ch (se s) (sf s) (sg s)), (maj (sa s) (sb s) (sc s)).
  split; [reflexivity|]. split; [apply ch_choice; assumption|]. split; [apply maj_majority; assumption|]. apply round_eq; [exact H|apply ch_choice; assumption|apply maj_majority; assumption].
Qed.
Lemma round_det s k w l : words8 s -> round_of k w (lst s) l -> l = lst (round s (k, w)).
Proof.
  intros H (a & b & c & d & e & f & g & h & cho & mj & E & Hc & Hm & ->). injection E as <- <- <- <- <- <- <- <-. symmetry. apply round_eq; assumption.
Qed.

(** ** Constants *)
Lemma root_bits_det e p k k' : e <> 0 -> root_bits e p k -> root_bits e p k' -> k = k'.
Proof.
  intros He (m & [H1 H2] & ->) (m' & [H3 H4] & ->). f_equal. destruct (N.lt_trichotomy m m') as [H|[H|H]]; [exfalso|exact H|exfalso].
  - assert ((m + 1) ^ e <= m' ^ e) by (apply N.pow_le_mono_l; lia). lia.
  - assert ((m' + 1) ^ e <= m ^ e) by (apply N.pow_le_mono_l; lia). lia.
Qed.
Definition root_check (e p k : N) : bool :=
  (k <? 2 ^ 32) && existsb (fun q => let m := q * 2 ^ 32 + k in (m ^ e <=? p * 2 ^ (32 * e)) && (p * 2 ^ (32 * e) <? (m + 1) ^ e)) [0; 1; 2; 3; 4; 5; 6].
Lemma root_check_ok e p k : root_check e p k = true -> root_bits e p k.
Proof.
  intros H. apply andb_prop in H as [Hk H]. apply existsb_exists in H as (q & _ & H). cbv zeta in H. apply andb_prop in H as [H1 H2].
  exists (q * 2 ^ 32 + k). split; [lia|]. rewrite N.add_comm, N.mod_add by discriminate. symmetry. apply N.mod_small. lia.
Qed.
Lemma all_nth (f : nat -> bool) n : forallb f (seq 0 n) = true -> forall t, (t < n)%nat -> f t = true.
Proof. intros H t Ht. rewrite forallb_forall in H. apply H, in_seq. lia. Qed.
Lemma sha_k_root t : (t < 64)%nat -> root_bits 3 (nth t primes64 0) (nth t sha_k 0).
Proof. intros H. apply root_check_ok. revert t H. apply (all_nth (fun t => root_check 3 (nth t primes64 0) (nth t sha_k 0))). vm_compute. reflexivity. Qed.
Lemma sha_iv_root t : (t < 8)%nat -> root_bits 2 (nth t primes64 0) (nth t sha_iv 0).
Proof. intros H. apply root_check_ok. revert t H. apply (all_nth (fun t => root_check 2 (nth t primes64 0) (nth t sha_iv 0))). vm_compute. reflexivity. Qed.

(** ** The schedule *)
Definition next_word (l : list N) : N := w32 (ssig1 (nth 1 l 0) + nth 6 l 0 + ssig0 (nth 14 l 0) + nth 15 l 0).
Definition recurs (n : nat) (W : list N) : Prop :=
  forall t, (16 <= t < n)%nat -> nth t W 0 = sum32 [sigma1 (nth (t - 2) W 0); nth (t - 7) W 0; sigma0 (nth (t - 15) W 0); nth (t - 16) W 0].
Lemma nth_word l j : Forall word l -> word (nth j l 0).
Proof. intros H. destruct (nth_in_or_default j l 0) as [Hi| ->]; [exact (proj1 (Forall_forall _ _) H _ Hi)|reflexivity]. Qed.
Lemma expand_ok M n : forall r, (16 <= length r)%nat -> Forall word r -> firstn 16 (rev r) = M -> recurs (length r) (rev r) ->
  let W := rev (expand n r) in length W = (n + length r)%nat /\ Forall word W /\ firstn 16 W = M /\ recurs (n + length r) W.
Proof.
  induction n as [|n IH]; intros r Hl Hw HM Hr; cbv zeta; cbn [expand].
  - rewrite rev_length. split; [reflexivity|]. split; [apply Forall_rev, Hw|]. split; assumption.
  - fold (next_word r). destruct (IH (next_word r :: r)) as (H1 & H2 & H3 & H4).
    + cbn [length]. lia.
    + constructor; [apply w32_word|exact Hw].
    + cbn [rev]. rewrite firstn_app, rev_length. replace (16 - length r)%nat with 0%nat by lia. cbn [firstn]. rewrite app_nil_r. exact HM.
    + cbn [length rev]. intros t Ht. assert (Hd : t = length r \/ (t < length r)%nat) by lia. destruct Hd as [->|Hd].
      * rewrite (app_nth2 (rev r)) by (rewrite rev_length; lia). rewrite rev_length, Nat.sub_diag. cbn [nth].
        rewrite !(app_nth1 (rev r)) by (rewrite rev_length; lia). rewrite !rev_nth by lia.
        replace (length r - S (length r - 2))%nat with 1%nat by lia. replace (length r - S (length r - 7))%nat with 6%nat by lia.
        replace (length r - S (length r - 15))%nat with 14%nat by lia. replace (length r - S (length r - 16))%nat with 15%nat by lia.
        unfold next_word, sum32. cbn [fold_right]. rewrite w32_mod, ssig0_S, ssig1_S by (apply nth_word, Hw). f_equal. lia.
      * rewrite !(app_nth1 (rev r)) by (rewrite rev_length; lia). apply Hr. lia.
    + cbn [length] in H1, H4. rewrite Nat.add_succ_r in H1, H4. auto.
Qed.
Lemma schedule_ok M : sha_block M -> let W := rev (expand 48 (rev M)) in schedule_of M W /\ Forall word W.
Proof.
  intros [HM Hw]. destruct (expand_ok M 48 (rev M)) as (H1 & H2 & H3 & H4).
  - rewrite rev_length. lia.
  - apply Forall_rev, Hw.
  - rewrite rev_involutive, <- HM. apply firstn_all.
  - rewrite rev_length. intros t Ht. lia.
  - rewrite (rev_length M), HM in H1, H4. cbv zeta. split; [split; [exact H1|split; [exact H3|exact H4]]|exact H2].
Qed.
Lemma schedule_det M W W' : schedule_of M W -> schedule_of M W' -> W = W'.
Proof.
  intros (L1 & F1 & R1) (L2 & F2 & R2). apply (nth_ext _ _ 0 0); [congruence|]. intros t Ht. rewrite L1 in Ht. revert Ht. induction t as [t IH] using (well_founded_induction lt_wf). intros Ht.
  destruct (Nat.lt_ge_cases t 16) as [Hs|Hs].
  - assert (N0 : forall X : list N, nth t X 0 = nth t (firstn 16 X) 0).
    { intros X. rewrite <- (firstn_skipn 16 X) at 1. destruct (Nat.lt_ge_cases t (length (firstn 16 X))) as [Hx|Hx]; [apply app_nth1, Hx|].
      rewrite (nth_overflow (firstn 16 X)) by exact Hx. rewrite firstn_length in Hx. rewrite firstn_skipn. apply nth_overflow. lia. }
    rewrite (N0 W), (N0 W'). congruence.
  - rewrite R1, R2 by lia. rewrite !IH by lia. reflexivity.
Qed.

(** ** Blocks *)
Lemma trace_ok (l : list (N * N)) : forall s, words8 s -> exists S, length S = (length l + 1)%nat /\ nth 0 S [] = lst s /\
  (forall t, (t < length l)%nat -> round_of (fst (nth t l (0, 0))) (snd (nth t l (0, 0))) (nth t S []) (nth (t + 1) S [])) /\ nth (length l) S [] = lst (fold_left round l s).
Proof.
  induction l as [|[k w] l IH]; intros s Hs.
  - exists [lst s]. split; [reflexivity|]. split; [reflexivity|]. split; [intros t Ht; cbn in Ht; lia|reflexivity].
  - destruct (IH (round s (k, w)) (round_words _ _ Hs)) as (S & H1 & H2 & H3 & H4). exists (lst s :: S). cbn [length fold_left]. split; [lia|]. split; [reflexivity|]. split; [|exact H4].
    intros [|t] Ht; cbn [nth Nat.add fst snd]; [rewrite H2; apply round_ok, Hs|apply H3; lia].
Qed.
Lemma trace_det (l : list (N * N)) : forall s S, words8 s -> nth 0 S [] = lst s ->
  (forall t, (t < length l)%nat -> round_of (fst (nth t l (0, 0))) (snd (nth t l (0, 0))) (nth t S []) (nth (t + 1) S [])) -> nth (length l) S [] = lst (fold_left round l s).
Proof.
  induction l as [|[k w] l IH]; intros s S Hs H0 H; [exact H0|]. cbn [length fold_left].
  assert (H1 : nth 1 S [] = lst (round s (k, w))). { apply round_det; [exact Hs|]. rewrite <- H0. apply (H 0%nat). cbn [length]. lia. }
  destruct S as [|x S1]; [discriminate H0|]. cbn [nth] in *. apply IH; [apply round_words, Hs|exact H1|]. intros t Ht. apply (H (S t)). cbn [length]. lia.
Qed.
Lemma fold_words l : forall s, words8 s -> words8 (fold_left round l s).
Proof. induction l as [|x l IH]; intros s H; [exact H|]. apply IH, round_words, H. Qed.
Lemma compress_words h b : words8 (compress h b).
Proof. apply words8_mk; unfold compress; cbn [sa sb sc sd se sf sg sh]; apply w32_word. Qed.
Lemma nth_lst_compress h b i : (i < 8)%nat -> nth i (lst (compress h b)) 0 =
  sum32 [nth i (lst h) 0; nth i (lst (fold_left round (combine sha_k (rev (expand 48 (rev (words_of b))))) h)) 0].
Proof.
  intros H. unfold sum32. cbn [fold_right]. rewrite N.add_0_r, <- w32_mod. unfold compress. cbv zeta. generalize (fold_left round (combine sha_k (rev (expand 48 (rev (words_of b))))) h).
  intros s. unfold lst. cbn [sa sb sc sd se sf sg sh]. do 8 (destruct i as [|i]; [reflexivity|]). lia.
Qed.
Lemma words_of_words b : words_of b = words b.
Proof.
  enough (H : forall n b, (length b <= n)%nat -> words_of b = words b) by (apply (H (length b)), le_n). clear. induction n as [|n IH]; intros l Hl.
  - destruct l; [reflexivity|cbn in Hl; lia].
  - destruct l as [|a [|b [|c [|d t]]]]; try reflexivity. cbn [words_of words]. f_equal; [|apply IH; cbn [length] in Hl; lia]. unfold from_be. cbn [fold_left]. lia.
Qed.
Lemma words_length n : forall b, length b = (4 * n)%nat -> length (words b) = n.
Proof.
  induction n as [|n IH]; intros l Hl; [destruct l; [reflexivity|discriminate Hl]|].
  destruct l as [|a [|b [|c [|d t]]]]; cbn [length] in Hl; try lia. cbn [words length]. f_equal. apply IH. lia.
Qed.
Lemma words_word n : forall b, (length b <= n)%nat -> bytes_ok b -> Forall word (words b).
Proof.
  induction n as [|n IH]; intros l Hl Hb; [destruct l; [constructor|cbn in Hl; lia]|].
  destruct l as [|a [|b [|c [|d t]]]]; cbn [words]; try constructor.
  - unfold bytes_ok, byte_ok in Hb. repeat match goal with X : Forall _ (_ :: _) |- _ => inversion X; clear X; subst end. unfold word. lia.
  - apply IH; [cbn [length] in Hl; lia|]. unfold bytes_ok in *. repeat match goal with X : Forall _ (_ :: _) |- _ => inversion X; clear X; subst end. assumption.
Qed.
Lemma words_block b : length b = 64%nat -> bytes_ok b -> sha_block (words b).
Proof. intros H Hb. split; [apply words_length; exact H|apply (words_word 64); [lia|exact Hb]]. Qed.
Lemma compress_follows h b : words8 h -> sha_block (words b) -> follows (lst h) (words b) (lst (compress h b)).
Proof.
  intros Hh Hb. destruct (schedule_ok _ Hb) as [HS HW]. rewrite <- words_of_words in *. set (W := rev (expand 48 (rev (words_of b)))) in *.
  assert (LC : length (combine sha_k W) = 64%nat) by (rewrite combine_length, (proj1 HS); reflexivity).
  destruct (trace_ok (combine sha_k W) h Hh) as (S & H1 & H2 & H3 & H4). rewrite LC in *.
  exists W, S. split; [exact HS|]. split; [exact H1|]. split; [exact H2|]. split.
  - intros t Ht. exists (nth t sha_k 0). split; [apply sha_k_root, Ht|]. specialize (H3 t Ht). rewrite combine_nth in H3 by (rewrite (proj1 HS); reflexivity). cbn [fst snd] in H3. exact H3.
  - split; [reflexivity|]. intros i Hi. rewrite H4. apply nth_lst_compress, Hi.
Qed.
Lemma follows_compress h b H' : words8 h -> sha_block (words b) -> follows (lst h) (words b) H' -> H' = lst (compress h b).
Proof.
  intros Hh Hb (W & S & HS & HL & H0 & HR & HL' & HE). destruct (schedule_ok _ Hb) as [HS' _]. rewrite (schedule_det _ _ _ HS HS') in *. clear HS.
  rewrite <- words_of_words in *. set (W' := rev (expand 48 (rev (words_of b)))) in *.
  assert (LC : length (combine sha_k W') = 64%nat) by (rewrite combine_length, (proj1 HS'); reflexivity).
  assert (E : nth 64 S [] = lst (fold_left round (combine sha_k W') h)).
  { rewrite <- LC. apply trace_det; [exact Hh|exact H0|]. rewrite LC. intros t Ht. destruct (HR t Ht) as (k & Hk & HRt).
    rewrite combine_nth by (rewrite (proj1 HS'); reflexivity). cbn [fst snd]. rewrite (root_bits_det 3 _ _ _ ltac:(discriminate) (sha_k_root t Ht) Hk). exact HRt. }
  apply (nth_ext _ _ 0 0); [exact HL'|]. intros i Hi. rewrite HL' in Hi. rewrite HE, nth_lst_compress, E by exact Hi. reflexivity.
Qed.

(** ** Padding *)
Lemma to_be4 x : word x -> to_be 4 x = be4 x.
Proof.
  intros H. unfold be4. cbn [to_be app]. unfold word in H. rewrite !N.div_div by discriminate. change (256 * 256) with (2 ^ 16). change (2 ^ 16 * 256) with (2 ^ 24). change 256 with (2 ^ 8) at 5.
  rewrite (N.mod_small (x / 2 ^ 24)); [reflexivity|]. apply N.div_lt_upper_bound; [discriminate|]. exact H.
Qed.
Lemma to_be8 x : x < 2 ^ 64 -> to_be 8 x = be8 x.
Proof.
  intros H. change 8%nat with (4 + 4)%nat. rewrite to_be_app. change (256 ^ N.of_nat 4) with (2 ^ 32). rewrite <- (to_be_mod 4 x). change (256 ^ N.of_nat 4) with (2 ^ 32). unfold be8. f_equal; apply to_be4.
  - apply N.div_lt_upper_bound; [discriminate|]. exact H.
  - apply N.mod_lt. discriminate.
Qed.
Lemma pad_ok m : N.of_nat (length m) < 2 ^ 61 -> padded m (sha_pad m).
Proof.
  intros H. unfold sha_pad. cbv zeta. rewrite to_be8 by lia. exists (N.to_nat ((119 - N.of_nat (length m) mod 64) mod 64)).
  assert (Hk : (119 - N.of_nat (length m) mod 64) mod 64 < 64) by (apply N.mod_lt; discriminate). split; [lia|]. split; [reflexivity|].
  rewrite !app_length, repeat_length. change (length (be8 (8 * N.of_nat (length m)))) with 8%nat. cbn [length].
  assert (Hm : N.of_nat (length m) mod 64 < 64) by (apply N.mod_lt; discriminate). zify; Z.to_euclidean_division_equations; lia.
Qed.
Lemma padded_det m P P' : padded m P -> padded m P' -> P = P'.
Proof.
  intros (z & Hz & -> & H) (z' & Hz' & -> & H'). enough (z = z') by congruence.
  rewrite !app_length, repeat_length in H, H'. change (length (be8 (8 * N.of_nat (length m)))) with 8%nat in H, H'. cbn [length] in H, H'. zify; Z.to_euclidean_division_equations; lia.
Qed.
Lemma be4_ok x : word x -> bytes_ok (be4 x).
Proof. intros H. rewrite <- to_be4 by exact H. apply to_be_ok. Qed.
Lemma be8_ok x : x < 2 ^ 64 -> bytes_ok (be8 x).
Proof. intros H. rewrite <- to_be8 by exact H. apply to_be_ok. Qed.
Lemma repeat_ok n : bytes_ok (repeat 0 n).
Proof. apply Forall_forall. intros x Hx. apply repeat_spec in Hx as ->. reflexivity. Qed.
Lemma padded_bytes m P : bytes_ok m -> N.of_nat (length m) < 2 ^ 61 -> padded m P -> bytes_ok P.
Proof.
  intros Hm Hl (z & _ & -> & _). unfold bytes_ok in *. apply Forall_app. split; [exact Hm|]. apply Forall_app. split; [repeat constructor|]. apply Forall_app. split; [apply repeat_ok|apply be8_ok; lia].
Qed.
Lemma padded_blocks m P : padded m P -> exists n, length P = (64 * n)%nat /\ n <> 0%nat.
Proof.
  intros (z & _ & E & H). exists (length P / 64)%nat. assert (HP : length P = (64 * (length P / 64))%nat) by (pose proof (Nat.div_mod (length P) 64 ltac:(discriminate)); lia).
  split; [exact HP|]. intros Z. rewrite Z in HP. rewrite E in HP. rewrite !app_length in HP. cbn [length] in HP. lia.
Qed.

(** ** All blocks *)
Fixpoint run (n : nat) (P : bytes) (h : st8) : st8 :=
  match n with O => h | S n => run n (skipn 64 P) (compress h (firstn 64 P)) end.
Lemma skip_skip {A} (a b : nat) (l : list A) : skipn a (skipn b l) = skipn (b + a) l.
Proof. revert l. induction b as [|b IH]; intros l; [reflexivity|]. destruct l as [|x l]; [rewrite !skipn_nil; reflexivity|]. cbn [skipn Nat.add]. apply IH. Qed.
Lemma blocks_run n : forall f P h, length P = (64 * n)%nat -> (n <= f)%nat -> blocks f P h = run n P h.
Proof.
  induction n as [|n IH]; intros f P h HP Hf.
  - destruct P; [|discriminate HP]. destruct f; reflexivity.
  - destruct f as [|f]; [lia|]. destruct P as [|x P]; [cbn [length] in HP; lia|]. cbn [blocks run]. apply IH; [rewrite skipn_length; lia|lia].
Qed.
Lemma first_block n P : length P = (64 * S n)%nat -> bytes_ok P -> length (firstn 64 P) = 64%nat /\ bytes_ok (firstn 64 P) /\ length (skipn 64 P) = (64 * n)%nat /\ bytes_ok (skipn 64 P).
Proof.
  intros HP Hb. rewrite firstn_length, skipn_length. split; [lia|]. split; [apply Forall_forall; intros x Hx; apply (proj1 (Forall_forall _ _) Hb); rewrite <- (firstn_skipn 64 P); apply in_or_app; left; exact Hx|].
  split; [lia|]. apply Forall_forall; intros x Hx; apply (proj1 (Forall_forall _ _) Hb); rewrite <- (firstn_skipn 64 P); apply in_or_app; right; exact Hx.
Qed.
Lemma run_ok n : forall P h, length P = (64 * n)%nat -> bytes_ok P -> words8 h -> exists Hs, length Hs = (n + 1)%nat /\ nth 0 Hs [] = lst h /\
  (forall i, (i < n)%nat -> follows (nth i Hs []) (words (firstn 64 (skipn (64 * i) P))) (nth (i + 1) Hs [])) /\ nth n Hs [] = lst (run n P h).
Proof.
  induction n as [|n IH]; intros P h HP Hb Hh.
  - exists [lst h]. split; [reflexivity|]. split; [reflexivity|]. split; [intros i Hi; lia|reflexivity].
  - destruct (first_block n P HP Hb) as (B1 & B2 & B3 & B4). destruct (IH _ (compress h (firstn 64 P)) B3 B4 (compress_words _ _)) as (Hs & H1 & H2 & H3 & H4).
    exists (lst h :: Hs). split; [cbn [length]; lia|]. split; [reflexivity|]. split; [|exact H4].
    intros [|i] Hi.
    + change (nth 0 (lst h :: Hs) []) with (lst h). change (nth (0 + 1) (lst h :: Hs) []) with (nth 0 Hs []). rewrite H2. rewrite Nat.mul_0_r. change (skipn 0 P) with P. apply compress_follows; [exact Hh|apply words_block; assumption].
    + change (nth (S i) (lst h :: Hs) []) with (nth i Hs []). change (nth (S i + 1) (lst h :: Hs) []) with (nth (i + 1) Hs []).
      replace (64 * S i)%nat with (64 + 64 * i)%nat by lia. rewrite <- skip_skip. apply H3. lia.
Qed.
Lemma run_det n : forall P h Hs, length P = (64 * n)%nat -> bytes_ok P -> words8 h -> nth 0 Hs [] = lst h ->
  (forall i, (i < n)%nat -> follows (nth i Hs []) (words (firstn 64 (skipn (64 * i) P))) (nth (i + 1) Hs [])) -> nth n Hs [] = lst (run n P h).
Proof.
  induction n as [|n IH]; intros P h Hs HP Hb Hh H0 HF; [exact H0|].
  destruct (first_block n P HP Hb) as (B1 & B2 & B3 & B4). destruct Hs as [|x Hs]; [discriminate H0|]. change (nth 0 (x :: Hs) []) with x in H0. subst x.
  change (nth (S n) (lst h :: Hs) []) with (nth n Hs []). cbn [run]. apply IH; [exact B3|exact B4|apply compress_words| |].
  - specialize (HF 0%nat ltac:(lia)). rewrite Nat.mul_0_r in HF. apply follows_compress; [exact Hh|apply words_block; assumption|exact HF].
  - intros i Hi. specialize (HF (S i) ltac:(lia)). replace (64 * S i)%nat with (64 + 64 * i)%nat in HF by lia. rewrite <- skip_skip in HF. exact HF.
Qed.
Lemma run_words n : forall P h, words8 h -> words8 (run n P h).
Proof. induction n as [|n IH]; intros P h H; [exact H|]. apply IH, compress_words. Qed.
Lemma init_words : words8 sha_init.
Proof. unfold words8. repeat constructor. Qed.
Lemma init_initial : initial (lst sha_init).
Proof. split; [reflexivity|]. exact sha_iv_root. Qed.
Lemma initial_det H : initial H -> H = lst sha_init.
Proof. intros [Hl H0]. apply (nth_ext _ _ 0 0); [exact Hl|]. intros i Hi. rewrite Hl in Hi. exact (root_bits_det 2 _ _ _ ltac:(discriminate) (H0 i Hi) (sha_iv_root i Hi)). Qed.
Lemma digest_lst s : words8 s -> to_be 4 (sa s) ++ to_be 4 (sb s) ++ to_be 4 (sc s) ++ to_be 4 (sd s) ++ to_be 4 (se s) ++ to_be 4 (sf s) ++ to_be 4 (sg s) ++ to_be 4 (sh s) = concat (map be4 (lst s)).
Proof. intros H. apply words8_in in H as (H1 & H2 & H3 & H4 & H5 & H6 & H7 & H8). rewrite !to_be4 by assumption. unfold lst. cbn [map concat]. rewrite app_nil_r. reflexivity. Qed.
Lemma sha_run m n : N.of_nat (length m) < 2 ^ 61 -> length (sha_pad m) = (64 * n)%nat -> sha256 m = concat (map be4 (lst (run n (sha_pad m) sha_init))).
Proof.
  intros Hl Hn. unfold sha256. cbv zeta. rewrite (blocks_run n) by lia. apply digest_lst, run_words, init_words.
Qed.

(*@T C123: the hash function of the model is the one of the standard (FIPS 180-4): for every message of less than 2^61 bytes there is exactly one string the standard calls its
   SHA-256, and the model computes it. *)
Lemma p_C123_standard : forall m d, bytes_ok m -> N.of_nat (length m) < 2 ^ 61 -> (is_sha256 m d <-> d = sha256 m).
Proof.
  intros m d Hm Hl. pose proof (pad_ok m Hl) as HP. destruct (padded_blocks m _ HP) as (n & Hn & _). pose proof (padded_bytes m _ Hm Hl HP) as Hb. rewrite (sha_run m n Hl Hn). split.
  - intros (P & n' & Hs & HP' & Hn' & HLs & H0 & HF & ->). rewrite (padded_det m P (sha_pad m) HP' HP) in *. assert (n' = n) by lia. subst n'.
    rewrite (run_det n (sha_pad m) sha_init Hs Hn Hb init_words (initial_det _ H0) HF). reflexivity.
  - intros ->. destruct (run_ok n (sha_pad m) sha_init Hn Hb init_words) as (Hs & H1 & H2 & H3 & H4). exists (sha_pad m), n, Hs.
    split; [exact HP|]. split; [exact Hn|]. split; [exact H1|]. split; [rewrite H2; exact init_initial|]. split; [exact H3|]. rewrite H4. reflexivity.
Qed.
(*@T C123: the numbers the constants are made from are the first 64 primes, in order. *)
Lemma p_C123_primes : length primes64 = 64%nat /\ (forall i, (i < 63)%nat -> nth i primes64 0 < nth (i + 1) primes64 0) /\
  forall p, p <= 311 -> (In p primes64 <-> 1 < p /\ forall d, (d | p) -> d = 1 \/ d = p).
Proof.
  split; [reflexivity|]. split.
  - intros i Hi. apply N.ltb_lt. revert i Hi. apply (all_nth (fun i => nth i primes64 0 <? nth (i + 1) primes64 0)). vm_compute. reflexivity.
  - set (isp := fun p => (1 <? p) && forallb (fun d => negb (p mod N.of_nat d =? 0)) (seq 2 (N.to_nat p - 2))).
    assert (A : forall p, p <= 311 -> isp p = existsb (N.eqb p) primes64).
    { intros p Hp. assert (X : forall t, (t < 312)%nat -> Bool.eqb (isp (N.of_nat t)) (existsb (N.eqb (N.of_nat t)) primes64) = true) by (apply all_nth; vm_compute; reflexivity).
      specialize (X (N.to_nat p) ltac:(lia)). rewrite Nnat.N2Nat.id in X. apply Bool.eqb_prop in X. exact X. }
    intros p Hp. assert (B : In p primes64 <-> isp p = true).
    { rewrite (A p Hp). rewrite existsb_exists. split; [intros H; exists p; split; [exact H|apply N.eqb_refl]|intros (x & H & E); apply N.eqb_eq in E; subst x; exact H]. }
    rewrite B. clear A B. unfold isp. rewrite Bool.andb_true_iff, N.ltb_lt, forallb_forall. split; intros [H1 H2]; (split; [exact H1|]).
    + intros d Hd. destruct (N.eq_dec d p) as [->|Hne]; [right; reflexivity|left]. pose proof (N.divide_pos_le d p ltac:(lia) Hd) as Hle.
      destruct (N.eq_dec d 0) as [->|Hz]; [apply N.divide_0_l in Hd; lia|]. destruct (N.eq_dec d 1) as [H|H]; [exact H|exfalso].
      assert (Hi : In (N.to_nat d) (seq 2 (N.to_nat p - 2))) by (apply in_seq; lia). specialize (H2 _ Hi). rewrite Nnat.N2Nat.id in H2. apply N.mod_divide in Hd; [|exact Hz]. rewrite Hd in H2. discriminate H2.
    + intros d Hd. apply in_seq in Hd. destruct (N.eqb_spec (p mod N.of_nat d) 0) as [E|E]; [exfalso|reflexivity]. apply N.mod_divide in E; [|lia]. destruct (H2 _ E); lia.
Qed.

(** ** Collisions *)
Definition compression_collision : Prop := exists H M H' M' X, chaining H /\ chaining H' /\ sha_block M /\ sha_block M' /\ (H, M) <> (H', M') /\ follows H M X /\ follows H' M' X.
Lemma words_inj n : forall b b', (length b = 4 * n)%nat -> length b' = length b -> bytes_ok b -> bytes_ok b' -> words b = words b' -> b = b'.
Proof.
  induction n as [|n IH]; intros l l' Hl Hl' Hb Hb' E; [destruct l; [|discriminate Hl]; destruct l'; [reflexivity|discriminate Hl']|].
  destruct l as [|a [|b [|c [|d t]]]]; cbn [length] in Hl; try lia. destruct l' as [|a' [|b' [|c' [|d' t']]]]; cbn [length] in Hl'; try lia.
  cbn [words] in E. assert (E1 := f_equal (hd 0) E). assert (E2 := f_equal (@tl N) E). cbn [hd tl] in E1, E2. clear E.
  unfold bytes_ok, byte_ok in Hb, Hb'. repeat match goal with X : Forall _ (_ :: _) |- _ => inversion X; clear X; subst end.
  assert (a = a' /\ b = b' /\ c = c' /\ d = d') as (-> & -> & -> & ->) by lia. do 4 f_equal. apply IH; try assumption; lia.
Qed.
Lemma differ h h' b b' : words8 h -> words8 h' -> length b = 64%nat -> length b' = 64%nat -> bytes_ok b -> bytes_ok b' -> (h, b) <> (h', b') -> compress h b = compress h' b' -> compression_collision.
Proof.
  intros Hh Hh' L L' Hb Hb' Hne E. exists (lst h), (words b), (lst h'), (words b'), (lst (compress h b)).
  split; [split; [reflexivity|exact Hh]|]. split; [split; [reflexivity|exact Hh']|]. pose proof (words_block b L Hb) as B1. pose proof (words_block b' L' Hb') as B2. split; [exact B1|]. split; [exact B2|].
  split; [|split; [apply compress_follows; assumption|rewrite E; apply compress_follows; assumption]].
  intros X. apply Hne. f_equal; [rewrite <- (st_lst h), <- (st_lst h'); congruence|]. apply (words_inj 16); try assumption; congruence.
Qed.
Lemma run_collide n : forall P P' h h', length P = (64 * n)%nat -> length P' = (64 * n)%nat -> bytes_ok P -> bytes_ok P' -> words8 h -> words8 h' -> run n P h = run n P' h' ->
  (h = h' /\ P = P') \/ compression_collision.
Proof.
  induction n as [|n IH]; intros P P' h h' L L' Hb Hb' Hh Hh' E.
  - left. split; [exact E|]. destruct P; [|discriminate L]. destruct P'; [reflexivity|discriminate L'].
  - cbn [run] in E. destruct (first_block n P L Hb) as (B1 & B2 & B3 & B4). destruct (first_block n P' L' Hb') as (B1' & B2' & B3' & B4').
    destruct (IH _ _ _ _ B3 B3' B4 B4' (compress_words _ _) (compress_words _ _) E) as [[E1 E2]|C]; [|right; exact C].
    destruct (bytes_eq_dec (lst h) (lst h')) as [Eh|Eh]; [|right; refine (differ _ _ _ _ Hh Hh' B1 B1' B2 B2' _ E1); congruence].
    destruct (bytes_eq_dec (firstn 64 P) (firstn 64 P')) as [Ep|Ep]; [|right; refine (differ _ _ _ _ Hh Hh' B1 B1' B2 B2' _ E1); congruence].
    left. split; [rewrite <- (st_lst h), <- (st_lst h'); congruence|]. rewrite <- (firstn_skipn 64 P), <- (firstn_skipn 64 P'). congruence.
Qed.
Lemma run_last n : forall P h, length P = (64 * S n)%nat -> run (S n) P h = compress (run n P h) (skipn (64 * n) P).
Proof.
  induction n as [|n IH]; intros P h L.
  - cbn [run]. rewrite Nat.mul_0_r. change (skipn 0 P) with P. rewrite firstn_all2 by lia. reflexivity.
  - change (run (S (S n)) P h) with (run (S n) (skipn 64 P) (compress h (firstn 64 P))). rewrite IH by (rewrite skipn_length; lia). cbn [run]. f_equal. rewrite skip_skip. f_equal. lia.
Qed.
Lemma app_same {A} (a b c d : list A) : length a = length c -> a ++ b = c ++ d -> a = c /\ b = d.
Proof. revert c. induction a as [|x a IH]; intros [|y c] L E; try discriminate L; [split; [reflexivity|exact E]|]. cbn [app] in E. injection E as -> E. destruct (IH c ltac:(cbn [length] in L; lia) E) as [-> ->]. split; reflexivity. Qed.
Lemma digest_inj s s' : words8 s -> words8 s' -> concat (map be4 (lst s)) = concat (map be4 (lst s')) -> s = s'.
Proof.
  intros H H' E. rewrite <- !digest_lst in E by assumption. apply words8_in in H as (H1 & H2 & H3 & H4 & H5 & H6 & H7 & H8). apply words8_in in H' as (H1' & H2' & H3' & H4' & H5' & H6' & H7' & H8').
  destruct s as [a b c d e f g h], s' as [a' b' c' d' e' f' g' h']. cbn [sa sb sc sd se sf sg sh] in *.
  repeat (apply app_same in E; [|rewrite !to_be_length; reflexivity]; let X := fresh in destruct E as [X E]; apply to_be_inj in X; [|assumption..]). apply to_be_inj in E; [|assumption..]. congruence.
Qed.
Lemma last_bytes m P n : N.of_nat (length m) < 2 ^ 61 -> padded m P -> length P = (64 * S n)%nat -> skipn 56 (skipn (64 * n) P) = be8 (8 * N.of_nat (length m)).
Proof.
  intros Hl (z & _ & E & _) L. rewrite skip_skip. rewrite !app_assoc in E. rewrite E in L |- *. rewrite app_length in L. change (length (be8 (8 * N.of_nat (length m)))) with 8%nat in L.
  rewrite skipn_app, skipn_all2 by lia. cbn [app]. match goal with |- skipn ?k _ = _ => replace k with 0%nat by lia end. reflexivity.
Qed.
(*@T C123: two messages with the same SHA-256 give a collision of the compression function: two different pairs of eight and sixteen words that it maps to the same words. *)
Lemma p_C123_collision : forall m m', bytes_ok m -> bytes_ok m' -> N.of_nat (length m) < 2 ^ 61 -> N.of_nat (length m') < 2 ^ 61 -> collision m m' ->
  exists H M H' M' X, chaining H /\ chaining H' /\ sha_block M /\ sha_block M' /\ (H, M) <> (H', M') /\ follows H M X /\ follows H' M' X.
Proof.
  intros m m' Hm Hm' Hl Hl' [Hne E]. change compression_collision.
  pose proof (pad_ok m Hl) as HP. destruct (padded_blocks m _ HP) as (n & Hn & Hz). pose proof (padded_bytes m _ Hm Hl HP) as Hb.
  pose proof (pad_ok m' Hl') as HP'. destruct (padded_blocks m' _ HP') as (n' & Hn' & Hz'). pose proof (padded_bytes m' _ Hm' Hl' HP') as Hb'.
  rewrite (sha_run m n Hl Hn), (sha_run m' n' Hl' Hn') in E. apply digest_inj in E; [|apply run_words, init_words..].
  destruct (Nat.eq_dec (length m) (length m')) as [El|El].
  - assert (n = n').
    { destruct HP as (z & z1 & z2 & z3), HP' as (z' & z1' & z2' & z3'). rewrite z2 in Hn, z3. rewrite z2' in Hn', z3'. rewrite !app_length, repeat_length in Hn, Hn', z3, z3'.
      repeat match goal with X : context [length (be8 ?x)] |- _ => change (length (be8 x)) with 8%nat in X end. cbn [length] in Hn, Hn', z3, z3'. lia. }
    subst n'. destruct (run_collide n _ _ _ _ Hn Hn' Hb Hb' init_words init_words E) as [[_ X]|X]; [exfalso|exact X].
    apply Hne. unfold sha_pad in X. cbv zeta in X. apply app_same in X; [apply X|exact El].
  - destruct n as [|n]; [contradiction|]. destruct n' as [|n']; [contradiction|]. rewrite !run_last in E by assumption.
    refine (differ _ _ _ _ (run_words _ _ _ init_words) (run_words _ _ _ init_words) _ _ _ _ _ E); [rewrite skipn_length; lia|rewrite skipn_length; lia| | |].
    + apply Forall_forall. intros x Hx. apply (proj1 (Forall_forall _ _) Hb). rewrite <- (firstn_skipn (64 * n)). apply in_or_app. right. exact Hx.
    + apply Forall_forall. intros x Hx. apply (proj1 (Forall_forall _ _) Hb'). rewrite <- (firstn_skipn (64 * n')). apply in_or_app. right. exact Hx.
    + intros X. assert (Y : skipn (64 * n) (sha_pad m) = skipn (64 * n') (sha_pad m')) by congruence. apply (f_equal (skipn 56)) in Y.
      rewrite (last_bytes m _ n Hl HP Hn), (last_bytes m' _ n' Hl' HP' Hn') in Y. rewrite <- !to_be8 in Y by lia. apply to_be_inj in Y; [lia|change (256 ^ N.of_nat 8) with (2 ^ 64); lia..].
Qed.

(*@E
(* "abc", the example of the standard *)
Example C123_ex : is_sha256 [97; 98; 99]
  [186; 120; 22; 191; 143; 1; 207; 234; 65; 65; 64; 222; 93; 174; 34; 35; 176; 3; 97; 163; 150; 23; 122; 156; 180; 16; 255; 97; 242; 0; 21; 173].
Proof. apply C123_standard; [repeat constructor|reflexivity|symmetry; exact sha256_abc]. Qed.
Example C123_ex_constants : root_bits 2 2 1779033703 /\ root_bits 3 2 1116352408 /\ ~ root_bits 3 2 1116352409.
Proof.
  assert (H : root_bits 3 2 1116352408) by (exact (sha_k_root 0 (le_n_S _ _ (le_0_n _)))).
  split; [exact (sha_iv_root 0 (le_n_S _ _ (le_0_n _)))|]. split; [exact H|]. intros X. pose proof (root_bits_det 3 2 _ _ ltac:(discriminate) H X) as Y. discriminate Y.
Qed.
(* the compression function has inputs and outputs *)
Example C123_ex_follows : exists H M X, chaining H /\ sha_block M /\ follows H M X /\ chaining X.
Proof.
  exists (lst sha_init), (words (repeat 0 64)), (lst (compress sha_init (repeat 0 64))).
  assert (B : sha_block (words (repeat 0 64))) by (apply words_block; [reflexivity|apply repeat_ok]).
  split; [split; [reflexivity|exact init_words]|]. split; [exact B|]. split; [exact (compress_follows _ _ init_words B)|]. split; [reflexivity|apply compress_words].
Qed.
@*)
