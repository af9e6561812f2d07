(** Lemmas about the codecs of Tools.v. *)
From Coq Require Import Lia ZifyBool ZifyNat ZifyN.
From Verif Require Import Base Sha256 Merkle Tools Spec BaseFacts.

(** ** Sizes in bits *)

Lemma size_nat_N n : N.of_nat (N.size_nat n) = N.size n.
Proof.
  destruct n as [|p]; [reflexivity|]. cbn [N.size_nat N.size].
  induction p as [p IH|p IH|]; cbn [Pos.size_nat Pos.size]; try reflexivity;
    rewrite Nat2N.inj_succ, IH; reflexivity.
Qed.

Lemma size_bounds x : x <> 0 -> 2 ^ (N.size x - 1) <= x < 2 ^ N.size x.
Proof.
  intros H. rewrite N.size_log2 by exact H.
  replace (N.succ (N.log2 x) - 1) with (N.log2 x) by lia.
  apply N.log2_spec. lia.
Qed.

Lemma size_le_iff x n : N.size x <= n <-> x < 2 ^ n.
Proof.
  destruct (N.eq_dec x 0) as [->|H].
  - cbn. assert (0 < 2 ^ n) by (apply N.neq_0_lt_0, N.pow_nonzero; lia). lia.
  - destruct (size_bounds x H) as [H1 H2]. split; intros Hn.
    + eapply N.lt_le_trans; [exact H2|]. apply N.pow_le_mono_r; lia.
    + destruct (N.le_gt_cases (N.size x) n) as [Hc|Hc]; [exact Hc|]. exfalso.
      assert (2 ^ n <= 2 ^ (N.size x - 1)) by (apply N.pow_le_mono_r; lia). lia.
Qed.

Lemma pow256 n : 256 ^ n = 2 ^ (8 * n).
Proof. rewrite N.pow_mul_r. reflexivity. Qed.

(** ** U256 *)

Fixpoint strip (l : bytes) : bytes :=
  match l with
  | [] => []
  | b :: t => if negb (b =? 0) then b :: t else strip t
  end.

Definition payload (x : N) : bytes := strip (to_be 32 x).
Definition enc (x : N) : bytes := N.of_nat (length (payload x)) :: payload x.

Lemma strip_length l : (length (strip l) <= length l)%nat.
Proof. induction l as [|b l IH]; cbn [strip length]; [lia|]. destruct (negb (b =? 0)); cbn [length]; lia. Qed.

Lemma strip_value l : from_be (strip l) = from_be l.
Proof.
  induction l as [|b l IH]; cbn [strip]; [reflexivity|].
  destruct (N.eqb_spec b 0) as [->|H]; cbn [negb]; [|reflexivity].
  rewrite IH, from_be_cons. lia.
Qed.

Lemma strip_hd l : hd_error (strip l) <> Some 0.
Proof.
  induction l as [|b l IH]; cbn [strip]; [discriminate|].
  destruct (N.eqb_spec b 0) as [->|H]; cbn [negb]; [exact IH|]. cbn. congruence.
Qed.

Lemma strip_ok l : bytes_ok l -> bytes_ok (strip l).
Proof.
  induction l as [|b l IH]; cbn [strip]; intros H; [exact H|].
  destruct (negb (b =? 0)); [exact H|]. apply IH. inversion H; assumption.
Qed.

Lemma dump_loop_found bs c buf : dump_loop bs true c buf = (c + N.of_nat (length bs), buf ++ bs).
Proof.
  revert c buf; induction bs as [|b bs IH]; intros c buf; cbn [dump_loop length].
  - rewrite app_nil_r. f_equal. lia.
  - rewrite IH, <- app_assoc. f_equal. lia.
Qed.

Lemma dump_loop_strip bs c buf :
  dump_loop bs false c buf = (c + N.of_nat (length (strip bs)), buf ++ strip bs).
Proof.
  revert c buf; induction bs as [|b bs IH]; intros c buf; cbn [dump_loop strip].
  - rewrite app_nil_r. f_equal. cbn. lia.
  - destruct (negb (b =? 0)); [|apply IH].
    rewrite dump_loop_found. cbn [length]. rewrite <- app_assoc. f_equal. lia.
Qed.

Lemma limbs_be x : concat (map (to_be 8) (rev (limbs x))) = to_be 32 x.
Proof.
  cbn [limbs rev app map concat].
  change 32%nat with (8 + (8 + (8 + 8)))%nat.
  rewrite (to_be_app 8 (8 + (8 + 8))), (to_be_app 8 (8 + 8)), (to_be_app 8 8).
  rewrite app_nil_r.
  change (2 ^ 64) with (256 ^ N.of_nat 8). rewrite !to_be_mod.
  change (256 ^ N.of_nat (8 + (8 + 8))) with (2 ^ 192).
  change (256 ^ N.of_nat (8 + 8)) with (2 ^ 128). reflexivity.
Qed.

Lemma dump_u256_eq x buf : dump_u256 x buf = buf ++ enc x.
Proof.
  unfold dump_u256. rewrite limbs_be, dump_loop_strip. fold (payload x).
  rewrite app_length. cbn [length]. replace (length buf + 1 - 1)%nat with (length buf) by lia.
  rewrite <- app_assoc. cbn [app]. rewrite replace_app by reflexivity. reflexivity.
Qed.

Lemma payload_length x : (length (payload x) <= 32)%nat.
Proof. unfold payload. rewrite <- (to_be_length 32 x) at 2. apply strip_length. Qed.

Lemma payload_ok x : bytes_ok (payload x).
Proof. apply strip_ok, to_be_ok. Qed.

Lemma payload_value x : u256_ok x -> from_be (payload x) = x.
Proof. intros H. unfold payload. rewrite strip_value. apply from_to_be_small. exact H. Qed.

Lemma be_val_from_be l : be_val l = from_be l.
Proof. induction l as [|b l IH]; [reflexivity|]. cbn [be_val]. rewrite IH, from_be_cons. reflexivity. Qed.

Lemma payload_minimal x : u256_ok x -> minimal_be x (payload x).
Proof.
  intros H. split; [apply payload_ok|]. split; [|apply strip_hd].
  rewrite be_val_from_be. apply payload_value, H.
Qed.

Lemma enc_ok x : bytes_ok (enc x).
Proof. constructor; [|apply payload_ok]. pose proof (payload_length x). unfold byte_ok. lia. Qed.

Lemma enc_length x : length (enc x) = S (length (payload x)).
Proof. reflexivity. Qed.

Lemma enc_0 : enc 0 = [0].
Proof. reflexivity. Qed.

Lemma load_enc x s : u256_ok x -> load_u256 (enc x ++ s) = Ok (x, length (payload x)).
Proof.
  intros H. pose proof (payload_length x) as Hl.
  unfold load_u256, enc. cbn [app index nth_error bind].
  rewrite Nat2N.id.
  destruct (Nat.ltb_spec 32 (length (payload x))) as [Hc|_]; [lia|].
  cbn [length]. rewrite app_length.
  destruct (Nat.ltb_spec (S (length (payload x) + length s)) (length (payload x))) as [Hc|_]; [lia|].
  change (N.of_nat (length (payload x)) :: payload x ++ s)
    with ([N.of_nat (length (payload x))] ++ payload x ++ s).
  rewrite slice_app3 by reflexivity. cbn [bind]. rewrite payload_value by exact H. reflexivity.
Qed.

Lemma enc_inj_app x y s s' : u256_ok x -> u256_ok y -> enc x ++ s = enc y ++ s' -> x = y /\ s = s'.
Proof.
  intros Hx Hy H. assert (x = y) as ->.
  { pose proof (load_enc x s Hx) as H1. rewrite H, load_enc in H1 by exact Hy. congruence. }
  split; [reflexivity|]. apply app_inv_head in H. exact H.
Qed.

Lemma minimal_length x l : minimal_be x l -> x <> 0 ->
  256 ^ (N.of_nat (length l) - 1) <= x < 256 ^ N.of_nat (length l).
Proof.
  intros (Hok & Hv & Hh) Hx. rewrite be_val_from_be in Hv. subst x.
  split; [|apply from_be_bound, Hok].
  destruct l as [|b l]; [contradiction Hx; reflexivity|].
  assert (b <> 0) by (intros ->; apply Hh; reflexivity).
  rewrite from_be_cons. cbn [length]. replace (N.of_nat (S (length l)) - 1) with (N.of_nat (length l)) by lia.
  nia.
Qed.

Lemma u256_size_nonzero x : u256_ok x -> x <> 0 -> u256_size x = length (enc x).
Proof.
  intros Hok Hx. rewrite enc_length. set (n := length (payload x)).
  destruct (minimal_length x (payload x) (payload_minimal x Hok) Hx) as [H1 H2]. fold n in H1, H2.
  assert (Hn : (0 < n)%nat).
  { destruct n; [|lia]. cbn in H2. lia. }
  rewrite pow256 in H1, H2.
  apply size_le_iff in H2.
  assert (H3 : 8 * (N.of_nat n - 1) < N.size x).
  { apply N.nle_gt. intros Hc. apply size_le_iff in Hc. lia. }
  unfold u256_size. rewrite <- size_nat_N in H2, H3. set (s := N.size_nat x) in *.
  destruct (Nat.eqb_spec s 0) as [E|_]; [lia|].
  assert (Hd : (s = 8 * (s / 8) + s mod 8)%nat) by (apply Nat.div_mod; lia).
  assert (Hm : (s mod 8 < 8)%nat) by (apply Nat.mod_upper_bound; lia).
  destruct (Nat.eqb_spec (s mod 8) 0) as [E|E]; lia.
Qed.

Lemma u256_size_0 : u256_size 0 = 2%nat.
Proof. reflexivity. Qed.

(** Exact behaviour of [load_u256] on every input. *)
Lemma load_u256_cases data : bytes_ok data ->
  load_u256 data =
  match data with
  | [] => Panic
  | b :: t =>
      if 32 <? b then Err EToolsDump
      else if N.of_nat (length t) + 1 <? b then Err EToolsLoad
      else if N.of_nat (length t) <? b then Panic
      else Ok (from_be (firstn (N.to_nat b) t), N.to_nat b)
  end.
Proof.
  intros Hok. destruct data as [|b t]; [reflexivity|].
  unfold load_u256. cbn [index nth_error bind].
  destruct (Nat.ltb_spec 32 (N.to_nat b)) as [H|H]; destruct (N.ltb_spec 32 b) as [H'|H']; try lia; try reflexivity.
  cbn [length].
  destruct (Nat.ltb_spec (S (length t)) (N.to_nat b)) as [H1|H1];
    destruct (N.ltb_spec (N.of_nat (length t) + 1) b) as [H1'|H1']; try lia; try reflexivity.
  destruct (N.ltb_spec (N.of_nat (length t)) b) as [H2|H2].
  - rewrite slice_panic; [reflexivity|]. cbn [length]. lia.
  - rewrite slice_in; [|lia|cbn [length]; lia].
    cbn [skipn bind]. replace (1 + N.to_nat b - 1)%nat with (N.to_nat b) by lia. reflexivity.
Qed.

Lemma load_u256_ok data x n : load_u256 data = Ok (x, n) ->
  exists b t, data = b :: t /\ n = N.to_nat b /\ (n <= 32)%nat /\ (n <= length t)%nat /\
              x = from_be (firstn n t).
Proof.
  unfold load_u256. destruct data as [|b t]; [discriminate|]. cbn [index nth_error bind].
  destruct (Nat.ltb_spec 32 (N.to_nat b)); [discriminate|].
  destruct (Nat.ltb_spec (length (b :: t)) (N.to_nat b)); [discriminate|].
  intros Hb. apply bind_ok in Hb as (s & Hs & Hr). injection Hr as <- <-.
  apply slice_ok in Hs as ((H1 & H2) & H3 & H4). exists b, t. cbn [length] in H2.
  repeat split; try lia. rewrite H3. cbn [skipn]. do 2 f_equal. lia.
Qed.

Lemma from_be_u256 l : bytes_ok l -> (length l <= 32)%nat -> u256_ok (from_be l).
Proof.
  intros H Hl. pose proof (from_be_bound l H) as Hb. unfold u256_ok.
  eapply N.lt_le_trans; [exact Hb|]. change (2 ^ 256) with (256 ^ 32). apply N.pow_le_mono_r; lia.
Qed.

Lemma load_u256_value_ok data x n : bytes_ok data -> load_u256 data = Ok (x, n) -> u256_ok x.
Proof.
  intros Hok H. apply load_u256_ok in H as (b & t & -> & _ & H1 & H2 & ->).
  apply from_be_u256; [|rewrite firstn_length; lia].
  apply bytes_ok_firstn. inversion Hok; assumption.
Qed.

(** ** BigUint *)

Definition bunches (x : N) : nat := Nat.max 1 ((N.size_nat x + 7) / 8)%nat.

Lemma dump_biguint_eq x buf :
  dump_biguint x buf =
  if Nat.ltb 255 (bunches x) then Err EToolsDump
  else Ok (buf ++ N.of_nat (bunches x) :: to_be (bunches x) x).
Proof.
  unfold dump_biguint, biguint_to_bytes_le. fold (bunches x).
  rewrite rev_length, to_be_length, rev_involutive. reflexivity.
Qed.

Lemma bunches_spec x n : (1 <= n)%nat -> ((bunches x <= n)%nat <-> x < 256 ^ N.of_nat n).
Proof.
  intros Hn. rewrite pow256, <- size_le_iff, <- size_nat_N. unfold bunches.
  assert ((N.size_nat x + 7 = 8 * ((N.size_nat x + 7) / 8) + (N.size_nat x + 7) mod 8)%nat) by (apply Nat.div_mod; lia).
  assert (((N.size_nat x + 7) mod 8 < 8)%nat) by (apply Nat.mod_upper_bound; lia). lia.
Qed.

Lemma bunches_value x : from_be (to_be (bunches x) x) = x.
Proof. apply from_to_be_small. apply bunches_spec; [unfold bunches; lia|lia]. Qed.

Lemma bigint_size_eq x : bigint_size x = S (bunches x).
Proof.
  unfold bigint_size, u256_size, bunches. set (s := N.size_nat x).
  destruct (Nat.eqb_spec s 0) as [E|E].
  - rewrite E. reflexivity.
  - assert (Hd : (s = 8 * (s / 8) + s mod 8)%nat) by (apply Nat.div_mod; lia).
    assert (Hm : (s mod 8 < 8)%nat) by (apply Nat.mod_upper_bound; lia).
    assert ((s + 7 = 8 * ((s + 7) / 8) + (s + 7) mod 8)%nat) by (apply Nat.div_mod; lia).
    assert (((s + 7) mod 8 < 8)%nat) by (apply Nat.mod_upper_bound; lia).
    destruct (Nat.eqb_spec (s mod 8) 0); lia.
Qed.

Lemma load_biguint_app n pl s : length pl = n -> (n <= 255)%nat ->
  load_biguint ((N.of_nat n :: pl) ++ s) = Ok (from_be pl, S n).
Proof.
  intros Hl Hn. unfold load_biguint. cbn [app index nth_error bind]. rewrite Nat2N.id.
  cbn [length]. rewrite app_length.
  destruct (Nat.ltb_spec (S (length pl + length s)) n); [lia|].
  change (N.of_nat n :: pl ++ s) with ([N.of_nat n] ++ pl ++ s).
  rewrite slice_app3 by (cbn [length]; lia). cbn [bind]. do 3 f_equal. lia.
Qed.

Lemma load_biguint_enc x s : u256_ok x -> load_biguint (enc x ++ s) = Ok (x, length (enc x)).
Proof.
  intros H. unfold enc. rewrite load_biguint_app; [|reflexivity|pose proof (payload_length x); lia].
  rewrite payload_value by exact H. reflexivity.
Qed.

Lemma load_biguint_cases data : bytes_ok data ->
  load_biguint data =
  match data with
  | [] => Panic
  | b :: t =>
      if N.of_nat (length t) + 1 <? b then Err EToolsLoad
      else if N.of_nat (length t) <? b then Panic
      else Ok (from_be (firstn (N.to_nat b) t), S (N.to_nat b))
  end.
Proof.
  intros Hok. destruct data as [|b t]; [reflexivity|].
  unfold load_biguint. cbn [index nth_error bind length].
  destruct (Nat.ltb_spec (S (length t)) (N.to_nat b)) as [H1|H1];
    destruct (N.ltb_spec (N.of_nat (length t) + 1) b) as [H1'|H1']; try lia; try reflexivity.
  destruct (N.ltb_spec (N.of_nat (length t)) b) as [H2|H2].
  - rewrite slice_panic; [reflexivity|]. cbn [length]. lia.
  - rewrite slice_in; [|lia|cbn [length]; lia].
    cbn [skipn bind]. replace (1 + N.to_nat b - 1)%nat with (N.to_nat b) by lia.
    rewrite Nat.add_1_r. reflexivity.
Qed.
