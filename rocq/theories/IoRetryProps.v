(** Repeating calls that failed; balances after calls that failed. *)
From Coq Require Import Lia ZifyBool ZifyNat ZifyN.
From Verif Require Import Base Sha256 Merkle Tools Transaction Block Sled Chain Tree Spec Reach QuietSpec Conc ConcTree ConcFlush ConcEmit Cancel ConcDeriv Io IoSpec Demo.
From Verif Require Import BaseFacts ToolsFacts MerkleFacts DiffFacts CodecFacts SledFacts ChainFacts TreeFacts LedgerFacts CrashFacts ConcFacts EmitFacts QuietProps IoFacts IoSure IoProps.

Local Strategy 1000 [u256_mul u256_add u256_sub BYTE_GAS_PRICE t_get_amount t_get_gas mc_decode dc_decode recalculate_fee recalculate_difficulty t_send_amount t_sub_gas sled_get check_pow emit_block next_info dc_new mc_read_config genesis_block].

Lemma sm_insert_twice k v m : sm_insert k v (sm_insert k v m) = sm_insert k v m.
Proof.
  induction m as [|[k0 v0] m IH]; cbn [sm_insert]; [rewrite bytes_cmp_refl; reflexivity|]. destruct (bytes_cmp k k0) eqn:C; cbn [sm_insert]; rewrite ?bytes_cmp_refl, ?C; [reflexivity|reflexivity|]. f_equal. exact IH.
Qed.
Lemma insert_twice k v s : sled_flush (sled_insert k v (sled_insert k v s)) = sled_flush (sled_insert k v s).
Proof. unfold sled_flush, sled_insert, sled_commit. cbn [cur]. unfold apply_batch. cbn [fold_left]. rewrite sm_insert_twice. reflexivity. Qed.
Lemma with_main_id t : with_main t (t_main t) = t. Proof. destruct t; reflexivity. Qed.

(** ** Adding a block to the main chain *)
Definition part (b : block) (m m' : main_chain) : Prop :=
  m' = m \/ bi_height (get_info b) = mc_height m /\ (m' = put_block b m \/ m' = put_ref b (put_block b m)).
Definition at_tree (t : bct) (h : host) : Prop := h_tree h = t.
Lemma f_mop t e f : hoare (at_tree t) (main_op e f) (fun r h => match r with Ok _ => at_tree (with_main t (f (t_main t))) h | _ => at_tree t h \/ at_tree (with_main t (f (t_main t))) h end).
Proof. unfold at_tree. apply h_op. intros s <-. split; [left; reflexivity|]. split; [right; reflexivity|reflexivity]. Qed.
Lemma f_mget t : hoare (at_tree t) main_get (fun r h => at_tree t h /\ r = Ok (t_main t)).
Proof. unfold at_tree. apply h_mget. intros s <-. split; reflexivity. Qed.
Lemma f_add t b : mc_height (t_main t) + 1 < 2 ^ 256 ->
  hoare (at_tree t) (add_block_io b) (fun r h => match r with Ok _ => at_tree (with_main t (mc_appended b (t_main t))) h | _ => exists m', at_tree (with_main t m') h /\ part b (t_main t) m' end).
Proof.
  intros Hlt. unfold add_block_io. eapply h_bind; [apply f_mget|intros s; split; [intros e [_ X]|split; intros [_ X]]; discriminate X|]. intros m. apply h_pure. intros X. apply ok_inv in X. subst m.
  destruct (N.eqb_spec (bi_height (get_info b)) (mc_height (t_main t))) as [Hh|Hh]; cbn [negb]; [|apply h_out; intros s A; exists (t_main t); split; [rewrite with_main_id; exact A|left; reflexivity]].
  eapply h_bind; [apply f_mop| |].
  { intros s. cbn beta iota. repeat split; intros; (match goal with X : _ \/ _ |- _ => destruct X as [A|A] end; [exists (t_main t); split; [rewrite with_main_id; exact A|left; reflexivity]|eexists; split; [exact A|right; split; [exact Hh|left; reflexivity]]]). }
  intros u1. eapply h_bind; [apply f_mop| |].
  { intros s. cbn beta iota. repeat split; intros; (match goal with X : _ \/ _ |- _ => destruct X as [A|A] end; [eexists; split; [exact A|right; split; [exact Hh|left; reflexivity]]|eexists; split; [exact A|right; split; [exact Hh|right; reflexivity]]]). }
  intros u2. unfold u256_add. destruct (N.ltb_spec (mc_height (t_main t) + 1) (2 ^ 256)); [|lia].
  eapply h_bind with (R := fun r h => at_tree (with_main (with_main t (put_block b (t_main t))) (put_ref b (t_main (with_main t (put_block b (t_main t)))))) h /\ r = Ok (mc_height (t_main t) + 1)).
  { apply h_out. intros s A. split; [exact A|reflexivity]. }
  { intros s; split; [intros e [_ X]|split; intros [_ X]]; discriminate X. }
  intros x. apply h_pure. intros X. apply ok_inv in X. subst x. apply h_put. intros s A. unfold at_tree in *. cbn [with_host h_tree]. rewrite A. reflexivity.
Qed.
Lemma retry_add b m m' : part b m m' -> mc_height m + 1 < 2 ^ 256 -> mnorm (fst (mc_add_block b m')) = mnorm (fst (mc_add_block b m)) /\ snd (mc_add_block b m') = snd (mc_add_block b m).
Proof.
  intros [->|(Hh & [-> | ->])] Hlt; [auto| |]; rewrite !mc_add_block_right by assumption; (split; [|reflexivity]); cbn [fst]; unfold mnorm, mc_appended, put_ref, put_block, block_hash; cbn [mc_blocks mc_refs mc_txs mc_height]; rewrite ?insert_twice; reflexivity.
Qed.
Lemma part_read b m m' i : part b m m' -> i < mc_height m -> mc_height m < 2 ^ 256 -> mc_height m' = mc_height m /\ mc_find_raw_by_height i m' = mc_find_raw_by_height i m.
Proof.
  intros [->|(Hh & [-> | ->])] Hi Hlt; [auto| |]; (split; [reflexivity|]); unfold mc_find_raw_by_height; cbn [put_ref put_block mc_height mc_blocks]; rewrite sled_get_insert, height_key_eqb by lia; (destruct (N.eqb_spec i (mc_height m)); [lia|reflexivity]).
Qed.

(** ** Transactions *)
Definition kvs (l : list transaction) : list (bytes * bytes) := map (fun x => (sha256 (tx_dump x), tx_dump x)) l.
Lemma txs_batch l : forall m, mc_add_transactions l m = MkMain (mc_blocks m) (mc_refs m) (mc_txs (mc_add_transactions l m)) (mc_height m) (mc_difficulty m) (mc_cfg m) /\
  cur (mc_txs (mc_add_transactions l m)) = apply_batch (cur (mc_txs m)) (kvs l).
Proof.
  induction l as [|x l IH]; intros m; [split; [destruct m; reflexivity|reflexivity]|]. change (mc_add_transactions (x :: l) m) with (mc_add_transactions l (mc_add_transaction x m)). destruct (IH (mc_add_transaction x m)) as [E1 E2].
  split; [rewrite E1 at 1; reflexivity|]. rewrite E2. reflexivity.
Qed.
Fixpoint last_of_key (k : bytes) (b : list (bytes * bytes)) : option bytes :=
  match b with [] => None | (k', v) :: b => match last_of_key k b with Some x => Some x | None => if bytes_eqb k k' then Some v else None end end.
Lemma get_batch k b : forall m, sm_get k (apply_batch m b) = match last_of_key k b with Some v => Some v | None => sm_get k m end.
Proof.
  induction b as [|[k' v] b IH]; intros m; cbn [last_of_key]; [reflexivity|]. rewrite apply_batch_cons, IH, sm_get_insert. destruct (last_of_key k b); [reflexivity|]. destruct (bytes_eqb k k'); reflexivity.
Qed.
Lemma last_app k b b' : last_of_key k (b ++ b') = match last_of_key k b' with Some x => Some x | None => last_of_key k b end.
Proof. induction b as [|[k' v] b IH]; cbn [app last_of_key]; [destruct (last_of_key k b'); reflexivity|]. rewrite IH. destruct (last_of_key k b'); reflexivity. Qed.
Lemma batch_again b b' m : sm_sorted m -> apply_batch (apply_batch m b) (b ++ b') = apply_batch m (b ++ b').
Proof.
  intros H. apply sm_ext; [apply apply_batch_sorted, apply_batch_sorted, H|apply apply_batch_sorted, H|]. intros k. rewrite !get_batch, last_app. destruct (last_of_key k b'); [reflexivity|]. destruct (last_of_key k b); reflexivity.
Qed.
Lemma txs_again l k m : sm_sorted (cur (mc_txs m)) -> mnorm (mc_add_transactions l (mc_add_transactions (firstn k l) m)) = mnorm (mc_add_transactions l m).
Proof.
  intros H. destruct (txs_batch (firstn k l) m) as [E1 E2]. destruct (txs_batch l (mc_add_transactions (firstn k l) m)) as [F1 F2]. destruct (txs_batch l m) as [G1 G2]. rewrite F1, G1. unfold mnorm, sled_flush. cbn [mc_blocks mc_refs mc_txs mc_height].
  rewrite F2, G2, E2, E1. cbn [mc_blocks mc_refs mc_height]. replace (kvs l) with (kvs (firstn k l) ++ kvs (skipn k l)) by (unfold kvs; rewrite <- map_app, firstn_skipn; reflexivity). rewrite batch_again by exact H. reflexivity.
Qed.
Lemma f_txs l : forall t, hoare (at_tree t) (add_txs_io l) (fun r h => match r with Ok _ => at_tree (with_main t (mc_add_transactions l (t_main t))) h | _ => exists k, at_tree (with_main t (mc_add_transactions (firstn k l) (t_main t))) h end).
Proof.
  induction l as [|x l IH]; intros t; cbn [add_txs_io].
  - apply h_out. intros s A. cbn [mc_add_transactions fold_left]. rewrite with_main_id. exact A.
  - eapply h_bind; [apply f_mop| |].
    + intros s. cbn beta iota. repeat split; intros; (match goal with X : _ \/ _ |- _ => destruct X as [A|A] end; [exists 0%nat; cbn [firstn mc_add_transactions fold_left]; rewrite with_main_id; exact A|exists 1%nat; exact A]).
    + intros u. eapply h_weaken; [apply IH|intros s A; exact A|]. intros [a|e| |] s A; [exact A|destruct A as [k A]; exists (S k); exact A..].
Qed.

(** ** Derivative chains *)
Definition dpart (i : basic_info) (c c' : deriv_chain) : Prop :=
  c' = c \/ bi_height i = dc_height c /\ (c' = put_dblock i c \/ c' = put_dref i (put_dblock i c)).
Lemma assoc_set_id {A} w (c : A) l : assoc_get w l = Some c -> assoc_set w c l = l.
Proof.
  induction l as [|[k v] l IH]; cbn [assoc_get assoc_set]; [discriminate|]. destruct (bytes_eqb w k) eqn:Ek; [|intros E; rewrite IH by exact E; reflexivity]. intros E. injection E as ->. apply bytes_eqb_eq in Ek as ->. reflexivity.
Qed.
Lemma assoc_set_set {A} w (c d : A) l : assoc_set w d (assoc_set w c l) = assoc_set w d l.
Proof. induction l as [|[k v] l IH]; cbn [assoc_set]; [rewrite bytes_eqb_refl; reflexivity|]. destruct (bytes_eqb w k) eqn:E; cbn [assoc_set]; [rewrite bytes_eqb_refl; reflexivity|]. rewrite E. f_equal. exact IH. Qed.
Definition with_chain (t : bct) (w : bytes) (c : deriv_chain) : bct := with_derivs t (assoc_set w c (t_derivs t)).
Lemma with_chain_id t w c : assoc_get w (t_derivs t) = Some c -> with_chain t w c = t.
Proof. intros E. unfold with_chain. rewrite assoc_set_id by exact E. destruct t; reflexivity. Qed.
Lemma with_chain_set t w c f : set_deriv w f (with_chain t w c) = with_chain t w (f c).
Proof. unfold set_deriv, with_chain, deriv_of. cbn [with_derivs t_derivs]. rewrite assoc_get_set, assoc_set_set. reflexivity. Qed.
Lemma f_dop t w c e f : assoc_get w (t_derivs t) = Some c -> forall c0, hoare (at_tree (with_chain t w c0)) (deriv_op e w f) (fun r h => match r with Ok _ => at_tree (with_chain t w (f c0)) h | _ => at_tree (with_chain t w c0) h \/ at_tree (with_chain t w (f c0)) h end).
Proof.
  intros E c0. unfold at_tree. apply h_op. intros s Hs. cbn [lift_tree fst snd with_host h_tree]. rewrite Hs, with_chain_set. auto.
Qed.
Lemma f_get t : hoare (at_tree t) io_get (fun r h => at_tree t h /\ exists n, r = Ok n /\ h_tree n = t).
Proof. unfold at_tree. apply h_get. intros s <-. split; [reflexivity|]. exists s. split; reflexivity. Qed.
Lemma f_dadd t w c i : assoc_get w (t_derivs t) = Some c ->
  hoare (at_tree t) (deriv_add_io w i) (fun r h => match r with Ok _ => True | _ => exists c', at_tree (with_chain t w c') h /\ dpart i c c' end).
Proof.
  intros E. assert (Eof : deriv_of w t = c) by (unfold deriv_of; rewrite E; reflexivity).
  unfold deriv_add_io. eapply h_bind; [apply f_get|intros s; split; [intros e [_ (n & X & _)]|split; intros [_ (n & X & _)]]; discriminate X|]. intros n. apply h_pure. intros (n' & X & En). apply ok_inv in X. subst n'. cbv zeta. rewrite En, Eof.
  destruct (N.eqb_spec (bi_height i) (dc_height c)) as [Hh|Hh]; cbn [negb]; [|apply h_out; intros s A; exists c; split; [rewrite with_chain_id by exact E; exact A|left; reflexivity]].
  rewrite <- (with_chain_id t w c E) at 1. eapply h_bind; [eapply f_dop, E| |].
  { intros s. cbn beta iota. repeat split; intros; (match goal with X : _ \/ _ |- _ => destruct X as [A|A] end; eexists; (split; [exact A|]); [left; reflexivity|right; split; [exact Hh|left; reflexivity]]). }
  intros u1. eapply h_bind; [eapply f_dop, E| |].
  { intros s. cbn beta iota. repeat split; intros; (match goal with X : _ \/ _ |- _ => destruct X as [A|A] end; eexists; (split; [exact A|]); right; (split; [exact Hh|]); [left|right]; reflexivity). }
  intros u2. eapply h_bind with (R := fun r h => at_tree (with_chain t w (put_dref i (put_dblock i c))) h).
  { apply h_out. intros s A. exact A. }
  { intros s. repeat split; intros; (eexists; split; [eassumption|right; split; [exact Hh|right; reflexivity]]). }
  intros x. apply h_put. intros s A. exact I.
Qed.
Lemma retry_dadd i c c' : dpart i c c' -> dnorm (fst (dc_add_block i c')) = dnorm (fst (dc_add_block i c)) /\ snd (dc_add_block i c') = snd (dc_add_block i c).
Proof.
  intros [->|(Hh & [-> | ->])]; [auto| |]; unfold dc_add_block; cbn [put_dref put_dblock dc_height dc_blocks dc_refs dc_genesis dc_difficulty dc_cfg]; rewrite Hh, N.eqb_refl; cbn [negb];
    (destruct (u256_add (dc_height c) 1); (split; [|reflexivity]); cbn [fst]; unfold dnorm; cbn [dc_height dc_blocks dc_refs dc_genesis dc_difficulty]; rewrite ?insert_twice; reflexivity).
Qed.
Lemma pred_key h : 1 <= h -> bytes_eqb (height_key (h - 1)) (height_key h) = false.
Proof.
  intros Hh. apply bytes_eqb_neq. intros E. apply (f_equal from_be) in E. unfold height_key in E. rewrite !from_to_be in E. change (256 ^ N.of_nat 32) with (2 ^ 256) in E.
  set (M := 2 ^ 256) in *. assert (HM : 2 <= M) by (subst M; cbn; lia). clearbody M. set (a := h - 1) in *. replace h with (a + 1) in E by lia. clearbody a. rewrite <- (N.add_mod_idemp_l a 1 M) in E by lia.
  pose proof (N.mod_lt a M ltac:(lia)) as Hr. set (r := a mod M) in *. clearbody r. destruct (N.eq_dec (r + 1) M) as [Er|Er]; [rewrite Er, N.mod_same in E by lia; lia|]. rewrite N.mod_small in E by lia. lia.
Qed.
Lemma dpart_last i c c' : dpart i c c' -> dc_get_last_block c' = dc_get_last_block c /\ dc_genesis c' = dc_genesis c.
Proof.
  intros [->|(Hh & D)]; [auto|]. assert (K : dc_height c' = dc_height c /\ dc_genesis c' = dc_genesis c /\ dc_blocks c' = sled_insert (height_key (dc_height c)) (block_dump (DerivBlock i)) (dc_blocks c)) by (destruct D as [-> | ->]; auto).
  destruct K as (K1 & K2 & K3). split; [|exact K2]. unfold dc_get_last_block, dc_get_last_raw_block, dc_find_raw_by_height. rewrite K1, K3. destruct (N.eqb_spec (dc_height c) 0); [reflexivity|].
  unfold u256_sub. destruct (N.leb_spec 1 (dc_height c)); [|lia]. cbn [bind]. rewrite sled_get_insert, pred_key by lia. reflexivity.
Qed.
Definition deriv_info (p : profile) (pow founder : bytes) (ts : N) (c : deriv_chain) (m : main_chain) : out basic_info :=
  let! last := dc_get_last_block c in
  match last with
  | Some b => let! h := u256_add (bi_height (get_info b)) 1 in next_info p founder pow ts (block_hash b) (bi_difficulty (get_info b)) (bi_timestamp (get_info b)) h
  | None => let! g := mc_find_by_hash (dc_genesis c) m in
            match g with None => Err EChainFindByHash | Some b => next_info p founder pow ts (block_hash b) BEGINNING_DIFFICULTY (bi_timestamp (get_info b)) 0 end
  end.
Lemma demit_seq p pow w ts t : t_emmit_new_derivative_block p pow w ts t =
  let '(t1, rc) := t_get_derivative_chain w t in
  match rc with
  | Ok c => match deriv_info p pow w ts c (t_main t1) with
            | Ok i => (with_chain t1 w (fst (dc_add_block i c)), let! _ := snd (dc_add_block i c) in Ok (DerivBlock i))
            | Err e => (t1, Err e) | Panic => (t1, Panic) | UB => (t1, UB)
            end
  | Err e => (t1, Err e) | Panic => (t1, Panic) | UB => (t1, UB)
  end.
Proof.
  unfold t_emmit_new_derivative_block. destruct (t_get_derivative_chain w t) as [t1 [c|e| |]]; try reflexivity. unfold deriv_info.
  destruct (dc_get_last_block c) as [[b|]|e| |]; cbn [bind]; try reflexivity.
  - destruct (u256_add _ _) as [h|e| |]; cbn [bind]; try reflexivity. rewrite next_info_seq. destruct (next_info _ _ _ _ _ _ _ _) as [i|e| |]; try reflexivity. destruct (dc_add_block i c) as [c' [u|e| |]]; reflexivity.
  - destruct (mc_find_by_hash _ _) as [[b|]|e| |]; cbn [bind]; try reflexivity. rewrite next_info_seq. destruct (next_info _ _ _ _ _ _ _ _) as [i|e| |]; try reflexivity. destruct (dc_add_block i c) as [c' [u|e| |]]; reflexivity.
Qed.
Lemma sure_reads {A} (x : io host A) t r : (forall t, stays (at_tree t) x) -> sure2 x -> x [] (opened t) = ([], opened t, r) -> hoare (at_tree t) x (fun q h => at_tree t h /\ match q with Ok a => r = Ok a | _ => True end).
Proof.
  intros Hs Hu E fs s B. split; [apply Hs, B|]. destruct (snd (x fs s)) as [a|e| |] eqn:Ex; try exact I. unfold at_tree in B. destruct (Hu fs s (opened (h_tree s)) a eq_refl Ex) as (s1 & E1 & _). rewrite B, E in E1. congruence.
Qed.
Lemma at_find t e i : stays (at_tree t) (find_raw_io e i). Proof. unfold find_raw_io. stay. Qed.
#[export] Hint Resolve at_find : stays.
Lemma at_last t : stays (at_tree t) last_block_io. Proof. unfold last_block_io. stay. Qed.
Lemma at_hash t x : stays (at_tree t) (find_by_hash_io x). Proof. unfold find_by_hash_io. stay. Qed.
Lemma at_dlast t w : stays (at_tree t) (deriv_last_io w). Proof. unfold deriv_last_io. stay. Qed.
Lemma at_dnew t d g : stays (at_tree t) (deriv_new_io d g). Proof. unfold deriv_new_io. stay. Qed.
#[export] Hint Resolve at_last at_hash at_dlast at_dnew : stays.
Lemma f_open t w l : hoare (at_tree t) (open_it w l) (fun r h => match r with Ok _ => True | _ => at_tree t h end).
Proof.
  unfold open_it. eapply h_bind; [apply at_last|auto|intros]. eapply h_bind; [apply (s_out (at_tree t))|auto|intros]. eapply h_bind; [apply at_dnew|auto|intros].
  eapply h_bind with (R := fun r h => match r with Ok _ => True | _ => False end); [apply h_put; auto|intros s; repeat split; intros; contradiction|]. intros. apply h_out. auto.
Qed.
Lemma f_gderiv t w : no_config w t -> hoare (at_tree t) (get_deriv_io w) (fun r h => match r with Ok c => t_get_derivative_chain w t = (h_tree h, Ok c) | _ => at_tree t h end).
Proof.
  intros N fs s A. unfold at_tree in A. pose proof (u_gderiv w fs s) as U. rewrite A in U. destruct (snd (get_deriv_io w fs s)) as [c|e| |] eqn:E.
  - destruct (U c N eq_refl) as (s1 & E1 & R). rewrite gderiv_nil in E1. injection E1 as E1 E2. cbn [opened h_tree] in *. destruct (t_get_derivative_chain w t) as [t1 r]. cbn [fst snd] in *. subst r. f_equal. rewrite R in E1. exact (f_equal h_tree E1).
  - rewrite gderiv_eq in *. destruct (assoc_get _ _); [discriminate E|]. pose proof (f_open t w (t_closed (h_tree s)) fs s A) as F. rewrite E in F. exact F.
  - rewrite gderiv_eq in *. destruct (assoc_get _ _); [discriminate E|]. pose proof (f_open t w (t_closed (h_tree s)) fs s A) as F. rewrite E in F. exact F.
  - rewrite gderiv_eq in *. destruct (assoc_get _ _); [discriminate E|]. pose proof (f_open t w (t_closed (h_tree s)) fs s A) as F. rewrite E in F. exact F.
Qed.
Lemma f_demit p pow w ts t : no_config w t -> hoare (at_tree t) (emit_deriv_io p pow w ts) (fun r h => match r with Ok _ => True | _ =>
  at_tree t h \/ exists t1 c, t_get_derivative_chain w t = (t1, Ok c) /\ (at_tree t1 h \/ exists i c', deriv_info p pow w ts c (t_main t1) = Ok i /\ dpart i c c' /\ at_tree (with_chain t1 w c') h) end).
Proof.
  intros N. unfold emit_deriv_io. eapply h_bind; [apply f_gderiv, N|intros s; repeat split; intros; left; assumption|]. intros c.
  apply h_when. intros s0 E0. set (t1 := h_tree s0) in *. eapply h_weaken with (P' := at_tree t1); [|intros s E; unfold at_tree; congruence|intros r s H; exact H].
  assert (Hc : assoc_get w (t_derivs t1) = Some c).
  { clear -E0. unfold t_get_derivative_chain in E0. destruct (assoc_get w (t_derivs t)) as [c0|] eqn:Ec; [injection E0 as <- ->; exact Ec|]. destruct (let! _ := _ in _) as [c0|e| |]; try discriminate E0. injection E0 as <- ->. cbn [with_derivs t_derivs]. apply assoc_get_set. }
  assert (Eof : deriv_of w t1 = c) by (unfold deriv_of; rewrite Hc; reflexivity).
  eapply h_bind; [apply (sure_reads _ t1 (dc_get_last_block c)); [intros; apply at_dlast|apply u_dlast|rewrite dlast_nil; cbn [opened h_tree]; rewrite Eof; reflexivity]|intros s; repeat split; intros; right; exists t1, c; (split; [exact E0|]); left; tauto|].
  intros last. apply h_pure. intros El.
  eapply h_bind with (R := fun q h => at_tree t1 h /\ match q with Ok i => deriv_info p pow w ts c (t_main t1) = Ok i | _ => True end).
  { destruct last as [b|].
    - apply h_out. intros s A. split; [exact A|]. unfold deriv_info. rewrite El. cbn [bind]. destruct (let! _ := _ in _); auto.
    - eapply h_bind; [apply (sure_reads _ t1 (mc_find_by_hash (dc_genesis c) (t_main t1))); [intros; apply at_hash|apply u_hash|apply by_hash_nil]|intros s; repeat split; intros; tauto|].
      intros g. apply h_pure. intros Eg. unfold deriv_info. rewrite El. cbn [bind]. rewrite Eg. cbn [bind]. destruct g; apply h_out; intros s A; (split; [exact A|]); [destruct (next_info _ _ _ _ _ _ _ _); auto|exact I]. }
  { intros s; repeat split; intros; right; exists t1, c; (split; [exact E0|]); left; tauto. }
  intros i. apply h_pure. intros Ei. eapply h_bind; [apply (f_dadd t1 w c i Hc)| |intros; apply h_out; auto].
  intros s; repeat split; intros; right; exists t1, c; (split; [exact E0|]); right; (match goal with X : exists c', _ |- _ => destruct X as (c' & X1 & X2) end; exists i, c'; auto).
Qed.
Lemma norm_chain t w c c' : dnorm c = dnorm c' -> norm (with_chain t w c) = norm (with_chain t w c').
Proof. intros E. apply norm_with_derivs; [reflexivity|]. rewrite !ndnorm_set, E. reflexivity. Qed.
Lemma get_again w t t1 c : t_get_derivative_chain w t = (t1, Ok c) -> t_get_derivative_chain w t1 = (t1, Ok c) /\ t_main t1 = t_main t /\ assoc_get w (t_derivs t1) = Some c.
Proof.
  intros E0. assert (K : assoc_get w (t_derivs t1) = Some c /\ t_main t1 = t_main t).
  { unfold t_get_derivative_chain in E0. destruct (assoc_get w (t_derivs t)) as [c0|] eqn:Ec; [injection E0 as <- ->; auto|]. destruct (let! _ := _ in _) as [c0|e| |]; try discriminate E0. injection E0 as <- ->. cbn [with_derivs t_derivs t_main]. split; [apply assoc_get_set|reflexivity]. }
  destruct K as [K1 K2]. split; [|auto]. unfold t_get_derivative_chain. rewrite K1. reflexivity.
Qed.
Lemma retry_demit p pow w ts t t1 c t' : t_get_derivative_chain w t = (t1, Ok c) -> (t' = t1 \/ exists i c', deriv_info p pow w ts c (t_main t1) = Ok i /\ dpart i c c' /\ t' = with_chain t1 w c') ->
  norm (fst (t_emmit_new_derivative_block p pow w ts t')) = norm (fst (t_emmit_new_derivative_block p pow w ts t)) /\ snd (t_emmit_new_derivative_block p pow w ts t') = snd (t_emmit_new_derivative_block p pow w ts t).
Proof.
  intros E H. destruct (get_again _ _ _ _ E) as (E1 & Em & Ec). rewrite !demit_seq, E. destruct H as [->|(i & c' & Ei & D & ->)]; [rewrite E1; auto|].
  assert (E2 : t_get_derivative_chain w (with_chain t1 w c') = (with_chain t1 w c', Ok c')) by (unfold t_get_derivative_chain; cbn [with_chain with_derivs t_derivs]; rewrite assoc_get_set; reflexivity).
  rewrite E2. destruct (dpart_last _ _ _ D) as [D1 D2]. assert (Ei' : deriv_info p pow w ts c' (t_main (with_chain t1 w c')) = Ok i) by (rewrite <- Ei; unfold deriv_info; rewrite D1, D2; reflexivity).
  rewrite Ei, Ei'. destruct (retry_dadd _ _ _ D) as [R1 R2]. cbn [fst snd]. rewrite R2. split; [|reflexivity].
  replace (with_chain (with_chain t1 w c') w (fst (dc_add_block i c'))) with (with_chain t1 w (fst (dc_add_block i c'))) by (unfold with_chain; cbn [with_derivs t_derivs]; rewrite assoc_set_set; reflexivity).
  apply norm_chain, R1.
Qed.

(** ** All calls *)
Lemma f_emit p pow w txs ts t : mc_height (t_main t) + 1 < 2 ^ 256 -> txs <> [] ->
  hoare (at_tree t) (emit_main_io p pow w txs ts) (fun r h => match r with Ok _ => True | _ => exists m', at_tree (with_main t m') h /\ (m' = t_main t \/
    exists i b, u256_sub (mc_height (t_main t)) 1 = Ok i /\ emit_block p pow w txs ts (mc_find_raw_by_height i (t_main t)) t = Ok b /\ part b (t_main t) m') end).
Proof.
  intros Hlt Htx. assert (Same : forall h : host, at_tree t h -> exists m', at_tree (with_main t m') h /\ (m' = t_main t \/
    exists i b, u256_sub (mc_height (t_main t)) 1 = Ok i /\ emit_block p pow w txs ts (mc_find_raw_by_height i (t_main t)) t = Ok b /\ part b (t_main t) m')).
  { intros h A. exists (t_main t). rewrite with_main_id. auto. }
  unfold emit_main_io. eapply h_bind; [apply f_mget|intros s; split; [intros e [_ X]|split; intros [_ X]]; discriminate X|]. intros m. apply h_pure. intros X. apply ok_inv in X. subst m.
  eapply h_bind with (R := fun r h => at_tree t h /\ r = u256_sub (mc_height (t_main t)) 1); [apply h_out; auto|intros s; repeat split; intros; apply Same; tauto|]. intros i. apply h_pure. intros Ei.
  eapply h_bind; [apply (sure_reads _ t (Ok (mc_find_raw_by_height i (t_main t)))); [intros; apply at_find|apply u_find|apply find_nil]|intros s; repeat split; intros; apply Same; tauto|]. intros d. apply h_pure. intros Ed. apply ok_inv in Ed. subst d.
  eapply h_bind; [apply f_get|intros s; split; [intros e [_ (n & X & _)]|split; intros [_ (n & X & _)]]; discriminate X|]. intros n. apply h_pure. intros (n' & X & En). apply ok_inv in X. subst n'. rewrite En.
  eapply h_bind with (R := fun r h => at_tree t h /\ r = emit_block p pow w txs ts (mc_find_raw_by_height i (t_main t)) t); [apply h_out; auto|intros s; repeat split; intros; apply Same; tauto|]. intros b. apply h_pure. intros Eb.
  assert (Hb : match b with SummBlock _ _ => False | _ => True end).
  { symmetry in Eb. unfold emit_block in Eb. destruct b as [ | |info root]; try exact I. exfalso. destruct (mc_decode _) as [l|e| |]; try discriminate Eb. cbn [bind] in Eb. destruct (unwrap_opt l) as [lb|e| |]; try discriminate Eb. cbn [bind] in Eb.
    destruct (check_pow _ _ _ _) as [[|]|e| |]; try discriminate Eb. cbn [bind negb] in Eb. destruct (recalculate_difficulty _ _ _ _); try discriminate Eb. cbn [bind] in Eb. destruct (recalculate_fee _); try discriminate Eb. cbn [bind] in Eb.
    destruct (u256_add _ _); try discriminate Eb. cbn [bind] in Eb. destruct (_ =? 0); (destruct txs; [congruence|]); [discriminate Eb|]. destruct (build_tree _); try discriminate Eb. cbn [bind] in Eb. destruct (get_root _); discriminate Eb. }
  eapply h_bind with (R := fun r h => at_tree t h); [destruct b; try contradiction; apply h_out; auto|intros s; repeat split; intros; apply Same; assumption|]. intros u.
  eapply h_bind; [apply f_add, Hlt| |intros; apply h_out; auto].
  intros s; repeat split; intros; (match goal with X : exists m', _ |- _ => destruct X as (m' & X1 & X2) end; exists m'; split; [exact X1|right; exists i, b; auto]).
Qed.
Lemma retry_emit p pow w txs ts t m' : mc_height (t_main t) + 1 < 2 ^ 256 -> (m' = t_main t \/ exists i b, u256_sub (mc_height (t_main t)) 1 = Ok i /\ emit_block p pow w txs ts (mc_find_raw_by_height i (t_main t)) t = Ok b /\ part b (t_main t) m') -> txs <> [] ->
  norm (fst (t_emmit_new_main_block p pow w txs ts (with_main t m'))) = norm (fst (t_emmit_new_main_block p pow w txs ts t)) /\ snd (t_emmit_new_main_block p pow w txs ts (with_main t m')) = snd (t_emmit_new_main_block p pow w txs ts t).
Proof.
  intros Hlt [->|(i & b & Ei & Eb & P)] Htx; [rewrite with_main_id; auto|]. assert (Hi : i < mc_height (t_main t)) by (unfold u256_sub in Ei; destruct (N.leb_spec 1 (mc_height (t_main t))); [apply ok_inv in Ei; lia|discriminate Ei]).
  destruct (part_read _ _ _ i P Hi ltac:(lia)) as [P1 P2]. rewrite !emit_block_seq. cbn [with_main t_main]. rewrite P1, Ei. cbn [bind]. rewrite P2, Eb.
  assert (Eb' : emit_block p pow w txs ts (mc_find_raw_by_height i (t_main t)) (with_main t m') = Ok b) by (rewrite <- Eb; unfold emit_block; destruct txs; [congruence|reflexivity]). rewrite Eb'.
  assert (Hb : forall t, emit_base b t = t). { intros t0. unfold emit_block in Eb. destruct b as [ | |info root]; try reflexivity. exfalso. destruct (mc_decode _) as [l|e| |]; try discriminate Eb. cbn [bind] in Eb. destruct (unwrap_opt l) as [lb|e| |]; try discriminate Eb. cbn [bind] in Eb.
    destruct (check_pow _ _ _ _) as [[|]|e| |]; try discriminate Eb. cbn [bind negb] in Eb. destruct (recalculate_difficulty _ _ _ _); try discriminate Eb. cbn [bind] in Eb. destruct (recalculate_fee _); try discriminate Eb. cbn [bind] in Eb.
    destruct (u256_add _ _); try discriminate Eb. cbn [bind] in Eb. destruct (_ =? 0); (destruct txs; [congruence|]); [discriminate Eb|]. destruct (build_tree _); try discriminate Eb. cbn [bind] in Eb. destruct (get_root _); discriminate Eb. }
  rewrite !Hb. destruct (retry_add _ _ _ P Hlt) as [R1 R2]. cbn [with_main t_main]. destruct (mc_add_block b m') as [m1 r1], (mc_add_block b (t_main t)) as [m2 r2]. cbn [fst snd] in *. subst r1. split; [|reflexivity].
  change (with_main (with_main t m') m1) with (with_main t m1). apply norm_with_main; [reflexivity|exact R1].
Qed.
Lemma not_ok {A} (r : out A) : (forall a, r <> Ok a) -> match r with Ok _ => False | _ => True end. Proof. destruct r; auto. intros H. exact (H _ eq_refl). Qed.
Lemma unit_not {St} (x : io St unit) fs s : (forall a, snd (io_unit x fs s) <> Ok a) -> (forall a, snd (x fs s) <> Ok a) /\ snd (fst (io_unit x fs s)) = snd (fst (x fs s)).
Proof. unfold io_unit, io_bind. destruct (x fs s) as [[f s'] [a|e| |]]; cbn [fst snd io_out]; intros H; [destruct (H _ eq_refl)|split; [discriminate|reflexivity]..]. Qed.
Lemma block_not {St} (x : io St block) fs s : (forall a, snd (io_block x fs s) <> Ok a) -> (forall a, snd (x fs s) <> Ok a) /\ snd (fst (io_block x fs s)) = snd (fst (x fs s)).
Proof. unfold io_block, io_bind. destruct (x fs s) as [[f s'] [a|e| |]]; cbn [fst snd io_out]; intros H; [destruct (H _ eq_refl)|split; [discriminate|reflexivity]..]. Qed.
Lemma fail_use {St A} (P : St -> Prop) (x : io St A) (Q0 : A -> St -> Prop) Q fs s : hoare P x (fun r h => match r with Ok a => Q0 a h | _ => Q h end) -> (forall a, snd (x fs s) <> Ok a) -> P s -> Q (snd (fst (x fs s))).
Proof. intros H N Hp. specialize (H fs s Hp). destruct (snd (x fs s)) as [a|e| |]; [destruct (N _ eq_refl)|exact H..]. Qed.
Lemma set_twice w a t : norm (fst (t_set_amount w a (fst (t_set_amount w a t)))) = norm (fst (t_set_amount w a t)).
Proof.
  unfold t_set_amount, t_on_summary, led_set, led_tx. cbn [fst]. unfold norm. cbn [with_summary t_main t_derivs t_summary t_old_summary t_gas t_old_gas t_closed]. f_equal.
  pose proof (insert_twice w (led_encode a) (t_summary t)) as E. exact E.
Qed.
Lemma f_set w a t : hoare (at_tree t) (ledger_io (t_set_amount w a)) (fun r h => at_tree t h \/ at_tree (fst (t_set_amount w a t)) h).
Proof.
  intros fs s A. unfold ledger_io, tree_op, io_op, lift_tree, at_tree in *. rewrite A. destruct (next_fault fs) as [|[|k]]; cbn [fst snd with_host h_tree]; auto.
Qed.
Lemma retry_step p o fs h L : wtree L h -> N.of_nat (length L) + 1 < 2 ^ 256 -> repeatable o -> opens_nothing o (h_tree h) -> failed p o fs h ->
  norm (fst (step p (h_tree (snd (fst (io_step p o fs h)))) o)) = norm (fst (step p (h_tree h) o)) /\ rnorm (snd (step p (h_tree (snd (fst (io_step p o fs h)))) o)) = rnorm (snd (step p (h_tree h) o)).
Proof.
  intros A Hl Hr Ho [Hn Hh]. unfold io_result, io_after in *. pose proof (wi_height _ _ A) as Hm. set (t := h_tree h) in *. assert (At : at_tree t h) by reflexivity. assert (Hlt : mc_height (t_main t) + 1 < 2 ^ 256) by (rewrite Hm; exact Hl).
  destruct o; cbn [repeatable] in Hr; try contradiction; cbn [io_step] in *.
  - destruct (unit_not _ _ _ Hn) as [N E]. rewrite E. destruct (f_set owner a t fs h At) as [T|T]; unfold at_tree in T; rewrite T; [auto|]. cbn [step]. unfold ret_unit. cbn [fst snd]. split; [apply set_twice|]. unfold t_set_amount, t_on_summary, led_set, led_tx. reflexivity.
  - destruct (block_not _ _ _ Hn) as [N E]. rewrite E. apply (fail_use _ _ _ _ _ _ (f_emit p pow founder txs ts t Hlt Hr)) in N; [|exact At]. destruct N as (m' & T & M). unfold at_tree in T. rewrite T. cbn [step].
    destruct (retry_emit _ _ _ _ _ _ _ Hlt M Hr) as [R1 R2]. unfold ret_block. cbn [fst snd]. rewrite R2. auto.
  - destruct (block_not _ _ _ Hn) as [N E]. rewrite E. apply (fail_use _ _ _ _ _ _ (f_demit p pow founder ts t Ho)) in N; [|exact At]. destruct N as [T|(t1 & c & G & M)]; [unfold at_tree in T; rewrite T; auto|].
    assert (M' : h_tree (snd (fst (emit_deriv_io p pow founder ts fs h))) = t1 \/ exists i c', deriv_info p pow founder ts c (t_main t1) = Ok i /\ dpart i c c' /\ h_tree (snd (fst (emit_deriv_io p pow founder ts fs h))) = with_chain t1 founder c') by exact M.
    destruct (retry_demit _ _ _ _ _ _ _ _ G M') as [R1 R2]. cbn [step]. unfold ret_block. cbn [fst snd]. rewrite R2. auto.
  - assert (T : at_tree t (snd (fst ((do! c := get_deriv_io owner in io_out (Ok (RChain c))) fs h)))); [|unfold at_tree in T; rewrite T; auto].
    pose proof (f_gderiv t owner Ho fs h At) as F. unfold io_bind in *. destruct (get_deriv_io owner fs h) as [[f s] [c|e| |]]; cbn [fst snd io_out] in *; [destruct (Hn _ eq_refl)|exact F..].
  - destruct (unit_not _ _ _ Hn) as [N E]. rewrite E in *. assert (F : hoare (at_tree t) (add_new_block_io b txs) (fun r h => match r with Ok _ => True | _ => (exists m', at_tree (with_main t m') h /\ part b (t_main t) m') \/ mc_height (t_main (h_tree h)) = mc_height (t_main t) + 1 end)).
    { unfold add_new_block_io. eapply h_bind; [apply f_add, Hlt|intros s; repeat split; intros; left; assumption|]. intros u. eapply h_weaken; [apply f_txs|intros s B; exact B|]. intros [a|e| |] s B; [exact I|..]; right; destruct B as [k B]; unfold at_tree in B; rewrite B; cbn [with_main t_main];
        rewrite (proj1 (txs_batch _ _)); reflexivity. }
    apply (fail_use _ _ _ _ _ _ F) in N; [|exact At]. destruct N as [(m' & T & P)|X]; [|unfold mc_get_height in Hh; fold t in Hh; lia]. unfold at_tree in T. rewrite T. cbn [step]. unfold ret_unit, t_add_new_block. cbn [with_main t_main].
    destruct (retry_add _ _ _ P Hlt) as [R1 R2]. destruct (mc_add_block b m') as [m1 r1], (mc_add_block b (t_main t)) as [m2 r2]. cbn [fst snd] in *. subst r1. destruct r2; cbn [fst snd]; (split; [|reflexivity]).
    + change (with_main (with_main t m') (mc_add_transactions txs m1)) with (with_main t (mc_add_transactions txs m1)). apply norm_with_main; [reflexivity|apply mc_add_transactions_norm, R1].
    + change (with_main (with_main t m') m1) with (with_main t m1). apply norm_with_main; [reflexivity|exact R1].
    + change (with_main (with_main t m') m1) with (with_main t m1). apply norm_with_main; [reflexivity|exact R1].
    + change (with_main (with_main t m') m1) with (with_main t m1). apply norm_with_main; [reflexivity|exact R1].
  - destruct (unit_not _ _ _ Hn) as [N E]. rewrite E. apply (fail_use _ _ _ _ _ _ (f_txs txs t)) in N; [|exact At]. destruct N as [k T]. unfold at_tree in T. rewrite T. cbn [step fst snd]. split; [|reflexivity].
    cbn [with_main t_main]. change (with_main (with_main t ?a) ?b) with (with_main t b). apply norm_with_main; [reflexivity|]. apply txs_again. apply A.
  - clear Hh. change (h_tree h) with t in Hn |- *. destruct (assoc_get owner (t_derivs t)) as [c|] eqn:G; [|destruct (Hn _ eq_refl)]. destruct (unit_not _ _ _ Hn) as [N E]. rewrite E. apply (fail_use _ _ _ _ _ _ (f_dadd t owner c i G)) in N; [|exact At]. destruct N as (c' & T & D). unfold at_tree in T. rewrite T. cbn [step].
    unfold with_chain. cbn [with_derivs t_derivs]. rewrite assoc_get_set, G. destruct (retry_dadd _ _ _ D) as [R1 R2]. destruct (dc_add_block i c') as [c1 r1], (dc_add_block i c) as [c2 r2]. cbn [fst snd] in *. subst r1. split; [|reflexivity]. rewrite assoc_set_set. apply (norm_chain t owner c1 c2 R1).
  - destruct (unit_not _ _ _ Hn) as [N E]. rewrite E. apply step_alike. destruct (sa_flush t (h_old h) (h_old_gas h) fs h) as (B & _); [repeat split|exact B].
  - destruct (unit_not _ _ _ Hn) as [N E]. rewrite E. apply step_alike. destruct (sa_mflush t (h_old h) (h_old_gas h) fs h) as (B & _); [repeat split|exact B].
  - clear Hh. change (h_tree h) with t in Hn |- *. destruct (assoc_get owner (t_derivs t)) as [c|] eqn:G; [|destruct (Hn _ eq_refl)]. destruct (unit_not _ _ _ Hn) as [N E]. rewrite E. apply step_alike. destruct (sa_dflush owner t (h_old h) (h_old_gas h) fs h) as [(B & _) _]; [split; [repeat split|fold t; congruence]|exact B].
Qed.

Lemma opens_kept p o fs h L : wtree L h -> N.of_nat (length L) + 1 < 2 ^ 256 -> repeatable o -> opens_nothing o (h_tree h) -> failed p o fs h -> opens_nothing o (h_tree (io_after (io_step p o) fs h)).
Proof.
  intros A Hl Hr Ho [Hn _]. unfold io_after, io_result in *. destruct o; cbn [opens_nothing] in *; try exact I; cbn [io_step] in *.
  - destruct (block_not _ _ _ Hn) as [N E]. rewrite E. apply (fail_use _ _ _ _ _ _ (f_demit p pow founder ts (h_tree h) Ho)) in N; [|reflexivity]. destruct N as [T|(t1 & c & G & M)]; [unfold at_tree in T; rewrite T; exact Ho|].
    left. destruct (get_again _ _ _ _ G) as (_ & _ & G1). destruct M as [T|(i & c' & _ & _ & T)]; unfold at_tree in T; rewrite T; [congruence|]. cbn [with_chain with_derivs t_derivs]. rewrite assoc_get_set. discriminate.
  - pose proof (f_gderiv (h_tree h) owner Ho fs h eq_refl) as F. unfold io_bind in *. destruct (get_deriv_io owner fs h) as [[f s] [c|e| |]]; cbn [fst snd io_out] in *; [destruct (Hn _ eq_refl)|unfold at_tree in F; rewrite F; exact Ho..].
Qed.
(*@T C99: a call that failed because I/O operations failed, if it adds nothing to and takes nothing from a balance, closes no epoch
   and its block was not added, can be repeated: it returns and leaves what it returns and leaves on the tree as it
   was before. *)
Lemma p_C99_repeat : forall p n h o fs, io_history p n h -> few n -> repeatable o -> opens_nothing o (h_tree h) -> failed p o fs h ->
  let t' := h_tree (io_after (io_step p o) fs h) in
  same_result (snd (step p t' o)) (snd (step p (h_tree h) o)) /\ alike (fst (step p t' o)) (fst (step p (h_tree h) o)).
Proof.
  intros p n h o fs H Hn Hr Ho Hf. destruct (w_history p n h H Hn) as (L & A & Hl). unfold few in Hn. destruct (retry_step p o fs h L A ltac:(lia) Hr Ho Hf) as [E1 E2]. split; [apply rnorm_same, E2|apply norm_alike, E1].
Qed.
Lemma until p o : op_wf o -> repeatable o -> forall fss n h, io_history p n h -> few (n + length fss) -> opens_nothing o (h_tree h) -> all_failed p o fss h ->
  opens_nothing o (h_tree (attempts p o fss h)) /\
  norm (fst (step p (h_tree (attempts p o fss h)) o)) = norm (fst (step p (h_tree h) o)) /\ rnorm (snd (step p (h_tree (attempts p o fss h)) o)) = rnorm (snd (step p (h_tree h) o)).
Proof.
  intros Hw Hr. induction fss as [|fs fss IH]; intros n h H Hn Ho Hf; cbn [attempts]; [auto|]. destruct Hf as [Hf Hs].
  destruct (w_history p n h H) as (L & A & Hl); [unfold few in *; cbn [length] in Hn; lia|]. assert (Hlt : N.of_nat (length L) + 1 < 2 ^ 256) by (unfold few in *; cbn [length] in Hn; lia).
  destruct (retry_step p o fs h L A Hlt Hr Ho Hf) as [E1 E2]. pose proof (opens_kept p o fs h L A Hlt Hr Ho Hf) as Ho'.
  destruct (IH (S n) (io_after (io_step p o) fs h)) as (F0 & F1 & F2); [apply hist_call; assumption|cbn [length] in Hn; replace (S n + length fss)%nat with (n + S (length fss))%nat by lia; exact Hn|exact Ho'|exact Hs|].
  unfold io_after in *. split; [exact F0|]. split; congruence.
Qed.
(*@T C99: such a call, repeated until it succeeds, has returned what it returns when nothing fails, and nobody can tell the
   tree it leaves from the one it leaves then. *)
Lemma p_C99_until_success : forall p n h o fss fs r, io_history p n h -> few (n + length fss) -> op_wf o -> repeatable o -> opens_nothing o (h_tree h) ->
  all_failed p o fss h -> io_result (io_step p o) fs (attempts p o fss h) = Ok r ->
  same_result (Ok r) (snd (step p (h_tree h) o)) /\ alike (h_tree (io_after (io_step p o) fs (attempts p o fss h))) (fst (step p (h_tree h) o)).
Proof.
  intros p n h o fss fs r H Hn Hw Hr Ho Hf E. destruct (until p o Hw Hr fss n h H Hn Ho Hf) as (F0 & F1 & F2). destruct (ok_step p o fs _ r (or_introl F0) E) as [G1 G2]. split; [apply rnorm_same; congruence|]. apply norm_alike. unfold io_after. congruence.
Qed.
(*@E
Example C99_ex : let h := opened fresh in let fss := [[Fails 0]; [Fine; Fails 0]; [Fine; Fails 1]; [Fine; Fine; Fails 1]] in
  io_history Debug 0 h /\ op_wf emit_good /\ repeatable emit_good /\ opens_nothing emit_good (h_tree h) /\ all_failed Debug emit_good fss h /\
  (exists r, io_result (io_step Debug emit_good) [Fine; Fine; Fine; Fails 0] (attempts Debug emit_good fss h) = Ok r).
Proof.
  cbv zeta. split; [apply hist_new; vm_compute; reflexivity|]. split; [repeat split; try (vm_compute; reflexivity); repeat constructor; vm_compute; reflexivity|]. split; [discriminate|]. split; [exact I|].
  split; [|eexists; vm_compute; reflexivity]. repeat split; intros r; vm_compute; discriminate.
Qed.
@*)

(*@T C99 for balances fails: add_amount that reported a failure may have been carried out, repeating it adds the amount twice. *)
Lemma p_C99_amount_refuted : exists o fs h, io_result (io_step Debug o) fs (opened fresh) = Panic /\ h = io_after (io_step Debug o) fs (opened fresh) /\
  o = OAddAmount addrA 5 /\ io_result (io_step Debug o) [] h = Ok RUnit /\
  t_get_amount addrA (fst (step Debug fresh o)) = Ok 5 /\ t_get_amount addrA (h_tree (io_after (io_step Debug o) [] h)) = Ok 10.
Proof. do 3 eexists. repeat match goal with |- _ /\ _ => split end; [|reflexivity|reflexivity|..]; [instantiate (1 := [Fails 1])|..]; vm_compute; reflexivity. Qed.
(*@T C99 for transactions fails: send_transaction that failed while charging the gas has moved the amount and stored the
   transaction; repeating it moves the amount again. *)
Lemma p_C99_transaction_refuted : exists fs h, let o := OSendTx (demo_tx 1000 (repeat 7 64)) in let h0 := opened funded in
  io_result (io_step Debug o) fs h0 = Panic /\ h = io_after (io_step Debug o) fs h0 /\ io_result (io_step Debug o) [] h = Ok RUnit /\
  t_get_amount addrB (fst (step Debug funded o)) = Ok 1000 /\ t_get_amount addrB (h_tree (io_after (io_step Debug o) [] h)) = Ok 2000.
Proof. exists [Fine; Fine; Fine; Fine; Fine; Fails 0]. eexists. cbv zeta. split; [vm_compute; reflexivity|]. split; [reflexivity|]. split; [vm_compute; reflexivity|]. split; vm_compute; reflexivity. Qed.
(*@T C99 for blocks given to the tree fails when the block was added: add_new_block that failed while storing the
   transactions refuses the block whenever it is repeated, and the transactions are not stored. *)
Lemma p_C99_block_refuted : exists b, let tx := demo_tx 1000 (repeat 7 64) in let o := OAddNewBlock b [tx] in let h0 := opened fresh in
  let fs := [Fine; Fine; Fails 0] in let h := io_after (io_step Debug o) fs h0 in
  io_result (io_step Debug o) fs h0 = Err EChainAddingTx /\ mc_get_height (t_main (h_tree h)) = 2 /\
  (forall gs, io_result (io_step Debug o) gs h = Err EChainAddingBlock /\ io_after (io_step Debug o) gs h = h) /\
  mc_transaction_exists (tx_hash tx) (t_main (h_tree h)) = false /\
  snd (step Debug fresh o) = Ok RUnit /\ mc_transaction_exists (tx_hash tx) (t_main (fst (step Debug fresh o))) = true.
Proof.
  exists (emitted Debug fresh emit_good). cbv zeta. split; [vm_compute; reflexivity|]. split; [vm_compute; reflexivity|]. split; [intros gs; split; vm_compute; reflexivity|]. split; [vm_compute; reflexivity|]. split; vm_compute; reflexivity.
Qed.
