(** A dropped call is a call that failed. *)
From Coq Require Import Lia ZifyBool ZifyNat ZifyN.
From Verif Require Import Base Sha256 Merkle Tools Transaction Block Sled Chain Tree Spec Reach QuietSpec Conc ConcTree ConcFlush ConcEmit Cancel CancelSpec Io IoSpec Demo.
From Verif Require Import BaseFacts ToolsFacts SledFacts ChainFacts IoFacts IoRetryProps.

Local Strategy 1000 [mc_read_config genesis_block emit_block u256_sub u256_add recalculate_fee].

(** The faults that end a flush at its point number [k]. *)
Definition point_faults (k : nat) : list fault :=
  match k with
  | O => [Fails 0]
  | 1 => [Fails 1]
  | 2 => [Fine; Fails 32]
  | 3 => [Fine; Fine; Fine; Fails 0]
  | _ => repeat Fine (k - 1) ++ [Fails 1]
  end%nat.
Lemma firstn_key h : firstn 32 (height_key h) = height_key h.
Proof. apply firstn_all2. rewrite height_key_length. lia. Qed.
Lemma main_point k t : (k < 7)%nat ->
  exists fs' r, main_flush_io (point_faults k) (opened t) = (fs', opened (with_main t (nth k (main_flush_points (t_main t)) (t_main t))), r).
Proof.
  intros Hk. unfold main_flush_io, write_cfg_io, main_op, tree_op, io_op, io_bind, main_get, lift_tree.
  do 7 (destruct k as [|k]; [cbn [point_faults repeat app Nat.sub next_fault tl fst snd nth main_flush_points]; rewrite ?firstn_key; eexists _, _; destruct t; reflexivity|]). lia.
Qed.
Lemma tree_point k t fs : (k < 11)%nat -> exists fs' e, flush_io (point_faults k ++ fs) (opened t) = (fs', opened (nth k (tree_flush_points t) t), Err e).
Proof.
  intros Hk. unfold flush_io, main_flush_io, flush_op, write_cfg_io, main_op, tree_op, io_op, io_bind, main_get, lift_tree.
  do 11 (destruct k as [|k]; [cbn [point_faults repeat app Nat.sub next_fault tl fst snd nth main_flush_points tree_flush_points map]; rewrite ?firstn_key; eexists _, _; destruct t; reflexivity|]). lia.
Qed.
Definition dpoint_faults (c : deriv_chain) (k : nat) : list fault :=
  match k with
  | O => [Fails 0]
  | 1 => [Fails 1]
  | 2 => [Fine; Fails 32]
  | 3 => [Fine; Fine; Fails (length (dc_difficulty c))]
  | 4 => [Fine; Fine; Fine; Fine; Fails 0]
  | _ => repeat Fine (k - 1) ++ [Fails 1]
  end%nat.
Lemma deriv_point w c k t : assoc_get w (t_derivs t) = Some c -> (k < 7)%nat ->
  exists fs' r, deriv_flush_io w (dpoint_faults c k) (opened t) = (fs', opened (with_derivs t (assoc_set w (nth k (deriv_flush_points c) c) (t_derivs t))), r).
Proof.
  intros Hc Hk. unfold deriv_flush_io, write_dcfg_io, deriv_op, tree_op, io_op, io_bind, io_get, lift_tree.
  assert (Ed : deriv_of w t = c) by (unfold deriv_of; rewrite Hc; reflexivity).
  assert (Es : forall x f, set_deriv w f (with_derivs t (assoc_set w x (t_derivs t))) = with_derivs t (assoc_set w (f x) (t_derivs t))).
  { intros x f. unfold set_deriv, deriv_of. cbn [with_derivs t_derivs]. rewrite IoFacts.assoc_get_set, IoFacts.assoc_set_set. reflexivity. }
  assert (E0 : forall f, set_deriv w f t = with_derivs t (assoc_set w (f c) (t_derivs t))) by (intros f; unfold set_deriv; rewrite Ed; reflexivity).
  destruct k as [|k]; [cbn [dpoint_faults next_fault tl fst snd nth deriv_flush_points h_tree opened]; rewrite assoc_set_id by exact Hc; eexists _, _; destruct t; reflexivity|].
  do 6 (destruct k as [|k]; [cbn [dpoint_faults repeat app Nat.sub next_fault tl fst snd nth deriv_flush_points h_tree opened with_host]; rewrite ?Ed, ?firstn_key, ?firstn_all, E0; cbn [h_tree]; rewrite ?Es; eexists _, _; reflexivity|]). lia.
Qed.

(** Nothing happens when the first operation fails without effect. *)
Definition failed {A} (r : out A) : Prop := match r with Ok _ => False | _ => True end.
Definition dead {St A} (x : io St A) : Prop := forall s, exists r, x [Fails 0] s = ([], s, r) /\ failed r.
Definition idle {St A} (x : io St A) : Prop := forall s, exists r, (x [Fails 0] s = ([], s, r) /\ failed r) \/ x [Fails 0] s = ([Fails 0], s, r).
Lemma dead_op {St A} (e : out A) (f : St -> St * out A) : failed e -> dead (io_op e f). Proof. intros He s. exists e. split; [reflexivity|exact He]. Qed.
Lemma dead_bind {St A B} (x : io St A) (k : A -> io St B) : dead x -> dead (io_bind x k).
Proof. intros Hx s. destruct (Hx s) as (r & E & Hr). unfold io_bind. rewrite E. destruct r; [destruct Hr|..]; eexists; split; reflexivity || exact I. Qed.
Lemma dead_idle {St A} (x : io St A) : dead x -> idle x. Proof. intros H s. destruct (H s) as (r & E). exists r. left. exact E. Qed.
Lemma idle_out {St A} (r : out A) : idle (St := St) (io_out r). Proof. intros s. exists r. right. reflexivity. Qed.
Lemma idle_get : idle (St := host) io_get. Proof. intros s. exists (Ok s). right. reflexivity. Qed.
Lemma idle_mget : idle main_get. Proof. intros s. eexists. right. reflexivity. Qed.
Lemma idle_bind {St A B} (x : io St A) (k : A -> io St B) : idle x -> (forall a, idle (k a)) -> idle (io_bind x k).
Proof.
  intros Hx Hk s. unfold io_bind. destruct (Hx s) as (r & [(E & Hr)|E]); rewrite E.
  - destruct r; [destruct Hr|..]; eexists; left; split; reflexivity || exact I.
  - destruct r as [a|e| |]; [apply Hk|..]; eexists; right; reflexivity.
Qed.
Lemma dead_dnew d g : dead (deriv_new_io d g). Proof. apply dead_bind, dead_op. exact I. Qed.
Ltac idles := repeat first [apply idle_out|apply idle_get|apply idle_mget|apply dead_idle, dead_op; exact I|apply dead_idle, dead_bind, dead_op; exact I|apply dead_idle, dead_bind, dead_dnew|apply idle_bind; intros
  |match goal with |- idle (if ?b then _ else _) => destruct b | |- idle (match ?x with _ => _ end) => destruct x end].
Lemma idle_txs txs : idle (add_txs_io txs). Proof. destruct txs; cbn [add_txs_io]; unfold add_tx_io, main_op, tree_op; idles. Qed.
Lemma first_fails p o : idle (io_step p o).
Proof.
  destruct o; cbn [io_step].
  all: unfold io_unit, io_block, ledger_io, send_amount_io, send_tx_io, emit_main_io, emit_deriv_io, get_deriv_io, deriv_last_io, find_by_hash_io, add_new_block_io, add_block_io, deriv_add_io, flush_io, main_flush_io,
      deriv_flush_io, get_gas_io, last_block_io, find_raw_io, main_op, deriv_op, tree_op, io_read.
  all: idles; try apply idle_txs.
  - intros s. destruct (assoc_get _ _); [|eexists; right; reflexivity]. revert s. idles.
  - intros s. destruct (assoc_get _ _); [|eexists; right; reflexivity]. revert s. idles.
Qed.
Lemma fails_at_once p o t : h_tree (io_after (io_step p o) [Fails 0] (opened t)) = t.
Proof. unfold io_after. destruct (first_fails p o (opened t)) as (r & [[-> _]| ->]); reflexivity. Qed.
Lemma unit_after (x : io host unit) fs h fs' h' r : x fs h = (fs', h', r) -> io_after (io_unit x) fs h = h'.
Proof. intros E. unfold io_after, io_unit, io_bind. rewrite E. destruct r; reflexivity. Qed.

(*@T C94: a call dropped at any of its await points is a call in which an I/O operation failed: what C97 to C103 and C107 say of failing operations holds of dropped calls. *)
Lemma p_C94_dropped_is_failed : forall p t o k, exists fs, drop_at p t o k = h_tree (io_after (io_step p o) fs (opened t)).
Proof.
  intros p t o k. unfold drop_at. destruct (Nat.ltb_spec k (length (drop_points p t o))) as [Hk|Hk]; [|rewrite nth_overflow by exact Hk; exists [Fails 0]; symmetry; apply fails_at_once].
  assert (H1 : forall x, x = [t] -> (k < length x)%nat -> exists fs, nth k x t = h_tree (io_after (io_step p o) fs (opened t))).
  { intros x -> Hl. cbn [length] in Hl. assert (k = 0%nat) by lia. subst k. exists [Fails 0]. symmetry. apply fails_at_once. }
  destruct o; try (apply H1; [reflexivity|exact Hk]); cbn [drop_points io_step] in *.
  - destruct (u256_sub (mc_height (t_main t)) 1) as [i|e| |] eqn:Ei; cbn [bind] in *; try (apply H1; [reflexivity|exact Hk]).
    destruct (emit_block p pow founder txs ts (mc_find_raw_by_height i (t_main t)) t) as [[| |si sr]|e| |] eqn:Eb; try (apply H1; [reflexivity|exact Hk]).
    destruct (tree_point k t [] Hk) as (fs' & e & E).
    assert (Hi : mc_height (t_main t) <? i = false) by (unfold u256_sub in Ei; destruct (N.leb_spec 1 (mc_height (t_main t))); [|discriminate Ei]; assert (i = mc_height (t_main t) - 1) by congruence; subst i; apply N.ltb_ge; lia).
    exists (Fine :: Fine :: point_faults k ++ []). unfold io_after, io_block, emit_main_io, find_raw_io, io_read, io_op, io_bind, main_get, io_get, io_out. cbn [h_tree opened t_main]. rewrite Ei, Hi. cbn [next_fault tl fst snd h_tree opened].
    unfold mc_find_raw_by_height in Eb. rewrite Hi in Eb. rewrite Eb. cbn [next_fault tl fst snd].
    unfold rotate_io, io_bind at 1. change (MkHost t true true) with (opened t). rewrite E. reflexivity.
  - destruct (tree_point k t [] Hk) as (fs' & e & E). exists (point_faults k ++ []). rewrite (unit_after _ _ _ _ _ _ E). reflexivity.
  - rewrite map_length in Hk. destruct (main_point k t Hk) as (fs' & r & E). exists (point_faults k). rewrite (unit_after _ _ _ _ _ _ E). cbn [h_tree opened].
    rewrite (nth_indep _ t (with_main t (t_main t))) by (rewrite map_length; exact Hk). rewrite map_nth. reflexivity.
  - unfold io_after. cbn [h_tree opened]. destruct (assoc_get owner (t_derivs t)) as [c|] eqn:Ec; [|exists []; cbn [length] in Hk; destruct k; [reflexivity|lia]]. rewrite map_length in Hk.
    destruct (deriv_point owner c k t Ec Hk) as (fs' & r & E). exists (dpoint_faults c k). change (nth k (map (fun c' => with_derivs t (assoc_set owner c' (t_derivs t))) (deriv_flush_points c)) t = h_tree (io_after (io_unit (deriv_flush_io owner)) (dpoint_faults c k) (opened t))).
    rewrite (unit_after _ _ _ _ _ _ E). cbn [h_tree opened].
    rewrite (nth_indep _ t (with_derivs t (assoc_set owner c (t_derivs t)))) by (rewrite map_length; exact Hk). rewrite (map_nth (fun c' => with_derivs t (assoc_set owner c' (t_derivs t)))). reflexivity.
Qed.
(*@E
(* a flush dropped between the references and the transactions *)
Example C94_dropped_ex : let t := run Debug fresh [OAddTxs [demo_tx 7 []]] in
  drop_at Debug t OMainFlush 5%nat = h_tree (io_after (io_step Debug OMainFlush) [Fine; Fine; Fine; Fine; Fails 1] (opened t)) /\ pend (mc_refs (t_main (drop_at Debug t OMainFlush 5%nat))) = [] /\ pend (mc_txs (t_main (drop_at Debug t OMainFlush 5%nat))) <> [].
Proof. split; [vm_compute; reflexivity|split; [vm_compute; reflexivity|vm_compute; discriminate]]. Qed.
@*)
