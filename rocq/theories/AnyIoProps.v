(** Directories and trees with any contents, when I/O operations fail. *)
From Coq Require Import Lia ZifyBool ZifyNat ZifyN.
From Verif Require Import Base Sha256 Merkle Tools Transaction Block Sled Chain Tree Conc ConcTree ConcFlush ConcEmit Cancel ConcDeriv Io Spec Reach LedgerSpec NodeSpec AnyDirSpec IoSpec AnyIoSpec Demo.
From Verif Require Import BaseFacts ToolsFacts MerkleFacts CodecFacts SledFacts ChainFacts DiffFacts TreeFacts LedgerFacts DerivFacts NodeFacts AnyDirProps.
From Verif Require LiveProps.

Local Strategy 1000 [u256_mul u256_add u256_sub BYTE_GAS_PRICE recalculate_fee recalculate_difficulty check_pow load_u256 dump_u256 build_tree get_root sha256 block_dump tx_dump mroot root_of COINS_PER_CYCLE mc_decode dc_decode emit_block next_info dc_new mc_read_config genesis_block t_get_amount t_get_gas sled_get].

Definition opened_tree (h : N) (df : bytes) (d : disk) : bct :=
  let m := k_main d in
  MkTree0 (MkMain (if h =? 0 then sled_insert (height_key 0) (block_dump genesis) (md_blocks m) else md_blocks m)
                  (if h =? 0 then sled_insert (sha256 (block_dump genesis)) (height_key 0) (md_refs m) else md_refs m)
                  (md_txs m) (if h =? 0 then 1 else h) df (md_cfg m)) []
    (if h <=? 1 then sled_commit [(ROOT_PUBLIC_ADDRESS, led_encode COINS_PER_CYCLE)] (k_summary d) else k_summary d) (k_old_summary d) (k_gas d) (k_old_gas d) (k_derivs d).
Lemma opened_tree_at h df d : opened_at h d (opened_tree h df d).
Proof.
  unfold opened_at, opened_tree, t_get_amount. cbn [t_main t_summary t_old_summary t_gas t_old_gas t_derivs t_closed mc_height mc_blocks mc_refs mc_txs].
  rewrite first_is_genesis. change (height_key 0) with (repeat 0 32).
  split; [reflexivity|]. split; [intros x; destruct (h =? 0); cbn [andb]; [apply sled_get_insert|reflexivity]|]. split; [intros x; destruct (h =? 0); cbn [andb]; [apply sled_get_insert|reflexivity]|].
  split; [reflexivity|]. split; [|split; [|auto 6]].
  - intros w Hw. destruct (N.leb_spec h 1) as [L|L]; [|reflexivity]. destruct Hw as [Hw|Hw]; [lia|].
    rewrite sled_get_commit1. destruct (bytes_eqb w ROOT_PUBLIC_ADDRESS) eqn:X; [apply bytes_eqb_eq in X; contradiction|reflexivity].
  - intros L. destruct (N.leb_spec h 1) as [_|]; [|lia]. apply led_get_set1, coins_ok.
Qed.

(** *** A property of databases that insertion and flushing keep *)
Section Values.
Variable V : sled -> Prop.
Hypothesis V_bytes : forall s, V s -> byte_values s.
Hypothesis V_empty : V sled_empty.
Hypothesis V_insert : forall k v s, V s -> bytes_ok v -> V (sled_insert k v s).
Hypothesis V_flush : forall s, V s -> V (sled_flush s).
Definition vdisk (d : disk) : Prop :=
  V (md_blocks (k_main d)) /\ V (md_txs (k_main d)) /\ (forall w k, In (w, k) (k_derivs d) -> V (dd_blocks k)).
Definition vtree (t : bct) : Prop :=
  V (mc_blocks (t_main t)) /\ V (mc_txs (t_main t)) /\
  (forall w c, In (w, c) (t_derivs t) -> V (dc_blocks c)) /\ (forall w k, In (w, k) (t_closed t) -> V (dd_blocks k)).
Lemma v_main t m : vtree t -> V (mc_blocks m) -> V (mc_txs m) -> vtree (with_main t m).
Proof. intros (_ & _ & H3 & H4) H1 H2. exact (conj H1 (conj H2 (conj H3 H4))). Qed.
Lemma v_derivs t w c : vtree t -> V (dc_blocks c) -> vtree (with_derivs t (assoc_set w c (t_derivs t))).
Proof.
  intros (H1 & H2 & H3 & H4) Hc. split; [exact H1|]. split; [exact H2|]. split; [|exact H4]. intros w' c' Hi. cbn [with_derivs t_derivs] in Hi.
  apply assoc_set_in in Hi as [Hi|Hi]; [|eapply H3, Hi]. apply pair_inv in Hi as [_ ->]. exact Hc.
Qed.

(** *** What every part of a call keeps and returns *)
Definition anyh (h : host) : Prop := vtree (h_tree h).
Definition sf {A} (u : Prop) (Q : A -> Prop) (x : io host A) : Prop := forall fs h, anyh h ->
  anyh (snd (fst (x fs h))) /\ (snd (x fs h) = UB -> u) /\ (forall a, snd (x fs h) = Ok a -> Q a).
Lemma sf_bind {A B} (u : Prop) (Q : A -> Prop) (R : B -> Prop) (x : io host A) (k : A -> io host B) : sf u Q x -> (forall a, Q a -> sf u R (k a)) -> sf u R (io_bind x k).
Proof.
  intros Hx Hk fs h Hh. destruct (Hx fs h Hh) as (H1 & H2 & H3). unfold io_bind. destruct (x fs h) as [[fs' h'] r]. cbn [fst snd] in *.
  destruct r as [a|e| |]; cbn [fst snd]; try (split; [exact H1|split; [intros X; first [discriminate X|auto]|intros a X; discriminate X]]). exact (Hk a (H3 a eq_refl) fs' h' H1).
Qed.
Lemma sf_out {A} (u : Prop) (Q : A -> Prop) r : (r = UB -> u) -> (forall a, r = Ok a -> Q a) -> sf u Q (io_out r).
Proof. intros H1 H2 fs h Hh. cbn [io_out fst snd]. auto. Qed.
Lemma sf_ok {A} (u : Prop) (Q : A -> Prop) a : Q a -> sf u Q (io_out (Ok a)).
Proof. intros H. apply sf_out; [discriminate|]. intros b E. assert (Y : forall a b : A, Ok a = Ok b -> a = b) by congruence. apply Y in E. subst b. exact H. Qed.
Lemma sf_get (u : Prop) : sf u anyh io_get.
Proof. intros fs h Hh. cbn [io_get fst snd]. split; [exact Hh|]. split; [discriminate|]. intros a E. assert (Y : forall a b : host, Ok a = Ok b -> a = b) by congruence. apply Y in E. subst a. exact Hh. Qed.
Definition anym (m : main_chain) : Prop := V (mc_blocks m) /\ V (mc_txs m).
Lemma any_m t : vtree t -> anym (t_main t). Proof. intros (H1 & H2 & _). exact (conj H1 H2). Qed.
Lemma sf_mget (u : Prop) : sf u anym main_get.
Proof. intros fs h Hh. cbn [main_get fst snd]. split; [exact Hh|]. split; [discriminate|]. intros a E. assert (Y : forall a b : main_chain, Ok a = Ok b -> a = b) by congruence. apply Y in E. subst a. apply any_m, Hh. Qed.
Lemma sf_try (u : Prop) : sf u (fun _ => True) io_try.
Proof. intros fs h Hh. cbn [io_try fst snd]. split; [exact Hh|]. split; [discriminate|auto]. Qed.
Lemma sf_op {A} (u : Prop) (Q : A -> Prop) e f : e <> UB -> (forall a, e <> Ok a) -> (forall h, anyh h -> anyh (fst (f h)) /\ (snd (f h) = UB -> u) /\ (forall a, snd (f h) = Ok a -> Q a)) -> sf u Q (io_op e f).
Proof.
  intros He1 He2 Hf fs h Hh. destruct (Hf h Hh) as (H1 & H2 & H3). unfold io_op. destruct (next_fault fs) as [|[|n]]; cbn [fst snd].
  - auto.
  - split; [exact Hh|]. split; [contradiction|]. intros a E. destruct (He2 a E).
  - split; [exact H1|]. split; [contradiction|]. intros a E. destruct (He2 a E).
Qed.
Lemma sf_read {A} (u : Prop) (Q : A -> Prop) e f : e <> UB -> (forall a, e <> Ok a) -> (forall h, anyh h -> Q (f h)) -> sf u Q (io_read e f).
Proof.
  intros He1 He2 Hf. apply sf_op; [exact He1|exact He2|]. intros h Hh. cbn [fst snd]. split; [exact Hh|]. split; [discriminate|].
  intros a E. assert (Y : forall a b : A, Ok a = Ok b -> a = b) by congruence. apply Y in E. subst a. apply Hf, Hh.
Qed.
Lemma sf_put (u : Prop) f : (forall h, anyh h -> anyh (f h)) -> sf u (fun _ => True) (io_put f).
Proof. intros H fs h Hh. cbn [io_put fst snd]. split; [apply H, Hh|]. split; [discriminate|auto]. Qed.
Lemma sf_weak {A} (u : Prop) (Q R : A -> Prop) x : sf u Q x -> (forall a, Q a -> R a) -> sf u R x.
Proof. intros H HQ fs h Hh. destruct (H fs h Hh) as (H1 & H2 & H3). auto. Qed.
Lemma sf_tree {A} (u : Prop) (Q : A -> Prop) e f : e <> UB -> (forall a, e <> Ok a) -> (forall t, vtree t -> vtree (fst (f t)) /\ (snd (f t) = UB -> u) /\ (forall a, snd (f t) = Ok a -> Q a)) -> sf u Q (tree_op e f).
Proof. intros H1 H2 H3. apply sf_op; [exact H1|exact H2|]. intros h Hh. exact (H3 (h_tree h) Hh). Qed.
Definition any {A} (_ : A) : Prop := True.
Lemma sf_mop (u : Prop) e f : (forall m, anym m -> anym (f m)) -> sf u any (main_op e f).
Proof.
  intros H. apply sf_tree; [discriminate|discriminate|]. intros t Ht. cbn [fst snd]. split; [|split; [discriminate|intros; exact Logic.I]].
  destruct (H _ (any_m t Ht)). apply v_main; assumption.
Qed.
Lemma sf_mput (u : Prop) f : (forall m, anym m -> anym (f m)) -> sf u any (main_put f).
Proof. intros H. apply sf_put. intros h Hh. destruct (H _ (any_m _ Hh)). apply v_main; assumption. Qed.
Definition anyb (d : option bytes) : Prop := forall v, d = Some v -> bytes_ok v.

Lemma sf_find (u : Prop) e h : sf u anyb (find_raw_io e h).
Proof.
  unfold find_raw_io. eapply sf_bind; [apply sf_mget|]. intros m _. destruct (_ <? _); [apply sf_ok; intros v X; discriminate X|].
  apply sf_read; [discriminate|discriminate|]. intros s Hs. intros v. apply V_bytes, (proj1 (any_m _ Hs)).
Qed.
Lemma sf_decode (u : Prop) d : anyb d -> sf u (fun o => forall b, o = Some b -> main_kind b) (io_out (mc_decode d)).
Proof.
  intros H. pose proof (decode_safe d H) as S. apply sf_out; [intros E; rewrite E in S; destruct S|]. intros o E b ->. rewrite E in S. exact S.
Qed.
Lemma sf_ddecode (u : Prop) d : anyb d -> sf u (fun o => forall b, o = Some b -> side_kind b) (io_out (dc_decode d)).
Proof.
  intros H. pose proof (ddecode_safe d H) as S. apply sf_out; [intros E; rewrite E in S; destruct S|]. intros o E b ->. rewrite E in S. exact S.
Qed.
Lemma sf_sub (u : Prop) a b : sf u any (io_out (u256_sub a b)).
Proof. apply sf_out; [unfold u256_sub; destruct (_ <=? _); discriminate|intros; exact Logic.I]. Qed.
Lemma sf_add_n (u : Prop) a b : sf u any (io_out (u256_add a b)).
Proof. apply sf_out; [unfold u256_add; destruct (_ <? _); discriminate|intros; exact Logic.I]. Qed.
Lemma sf_last (u : Prop) : sf u (fun o => forall b, o = Some b -> main_kind b) last_block_io.
Proof.
  unfold last_block_io. eapply sf_bind; [apply sf_mget|]. intros m _. eapply sf_bind; [apply sf_sub|]. intros i _. eapply sf_bind; [apply sf_find|]. intros d. apply sf_decode.
Qed.
Lemma sf_byhash (u : Prop) x : sf u (fun o => forall b, o = Some b -> main_kind b) (find_by_hash_io x).
Proof.
  unfold find_by_hash_io. eapply sf_bind with (Q := any); [apply sf_read; [discriminate|discriminate|intros; exact Logic.I]|]. intros [hb|] _.
  - destruct (Nat.ltb _ _); [apply sf_out; [discriminate|discriminate]|]. eapply sf_bind; [apply sf_find|]. intros d. apply sf_decode.
  - apply sf_decode. intros v X. discriminate X.
Qed.
Lemma put_block_any b m : block_wf b -> anym m -> anym (put_block b m).
Proof. intros Hb [H1 H2]. split; [|exact H2]. apply V_insert; [exact H1|apply block_dump_ok, Hb]. Qed.
Lemma sf_add (u : Prop) b : block_wf b -> sf u any (add_block_io b).
Proof.
  intros Hb. unfold add_block_io. eapply sf_bind; [apply sf_mget|]. intros m _. destruct (negb _); [apply sf_out; discriminate|].
  eapply sf_bind; [apply sf_mop; intros; apply put_block_any; assumption|]. intros _ _.
  eapply sf_bind; [apply sf_mop; intros x Hx; exact Hx|]. intros _ _. eapply sf_bind; [apply sf_add_n|]. intros i _. apply sf_mput. intros x Hx. exact Hx.
Qed.
Lemma sf_tx (u : Prop) x : tx_wf x -> sf u any (add_tx_io x).
Proof. intros Hx. apply sf_mop. intros m [H1 H2]. split; [exact H1|]. apply V_insert; [exact H2|apply tx_dump_bytes, Hx]. Qed.
Lemma sf_txs (u : Prop) l : Forall tx_wf l -> sf u any (add_txs_io l).
Proof. induction 1 as [|x l Hx Hl IH]; cbn [add_txs_io]; [apply sf_ok; exact Logic.I|]. eapply sf_bind; [apply sf_tx, Hx|]. intros _ _. exact IH. Qed.
Lemma sf_write (u : Prop) b d : sf u any (write_cfg_io b d).
Proof.
  intros fs h Hh. unfold write_cfg_io. cbv zeta. destruct (next_fault fs); cbn [fst snd]; (split; [exact Hh|]); (split; [|intros; exact Logic.I]); [discriminate|]. destruct b; discriminate.
Qed.
Lemma sf_mflush (u : Prop) : sf u any main_flush_io.
Proof.
  unfold main_flush_io. eapply sf_bind; [apply sf_mget|]. intros m _.
  repeat (first [apply sf_mop; intros x Hx; first [exact Hx|split; first [apply V_flush, Hx|apply Hx]]|eapply sf_bind; [first [apply sf_mop; intros x Hx; first [exact Hx|split; first [apply V_flush, Hx|apply Hx]]|apply sf_write]|intros _ _]]).
Qed.

Lemma any_deriv_of w t : vtree t -> V (dc_blocks (deriv_of w t)).
Proof.
  intros (_ & _ & H3 & _). unfold deriv_of. destruct (assoc_get w (t_derivs t)) as [c|] eqn:E; [eapply H3, assoc_get_in, E|]. exact V_empty.
Qed.
Lemma any_set_deriv w f t : vtree t -> (forall c, V (dc_blocks c) -> V (dc_blocks (f c))) -> vtree (set_deriv w f t).
Proof. intros A H. apply v_derivs; [exact A|]. apply H, any_deriv_of, A. Qed.
Lemma sf_dop (u : Prop) e w f : (forall c, V (dc_blocks c) -> V (dc_blocks (f c))) -> sf u any (deriv_op e w f).
Proof.
  intros H. apply sf_tree; [discriminate|discriminate|]. intros t Ht. cbn [fst snd]. split; [|split; [discriminate|intros; exact Logic.I]]. apply any_set_deriv; assumption.
Qed.
Lemma sf_dnew (u : Prop) k g : V (dd_blocks k) -> sf u (fun c => V (dc_blocks c)) (deriv_new_io k g).
Proof.
  intros Hk. unfold deriv_new_io. do 2 (eapply sf_bind with (Q := any); [apply sf_read; [discriminate|discriminate|intros; exact Logic.I]|intros _ _]).
  eapply sf_bind; [apply sf_try|]. intros b _. assert (N : sf u (fun c => V (dc_blocks c)) (io_out (Ok (MkDeriv (dd_blocks k) (dd_refs k) 0 g BEGINNING_DIFFICULTY (dd_cfg k))))) by (apply sf_ok; exact Hk).
  destruct (file_cur (dd_cfg k)); [|exact N]. destruct b; [|exact N].
  eapply sf_bind with (Q := any); [apply sf_read; [discriminate|discriminate|intros; exact Logic.I]|intros _ _].
  apply sf_out; [intros E; destruct (dc_new_safe _ _ E)|]. intros c E. rewrite (dc_new_blocks _ _ _ E). exact Hk.
Qed.
Lemma closed_any w t : vtree t -> V (dd_blocks (match assoc_get (hex_encode w) (t_closed t) with Some d => d | None => deriv_disk_empty end)).
Proof.
  intros (_ & _ & _ & H4). destruct (assoc_get (hex_encode w) (t_closed t)) as [k'|] eqn:Ek; [eapply H4, assoc_get_in, Ek|]. exact V_empty.
Qed.
Lemma sf_gderiv (u : Prop) w : sf u any (get_deriv_io w).
Proof.
  unfold get_deriv_io. eapply sf_bind; [apply sf_get|]. intros n Hn. destruct (assoc_get w _); [apply sf_ok; exact Logic.I|].
  eapply sf_bind; [apply sf_last|]. intros o _. eapply sf_bind with (Q := any); [apply sf_out; [destruct o; discriminate|intros; exact Logic.I]|]. intros b _.
  eapply sf_bind; [apply sf_dnew, closed_any, Hn|]. intros c Hc. eapply sf_bind; [apply sf_put|intros; apply sf_ok; exact Logic.I].
  intros h Hh. apply v_derivs; assumption.
Qed.
Lemma sf_dlast (u : Prop) w : sf u (fun o => forall b, o = Some b -> side_kind b) (deriv_last_io w).
Proof.
  unfold deriv_last_io. eapply sf_bind; [apply sf_get|]. intros n Hn. cbv zeta. destruct (_ =? 0); [apply sf_ddecode; intros v X; discriminate X|].
  eapply sf_bind; [apply sf_sub|]. intros i _. eapply sf_bind with (Q := anyb); [|intros d; apply sf_ddecode].
  destruct (_ <? _); [apply sf_ok; intros v X; discriminate X|]. apply sf_read; [discriminate|discriminate|]. intros h _ v. apply V_bytes, (any_deriv_of w _ Hn).
Qed.
Lemma sf_dadd (u : Prop) w i : info_wf i -> sf u any (deriv_add_io w i).
Proof.
  intros Hi. unfold deriv_add_io. eapply sf_bind; [apply sf_get|]. intros n Hn. cbv zeta. destruct (negb _); [apply sf_out; discriminate|].
  eapply sf_bind; [apply sf_dop|]. { intros c Hc. apply V_insert; [exact Hc|apply block_dump_ok; exact Hi]. }
  intros _ _. eapply sf_bind; [apply sf_dop; intros c Hc; exact Hc|]. intros _ _. eapply sf_bind; [apply sf_add_n|]. intros h _.
  apply sf_put. intros x Hx. apply any_set_deriv; [exact Hx|]. intros c Hc. exact Hc.
Qed.
Lemma sf_dwrite (u : Prop) b w d : sf u any (write_dcfg_io b w d).
Proof.
  intros fs h Hh. unfold write_dcfg_io. cbv zeta. destruct (next_fault fs); cbn [fst snd]; (split; [apply any_set_deriv; [exact Hh|intros c Hc; exact Hc]|]); (split; [|intros; exact Logic.I]); [discriminate|]. destruct b; discriminate.
Qed.
Lemma sf_dflush (u : Prop) w : sf u any (deriv_flush_io w).
Proof.
  unfold deriv_flush_io. eapply sf_bind; [apply sf_get|]. intros n _. cbv zeta.
  repeat (first [apply sf_dop; intros x Hx; first [exact Hx|apply V_flush, Hx]|eapply sf_bind; [first [apply sf_dop; intros x Hx; first [exact Hx|apply V_flush, Hx]|apply sf_dwrite]|intros _ _]]).
Qed.
Lemma sf_ledger (u : Prop) f : (forall t, vtree t -> vtree (fst (f t)) /\ snd (f t) <> UB) -> sf u any (ledger_io f).
Proof. intros H. apply sf_tree; [discriminate|discriminate|]. intros t Ht. destruct (H t Ht) as [H1 H2]. split; [exact H1|]. split; [contradiction|intros; exact Logic.I]. Qed.
Lemma sf_summary (u : Prop) f : (forall s, snd (f s) <> UB) -> sf u any (ledger_io (t_on_summary f)).
Proof. intros H. apply sf_ledger. intros t Ht. split; [|apply LiveProps.on_summary_safe, H]. unfold t_on_summary. destruct (f _). exact Ht. Qed.
Lemma sf_gas (u : Prop) f : (forall s, snd (f s) <> UB) -> sf u any (ledger_io (t_on_gas f)).
Proof. intros H. apply sf_ledger. intros t Ht. split; [|apply LiveProps.on_gas_safe, H]. unfold t_on_gas. destruct (f _). exact Ht. Qed.
Lemma set_safe w a s : snd (led_set w a s) <> UB. Proof. discriminate. Qed.
Lemma sf_send (u : Prop) a b x : sf u any (send_amount_io a b x).
Proof. unfold send_amount_io. destruct (bytes_eqb a b); [apply sf_ok; exact Logic.I|]. apply sf_summary. intros s. apply send_safe. Qed.
Lemma sf_flush (u : Prop) : sf u any flush_io.
Proof.
  unfold flush_io, flush_op. eapply sf_bind; [apply sf_mflush|]. intros _ _.
  assert (F : forall f, (forall t, vtree t -> vtree (f t)) -> sf u any (tree_op (Err ETreeDumpDb) (fun t => (f t, Ok tt)))).
  { intros f Hf. apply sf_tree; [discriminate|discriminate|]. intros t Ht. cbn [fst snd]. split; [apply Hf, Ht|]. split; [discriminate|intros; exact Logic.I]. }
  do 3 (eapply sf_bind; [apply F; intros t Ht; exact Ht|intros _ _]). apply F. intros t Ht. exact Ht.
Qed.
Lemma sf_dir (u : Prop) (c : host -> bool) s (r : bool) : (forall b h, h_tree (s b h) = h_tree h) ->
  sf u any (io_op (Err ETreeMoveSummary) (fun n => if c n then (s false n, Ok tt) else (n, Err ETreeMoveSummary))) /\
  sf u any (io_op (Err ETreeMoveSummary) (fun n => if c n then (n, Err ETreeMoveSummary) else (s true n, Ok tt))).
Proof.
  intros H. split; (apply sf_op; [discriminate|discriminate|]); intros h Hh; destruct (c h); cbn [fst snd]; (split; [unfold anyh; rewrite ?H; exact Hh|]); (split; [discriminate|intros; exact Logic.I]).
Qed.
Lemma sf_rotate (u : Prop) : sf u any rotate_io.
Proof.
  unfold rotate_io, remove_dir_io, create_dir_io. eapply sf_bind; [apply sf_flush|]. intros _ _.
  do 2 (eapply sf_bind; [first [apply (sf_dir u h_old set_old true)|apply (sf_dir u h_old_gas set_old_gas true)]; reflexivity|intros _ _]).
  do 2 (eapply sf_bind; [first [apply (sf_dir u h_old_gas set_old_gas true)|apply (sf_dir u h_old set_old true)]; reflexivity|intros _ _]).
  do 3 (eapply sf_bind with (Q := any); [apply sf_read; [discriminate|discriminate|intros; exact Logic.I]|intros _ _]).
  eapply sf_bind; [apply sf_put; intros h Hh; exact Hh|intros _ _].
  eapply sf_bind with (Q := any); [apply sf_read; [discriminate|discriminate|intros; exact Logic.I]|intros _ _].
  apply sf_put. intros h Hh. exact Hh.
Qed.
Lemma sf_sendtx (u : Prop) x : tx_wf x -> sf u any (send_tx_io x).
Proof.
  intros Hx. unfold send_tx_io.
  assert (G : forall f : bct -> out N, (forall t, f t <> UB) -> sf u any (tree_op (Err ETreeGetFunds) (fun t => (t, f t)))).
  { intros f Hf. apply sf_tree; [discriminate|discriminate|]. intros t Ht. cbn [fst snd]. split; [exact Ht|]. split; [intros E; destruct (Hf t E)|intros; exact Logic.I]. }
  eapply sf_bind; [apply G; intros t; apply led_get_safe|]. intros g _. eapply sf_bind; [apply G; intros t; apply led_get_safe|]. intros a _.
  assert (M : forall a b, sf u any (io_out (u256_mul a b))) by (intros; apply sf_out; [unfold u256_mul; destruct (_ <? _); discriminate|intros; exact Logic.I]).
  eapply sf_bind; [apply M|]. intros r _. destruct (_ <? _); [apply sf_out; discriminate|].
  eapply sf_bind; [apply sf_last|]. intros o _. eapply sf_bind with (Q := any); [apply sf_out; [destruct o; discriminate|intros; exact Logic.I]|]. intros b _.
  eapply sf_bind; [apply M|]. intros fee _. eapply sf_bind; [apply sf_add_n|]. intros need _. destruct (_ <? _); [apply sf_out; discriminate|].
  eapply sf_bind; [apply sf_tx, Hx|]. intros _ _. eapply sf_bind; [apply sf_send|]. intros _ _. apply sf_gas. intros s. apply sub_safe.
Qed.

(** *** Emissions *)
Lemma emit_block_ub p pow founder txs ts d t : anyb d -> emit_block p pow founder txs ts d t = UB ->
  exists b, mc_decode d = Ok (Some b) /\ p = Release /\ enough_work (block_hash b) (bi_difficulty (get_info b)) (root_of txs) pow = true /\ doubles_too_far b ts.
Proof.
  intros Hd. pose proof (decode_safe d Hd) as Hl. unfold emit_block.
  destruct (mc_decode d) as [[b|]|e| |]; cbn [bind unwrap_opt safe_lookup] in *; try discriminate; [|contradiction].
  destruct Hl as [Hw Hk]. pose proof (block_info_wf _ Hw) as (Hts & _ & _ & _ & Hdf & _).
  rewrite work_eq by exact Hdf. cbn [bind]. destruct (enough_work (block_hash b) (bi_difficulty (get_info b)) (root_of txs) pow) eqn:W; cbn [negb bind]; [|discriminate].
  pose proof (recalc_ub p (bi_timestamp (get_info b)) ts _ Hdf Hts) as R.
  destruct (recalculate_difficulty p (bi_timestamp (get_info b)) ts (bi_difficulty (get_info b))) as [df|e| |] eqn:Ed; cbn [bind]; try discriminate.
  2:{ intros _. destruct (proj1 R eq_refl) as [-> D]. exists b. auto. }
  pose proof (recalc_wf _ _ _ _ _ Hdf Ed) as [Hdl' _].
  destruct (fee_eq df) as [-> _]; [lia|]. cbn [bind]. unfold u256_add. destruct (_ <? _); [|discriminate]. cbn [bind].
  destruct (_ mod _ =? 0); destruct txs as [|x txs]; try discriminate.
  - rewrite summarize_ok. discriminate.
  - pose proof (mroot_ok (x :: txs)) as Hrt. destruct (build_tree (x :: txs)) as [tr|e| |]; cbn [bind] in *; try discriminate. rewrite Hrt. discriminate.
Qed.
Lemma emit_block_wf p pow founder txs ts d t b : anyb d -> op_wf (OEmitMain pow founder txs ts) -> emit_block p pow founder txs ts d t = Ok b -> block_wf b.
Proof.
  intros Hd (Hpow & Hf & Htxs & Hts). pose proof (decode_safe d Hd) as Hl. unfold emit_block.
  destruct (mc_decode d) as [[lb|]|e| |]; cbn [bind unwrap_opt safe_lookup] in *; try discriminate.
  destruct Hl as [Hw Hk]. pose proof (block_info_wf _ Hw) as (_ & _ & _ & _ & Hdf & _).
  rewrite work_eq by exact Hdf. cbn [bind]. destruct (negb _); [discriminate|].
  destruct (recalculate_difficulty p (bi_timestamp (get_info lb)) ts (bi_difficulty (get_info lb))) as [df|e| |] eqn:Ed; cbn [bind]; try discriminate.
  pose proof (recalc_wf _ _ _ _ _ Hdf Ed) as Hd'. destruct (fee_eq df) as [-> Hfee]; [destruct Hd'; lia|]. cbn [bind]. unfold u256_add.
  destruct (N.ltb_spec (bi_height (get_info lb) + 1) (2 ^ 256)) as [L|L]; [|discriminate]. cbn [bind].
  assert (Hi : info_wf (MkInfo ts pow (block_hash lb) (bi_height (get_info lb) + 1) df founder)).
  { unfold info_wf. cbn. split; [exact Hts|]. split; [exact Hpow|]. split; [apply hash_array|]. split; [exact L|]. auto. }
  assert (Y : forall a c : block, Ok a = Ok c -> a = c) by congruence.
  destruct (_ mod _ =? 0); destruct txs as [|x txs]; try discriminate.
  - rewrite summarize_ok. cbn [bind]. intros E. apply Y in E. subst b. split; [exact Hi|apply mroot_array].
  - pose proof (mroot_ok (x :: txs)) as Hrt. destruct (build_tree (x :: txs)) as [tr|e| |]; cbn [bind] in *; try discriminate. rewrite Hrt. cbn [bind]. intros E. apply Y in E. subst b.
    split; [unfold u256_ok; lia|]. split; [apply mroot_array|]. auto.
Qed.
Lemma sf_emit p pow founder txs ts : op_wf (OEmitMain pow founder txs ts) -> sf True any (emit_main_io p pow founder txs ts).
Proof.
  intros Hw. unfold emit_main_io. eapply sf_bind; [apply sf_mget|]. intros m _. eapply sf_bind; [apply sf_sub|]. intros i _. eapply sf_bind; [apply sf_find|]. intros d Hd.
  eapply sf_bind; [apply sf_get|]. intros n _. eapply sf_bind with (Q := block_wf); [apply sf_out; [auto|]; intros b E; eapply emit_block_wf; eassumption|]. intros b Hb.
  eapply sf_bind with (Q := any).
  - destruct b; try (apply sf_ok; exact Logic.I). eapply sf_bind with (Q := any); [apply sf_read; [discriminate|discriminate|intros; exact Logic.I]|intros _ _].
    eapply sf_bind; [apply sf_rotate|]. intros _ _. apply sf_summary. intros s. apply set_safe.
  - intros _ _. eapply sf_bind; [apply sf_add, Hb|]. intros _ _. apply sf_ok. exact Logic.I.
Qed.
Lemma bind_ub {A B} (x : io host A) (k : A -> io host B) fs h : snd (io_bind x k fs h) = UB ->
  snd (x fs h) = UB \/ exists fs' h' a, x fs h = (fs', h', Ok a) /\ snd (k a fs' h') = UB.
Proof. unfold io_bind. destruct (x fs h) as [[fs' h'] r]. destruct r as [a|e| |]; cbn [snd]; try discriminate; [|auto]. intros H. right. exists fs', h', a. auto. Qed.
Lemma sf_no_ub {A} (Q : A -> Prop) x fs h : sf False Q x -> anyh h -> snd (x fs h) <> UB.
Proof. intros H Hh E. exact (proj1 (proj2 (H fs h Hh)) E). Qed.
Lemma sf_kept {A} (u : Prop) (Q : A -> Prop) x fs h fs' h' a : sf u Q x -> anyh h -> x fs h = (fs', h', Ok a) -> anyh h' /\ Q a.
Proof. intros H Hh E. destruct (H fs h Hh) as (H1 & _ & H3). rewrite E in H1, H3. cbn [fst snd] in *. split; [exact H1|]. exact (H3 a eq_refl). Qed.
Lemma find_same e i fs h fs' h' d : find_raw_io e i fs h = (fs', h', Ok d) -> h' = h /\ d = mc_find_raw_by_height i (t_main (h_tree h)).
Proof.
  unfold find_raw_io, io_bind, main_get, mc_find_raw_by_height. destruct (_ <? _).
  - intros E. assert (Y : forall (a a' : list fault) (b b' : host) (c c' : option bytes), (a, b, Ok c) = (a', b', Ok c') -> b = b' /\ c = c') by (intros; split; congruence). apply Y in E as [<- <-]. auto.
  - unfold io_read, io_op. destruct (next_fault fs) as [|[|n]]; cbn [fst snd]; try discriminate.
    intros E. assert (Y : forall (a a' : list fault) (b b' : host) (c c' : option bytes), (a, b, Ok c) = (a', b', Ok c') -> b = b' /\ c = c') by (intros; split; congruence). apply Y in E as [<- <-]. auto.
Qed.
Lemma emit_main_io_ub p pow founder txs ts fs h : anyh h -> op_wf (OEmitMain pow founder txs ts) -> snd (emit_main_io p pow founder txs ts fs h) = UB ->
  p = Release /\ leaves_array (h_tree h) (OEmitMain pow founder txs ts).
Proof.
  intros Hh Hw E. unfold emit_main_io in E.
  apply bind_ub in E as [E|(f1 & h1 & m & E1 & E)]; [discriminate E|]. unfold main_get in E1.
  assert (Y1 : h1 = h /\ m = t_main (h_tree h)) by (split; congruence). destruct Y1 as [-> ->]. clear E1.
  apply bind_ub in E as [E|(f2 & h2 & i & E2 & E)]; [destruct (sf_no_ub _ _ _ _ (sf_sub False _ _) Hh E)|].
  assert (Y2 : h2 = h /\ u256_sub (mc_height (t_main (h_tree h))) 1 = Ok i) by (unfold io_out in E2; split; congruence). destruct Y2 as [-> Ei]. clear E2.
  apply bind_ub in E as [E|(f3 & h3 & d & E3 & E)]; [destruct (sf_no_ub _ _ _ _ (sf_find False _ _) Hh E)|].
  destruct (sf_kept _ _ _ _ _ _ _ _ (sf_find False _ _) Hh E3) as [_ Hd]. apply find_same in E3 as [-> Ed].
  apply bind_ub in E as [E|(f4 & h4 & n & E4 & E)]; [discriminate E|]. unfold io_get in E4.
  assert (Y4 : h4 = h /\ n = h) by (split; congruence). destruct Y4 as [-> ->]. clear E4.
  apply bind_ub in E as [E|(f5 & h5 & b & E5 & E)].
  { cbn [io_out snd] in E. apply (emit_block_ub _ _ _ _ _ _ _ Hd) in E as (b & Eb & P & W & D). split; [exact P|]. exists b. split; [|auto].
    unfold mc_get_last_block, mc_get_last_raw_block. rewrite Ei. cbn [bind]. rewrite <- Ed. exact Eb. }
  exfalso. unfold io_out in E5. assert (Y5 : h5 = h /\ emit_block p pow founder txs ts d (h_tree h) = Ok b) by (split; congruence). destruct Y5 as [-> Eb].
  pose proof (emit_block_wf _ _ _ _ _ _ _ _ Hd Hw Eb) as Hb. revert E. change (~ snd (io_bind (match b with
           | SummBlock _ _ => do! _ := io_read (Err ETreeGetFunds) (fun _ => tt) in do! _ := rotate_io in ledger_io (t_set_amount ROOT_PUBLIC_ADDRESS COINS_PER_CYCLE)
           | _ => io_out (Ok tt) end) (fun _ => do! _ := add_block_io b in io_out (Ok b)) f5 h) = UB). apply (sf_no_ub any); [|exact Hh].
  eapply sf_bind with (Q := any).
  - destruct b; try (apply sf_ok; exact Logic.I). eapply sf_bind with (Q := any); [apply sf_read; [discriminate|discriminate|intros; exact Logic.I]|intros _ _].
    eapply sf_bind; [apply sf_rotate|]. intros _ _. apply sf_summary. intros s. apply set_safe.
  - intros _ _. eapply sf_bind; [apply sf_add, Hb|]. intros _ _. apply sf_ok. exact Logic.I.
Qed.

Lemma next_info_ub p founder pow ts h d a height : is_array 32 d -> u64_ok a -> next_info p founder pow ts h d a height = UB ->
  p = Release /\ enough_work h d (root_of []) pow = true /\ exists s, seconds Release a ts = Some s /\ 600 < s /\ hd_error d = Some 255.
Proof.
  intros Hd Ha. unfold next_info. rewrite work_eq by exact Hd. cbn [bind]. destruct (enough_work h d (root_of []) pow); cbn [negb]; [|discriminate].
  pose proof (recalc_ub p a ts _ Hd Ha) as R. destruct (recalculate_difficulty p a ts d) as [d'|e| |]; cbn [bind]; try discriminate.
  intros _. destruct (proj1 R eq_refl) as [-> D]. auto.
Qed.
Lemma next_info_wf p founder pow ts h d a height i : is_array 32 h -> is_array 32 d -> u256_ok height -> op_wf (OEmitDeriv pow founder ts) ->
  next_info p founder pow ts h d a height = Ok i -> info_wf i.
Proof.
  intros Hh Hd Hht (Hpow & Hf & Hts). unfold next_info. rewrite work_eq by exact Hd. cbn [bind]. destruct (negb _); [discriminate|].
  destruct (recalculate_difficulty p a ts d) as [d'|e| |] eqn:Ed; cbn [bind]; try discriminate. pose proof (recalc_wf _ _ _ _ _ Hd Ed) as Hd'.
  intros E. assert (Y : forall a b : basic_info, Ok a = Ok b -> a = b) by congruence. apply Y in E. subst i. unfold info_wf. cbn. auto 6.
Qed.
Lemma begin_array : is_array 32 BEGINNING_DIFFICULTY. Proof. split; [reflexivity|vm_compute; repeat constructor]. Qed.
Definition info_io p pow founder ts (g : bytes) (last : option block) : io host basic_info :=
  match last with
  | Some b =>
      io_out (let! h := u256_add (bi_height (get_info b)) 1 in
              next_info p founder pow ts (block_hash b) (bi_difficulty (get_info b)) (bi_timestamp (get_info b)) h)
  | None =>
      do! g := find_by_hash_io g in
      match g with
      | None => io_out (Err EChainFindByHash)
      | Some b => io_out (next_info p founder pow ts (block_hash b) BEGINNING_DIFFICULTY (bi_timestamp (get_info b)) 0)
      end
  end.
Lemma sf_info p pow founder ts g last (u : Prop) : op_wf (OEmitDeriv pow founder ts) -> (forall b, last = Some b -> side_kind b) ->
  (forall b, last = Some b -> p = Release -> bi_height (get_info b) + 1 < 2 ^ 256 -> enough_work (block_hash b) (bi_difficulty (get_info b)) (root_of []) pow = true -> doubles_too_far b ts -> u) ->
  sf u info_wf (info_io p pow founder ts g last).
Proof.
  intros Hw Hl Hu. destruct last as [b|]; cbn [info_io].
  - destruct (Hl b eq_refl) as (i & -> & Hts & _ & _ & _ & Hd & _). cbn [get_info] in *. unfold u256_add. destruct (N.ltb_spec (bi_height i + 1) (2 ^ 256)) as [L|L]; cbn [bind]; [|apply sf_out; discriminate].
    apply sf_out.
    + intros E. apply next_info_ub in E as (P & W & D); [|exact Hd|exact Hts]. apply (Hu _ eq_refl P L W D).
    + intros i' E. eapply next_info_wf in E; try eassumption. apply hash_array.
  - eapply sf_bind; [apply sf_byhash|]. intros [b|] Hb; [|apply sf_out; discriminate]. destruct (Hb b eq_refl) as [Hbw _]. pose proof (block_info_wf _ Hbw) as (Hts & _).
    apply sf_out.
    + intros E. exfalso. apply next_info_ub in E as (_ & _ & s & _ & _ & X); [discriminate X|exact begin_array|exact Hts].
    + intros i' E. eapply next_info_wf in E; try eassumption; [apply hash_array|exact begin_array|reflexivity].
Qed.
Lemma sf_demit p pow founder ts : op_wf (OEmitDeriv pow founder ts) -> sf True any (emit_deriv_io p pow founder ts).
Proof.
  intros Hw. unfold emit_deriv_io. eapply sf_bind; [apply sf_gderiv|]. intros c _. eapply sf_bind; [apply sf_dlast|]. intros last Hl.
  eapply sf_bind; [apply (sf_info p pow founder ts (dc_genesis c) last True Hw Hl); auto|]. intros i Hi. eapply sf_bind; [apply sf_dadd, Hi|]. intros _ _. apply sf_ok. exact Logic.I.
Qed.
Lemma last_same fs h fs' h' o : last_block_io fs h = (fs', h', Ok o) -> h' = h /\ mc_get_last_block (t_main (h_tree h)) = Ok o.
Proof.
  unfold last_block_io. unfold io_bind at 1. cbn [main_get]. unfold io_bind at 1. unfold io_out at 1. unfold mc_get_last_block, mc_get_last_raw_block.
  destruct (u256_sub (mc_height (t_main (h_tree h))) 1) as [i|e| |]; try discriminate. cbn [bind]. unfold io_bind.
  destruct (find_raw_io EChainFindByHeight i fs h) as [[f1 h1] r] eqn:E. destruct r as [d|e| |]; try discriminate. apply find_same in E as [-> ->].
  unfold io_out. intros E. split; congruence.
Qed.
Lemma assoc_get_set {A} k (v : A) m : assoc_get k (assoc_set k v m) = Some v.
Proof. induction m as [|[k0 v0] m IH]; cbn [assoc_set assoc_get]; [rewrite bytes_eqb_refl; reflexivity|]. destruct (bytes_eqb k k0) eqn:E; cbn [assoc_get]; rewrite ?bytes_eqb_refl, ?E; auto. Qed.
Lemma gderiv_same w fs h fs' h' c : get_deriv_io w fs h = (fs', h', Ok c) ->
  deriv_of w (h_tree h') = c /\ (snd (t_get_derivative_chain w (h_tree h)) = Ok c \/ dc_height c = 0).
Proof.
  assert (Y : forall A (a a' : list fault) (b b' : host) (c c' : A), (a, b, Ok c) = (a', b', Ok c') -> b = b' /\ c = c') by (intros; split; congruence).
  unfold get_deriv_io, t_get_derivative_chain, deriv_of. unfold io_bind at 1. cbn [io_get]. destruct (assoc_get w (t_derivs (h_tree h))) as [c0|] eqn:E.
  { unfold io_out. intros X. apply Y in X as [<- <-]. rewrite E. auto. }
  unfold io_bind at 1. destruct (last_block_io fs h) as [[f1 h1] r] eqn:El. destruct r as [o|e| |]; try discriminate. apply last_same in El as [-> El]. rewrite El.
  unfold io_bind at 1. unfold io_out at 1. destruct o as [b|]; cbn [unwrap_opt bind]; try discriminate.
  set (k := match assoc_get (hex_encode w) (t_closed (h_tree h)) with Some d => d | None => deriv_disk_empty end).
  unfold io_bind at 1. destruct (deriv_new_io k (block_hash b) f1 h) as [[f2 h2] r] eqn:En. destruct r as [c0|e| |]; try discriminate.
  unfold io_bind at 1. cbn [io_put]. unfold io_out. intros X. apply Y in X as [<- <-]. cbn [with_host h_tree with_derivs t_derivs]. rewrite assoc_get_set. split; [reflexivity|].
  revert En. unfold deriv_new_io. unfold io_bind at 1. destruct (io_read (Err EChainInit) (fun _ : host => tt) f1 h) as [[f3 h3] [x| | |]]; try discriminate.
  unfold io_bind at 1. destruct (io_read (Err EChainInit) (fun _ : host => tt) f3 h3) as [[f4 h4] [x1| | |]]; try discriminate.
  unfold io_bind at 1. cbn [io_try].
  assert (Z : forall f5 (h5 : host), (f5, h5, Ok (MkDeriv (dd_blocks k) (dd_refs k) 0 (block_hash b) BEGINNING_DIFFICULTY (dd_cfg k))) = (f2, h2, Ok c0) -> dc_height c0 = 0).
  { intros f5 h5 X. apply Y in X as [_ <-]. reflexivity. }
  destruct (file_cur (dd_cfg k)) as [cc|]; [|unfold io_out; intros X; right; apply (Z _ _ X)]. destruct (next_fault f4); [|unfold io_out; intros X; right; apply (Z _ _ X)].
  unfold io_bind. destruct (io_read _ _ _ _) as [[f5 h5] [x2| | |]]; try discriminate. unfold io_out. intros X. left. assert (X' : dc_new k (block_hash b) = Ok c0) by congruence. rewrite X'. reflexivity.
Qed.
Lemma dlast_same w fs h fs' h' b : deriv_last_io w fs h = (fs', h', Ok (Some b)) -> dc_get_last_block (deriv_of w (h_tree h)) = Ok (Some b) /\ dc_height (deriv_of w (h_tree h)) <> 0.
Proof.
  unfold deriv_last_io. unfold io_bind at 1. cbn [io_get]. cbv zeta. unfold dc_get_last_block, dc_get_last_raw_block, dc_find_raw_by_height. set (c := deriv_of w (h_tree h)).
  destruct (N.eqb_spec (dc_height c) 0) as [E0|E0]; [discriminate|]. unfold io_bind at 1. unfold io_out at 1.
  destruct (u256_sub (dc_height c) 1) as [i|e| |]; try discriminate. cbn [bind]. unfold io_bind. destruct (dc_height c <? i).
  - unfold io_out. intros X. split; [congruence|exact E0].
  - unfold io_read, io_op. destruct (next_fault fs) as [|[|n]]; cbn [fst snd]; try discriminate. unfold io_out. intros X. split; [congruence|exact E0].
Qed.
Lemma emit_deriv_io_ub p pow founder ts fs h : anyh h -> op_wf (OEmitDeriv pow founder ts) -> snd (emit_deriv_io p pow founder ts fs h) = UB ->
  p = Release /\ leaves_array (h_tree h) (OEmitDeriv pow founder ts).
Proof.
  intros Hh Hw E. unfold emit_deriv_io in E.
  apply bind_ub in E as [E|(f1 & h1 & c & E1 & E)]; [destruct (sf_no_ub _ _ _ _ (sf_gderiv False _) Hh E)|].
  pose proof (sf_kept _ _ _ _ _ _ _ _ (sf_gderiv False _) Hh E1) as [Hh1 _]. apply gderiv_same in E1 as [Ec Eg].
  apply bind_ub in E as [E|(f2 & h2 & last & E2 & E)]; [destruct (sf_no_ub _ _ _ _ (sf_dlast False _) Hh1 E)|].
  pose proof (sf_kept _ _ _ _ _ _ _ _ (sf_dlast False _) Hh1 E2) as [Hh2 Hl].
  set (u := p = Release /\ leaves_array (h_tree h) (OEmitDeriv pow founder ts)).
  assert (S : sf u any (do! i := info_io p pow founder ts (dc_genesis c) last in do! _ := deriv_add_io founder i in io_out (Ok (DerivBlock i)))).
  { eapply sf_bind.
    - apply (sf_info p pow founder ts (dc_genesis c) last u Hw Hl). intros b -> P L W D. apply dlast_same in E2 as [E2 E0]. rewrite Ec in E2, E0. split; [exact P|].
      destruct Eg as [Eg|Eg]; [|contradiction]. exists c, b. auto 6.
    - intros i Hi. eapply sf_bind; [apply sf_dadd, Hi|]. intros _ _. apply sf_ok. exact Logic.I. }
  exact (proj1 (proj2 (S f2 h2 Hh2)) E).
Qed.

(** *** Calls *)
Lemma sf_unit (u : Prop) x : sf u any x -> sf u any (io_unit x).
Proof. intros H. eapply sf_bind; [exact H|]. intros _ _. apply sf_ok. exact Logic.I. Qed.
Lemma sf_block (u : Prop) x : sf u any x -> sf u any (io_block x).
Proof. intros H. eapply sf_bind; [exact H|]. intros b _. apply sf_ok. exact Logic.I. Qed.
Lemma sf_step p o (u : Prop) : op_wf o -> match o with OEmitMain _ _ _ _ | OEmitDeriv _ _ _ => u | _ => True end -> sf u any (io_step p o).
Proof.
  intros Hw Hu. assert (T : forall A (Q : A -> Prop) x, sf True Q x -> u -> sf u Q x) by (intros A Q x H U fs h Hh; destruct (H fs h Hh) as (H1 & _ & H3); auto).
  destruct o; cbn [io_step op_wf] in *.
  - apply sf_unit, sf_summary. intros s. apply add_safe.
  - apply sf_unit, sf_summary. intros s. apply set_safe.
  - apply sf_unit, sf_summary. intros s. apply sub_safe.
  - apply sf_unit, sf_send.
  - apply sf_unit, sf_gas. intros s. apply add_safe.
  - apply sf_unit, sf_gas. intros s. apply sub_safe.
  - apply sf_unit, sf_gas. intros s. apply send_safe.
  - apply sf_unit, sf_sendtx, Hw.
  - apply sf_block, T; [apply sf_emit, Hw|exact Hu].
  - apply sf_block, T; [apply sf_demit, Hw|exact Hu].
  - eapply sf_bind; [apply sf_gderiv|]. intros c _. apply sf_ok. exact Logic.I.
  - apply sf_unit. unfold add_new_block_io. eapply sf_bind; [apply sf_add, Hw|]. intros _ _. apply sf_txs, Hw.
  - apply sf_unit, sf_txs, Hw.
  - intros fs h Hh. destruct (assoc_get owner _); [|cbn [fst snd]; split; [exact Hh|split; [discriminate|intros; exact Logic.I]]]. apply (sf_unit u _ (sf_dadd u owner i (proj2 Hw)) fs h Hh).
  - apply sf_unit, sf_flush.
  - apply sf_unit, sf_mflush.
  - intros fs h Hh. destruct (assoc_get owner _); [|cbn [fst snd]; split; [exact Hh|split; [discriminate|intros; exact Logic.I]]]. apply (sf_unit u _ (sf_dflush u owner) fs h Hh).
Qed.

(** *** Opening *)
Definition rest_io (h : N) (df : bytes) : io disk bct :=
  do! h' := (if h =? 0 then
               do! g := io_out genesis_block in
               do! _ := disk_op (Err EChainInit) (disk_main (disk_blocks (sled_insert (height_key 0) (block_dump g)))) in
               do! _ := disk_op (Err EChainInit) (disk_main (disk_refs (sled_insert (sha256 (block_dump g)) (height_key 0)))) in
               io_out (Ok 1)
             else io_out (Ok h)) in
  do! _ := (if h' =? 1 then disk_op Panic (disk_summary (sled_commit [(ROOT_PUBLIC_ADDRESS, led_encode COINS_PER_CYCLE)]))
            else io_out (Ok tt)) in
  do! d := io_get in
  let m := k_main d in
  io_out (Ok (MkTree0 (MkMain (md_blocks m) (md_refs m) (md_txs m) h' df (md_cfg m)) [] (k_summary d) (k_old_summary d)
                (k_gas d) (k_old_gas d) (k_derivs d))).
Lemma any_blocks d f : vdisk d -> (forall s, V s -> V (f s)) -> vdisk (disk_main (disk_blocks f) d).
Proof. intros (H1 & H2 & H3) Hf. split; [apply Hf, H1|]. split; [exact H2|exact H3]. Qed.
Lemma disk_op_cases e (f : disk -> disk) fs d : disk_op e f fs d = (tl fs, f d, Ok tt) \/ (exists n d', In (Fails n) fs /\ (d' = d \/ d' = f d) /\ disk_op e f fs d = (tl fs, d', e)).
Proof.
  unfold disk_op, io_op. destruct fs as [|[|[|n]] fs]; cbn [next_fault fst snd tl]; auto.
  - right. exists 0%nat, d. split; [left; reflexivity|]. auto.
  - right. exists (S n), (f d). split; [left; reflexivity|]. auto.
Qed.
Lemma in_tl {A} (x : A) l : In x (tl l) -> In x l. Proof. destruct l; cbn; auto. Qed.
Definition good_rest h df fs d (y : list fault * disk * out bct) : Prop :=
  match snd y with
  | Ok t => t = opened_tree h df d | Err e => e = EChainInit | Panic => h <= 1 /\ exists n, In (Fails n) fs | UB => False
  end /\ (vdisk d -> vdisk (snd (fst y))).
Lemma rest_cases h df fs d : good_rest h df fs d (rest_io h df fs d).
Proof.
  unfold rest_io.
  assert (R : forall fs1 d1 h1, (vdisk d -> vdisk d1) -> (forall n, In (Fails n) fs1 -> In (Fails n) fs) -> k_summary d1 = k_summary d -> k_old_summary d1 = k_old_summary d -> k_gas d1 = k_gas d -> k_old_gas d1 = k_old_gas d -> k_derivs d1 = k_derivs d ->
    h1 = (if h =? 0 then 1 else h) -> k_main d1 = MkMainDisk (if h =? 0 then sled_insert (height_key 0) (block_dump genesis) (md_blocks (k_main d)) else md_blocks (k_main d))
                  (if h =? 0 then sled_insert (sha256 (block_dump genesis)) (height_key 0) (md_refs (k_main d)) else md_refs (k_main d)) (md_txs (k_main d)) (md_cfg (k_main d)) ->
    good_rest h df fs d ((do! _ := (if h1 =? 1 then disk_op Panic (disk_summary (sled_commit [(ROOT_PUBLIC_ADDRESS, led_encode COINS_PER_CYCLE)])) else io_out (Ok tt)) in
      do! d := io_get in let m := k_main d in io_out (Ok (MkTree0 (MkMain (md_blocks m) (md_refs m) (md_txs m) h1 df (md_cfg m)) [] (k_summary d) (k_old_summary d) (k_gas d) (k_old_gas d) (k_derivs d)))) fs1 d1)).
  { intros fs1 d1 h1 Ha Hf S1 S2 S3 S4 S5 -> M. unfold io_bind at 1.
    assert (L1 : ((if h =? 0 then 1 else h) =? 1) = (h <=? 1)) by (destruct (N.eqb_spec h 0) as [->|]; [reflexivity|]; destruct (N.eqb_spec h 1), (N.leb_spec h 1); lia). rewrite L1.
    destruct (N.leb_spec h 1) as [L|L].
    - destruct (disk_op_cases Panic (disk_summary (sled_commit [(ROOT_PUBLIC_ADDRESS, led_encode COINS_PER_CYCLE)])) fs1 d1) as [->|(n & d' & Hn & Hd' & ->)].
      + unfold io_bind. cbn [io_get io_out]. unfold disk_summary. cbn [k_main k_summary k_old_summary k_gas k_old_gas k_derivs]. rewrite M, S1, S2, S3, S4, S5. unfold good_rest, opened_tree. cbn [fst snd].
        destruct (N.leb_spec h 1) as [_|]; [|lia]. split; [reflexivity|]. intros A. specialize (Ha A). unfold vdisk in *. cbn [k_main k_derivs]. rewrite M, S5 in Ha. exact Ha.
      + split; cbn [fst snd]; [split; [exact L|]; exists n; apply Hf, Hn|]. intros A. destruct Hd' as [->| ->]; exact (Ha A).
    - unfold io_bind. cbn [io_out io_get]. unfold good_rest, opened_tree. cbn [fst snd]. rewrite M, S1, S2, S3, S4, S5. destruct (N.leb_spec h 1) as [|_]; [lia|]. split; [reflexivity|exact Ha]. }
  unfold io_bind at 1. destruct (N.eqb_spec h 0) as [->|H0].
  - unfold io_bind at 1. rewrite genesis_eq. unfold io_out at 1. cbv iota beta.
    assert (Ab : vdisk d -> vdisk (disk_main (disk_blocks (sled_insert (height_key 0) (block_dump genesis))) d)).
    { intros A. apply any_blocks; [exact A|]. intros s Hs. apply V_insert; [exact Hs|]. apply block_dump_ok, genesis_readable. }
    unfold io_bind at 1. destruct (disk_op_cases (Err EChainInit) (disk_main (disk_blocks (sled_insert (height_key 0) (block_dump genesis)))) fs d) as [->|(n & d' & Hn & Hd' & ->)].
    2:{ split; cbn [fst snd]; [reflexivity|]. intros A. destruct Hd' as [->| ->]; auto. }
    unfold io_bind at 1. match goal with |- context [disk_op (Err EChainInit) ?f ?fs ?d] => destruct (disk_op_cases (Err EChainInit) f fs d) as [->|(n & d' & Hn & Hd' & ->)] end.
    2:{ split; cbn [fst snd]; [reflexivity|]. intros A. destruct Hd' as [->| ->]; exact (Ab A). }
    unfold io_out at 1. cbv iota beta. apply R; try reflexivity; [exact Ab|]. intros n Hn. apply in_tl, in_tl, Hn.
  - unfold io_out at 1. cbv iota beta. apply R; try reflexivity; auto; destruct (N.eqb_spec h 0); try contradiction; destruct (k_main d); reflexivity.
Qed.
Lemma opens_cases n e : forall fs d, opens n e fs d = (skipn n fs, d, Ok tt) \/ exists fs', opens n e fs d = (fs', d, Err e).
Proof.
  induction n as [|n IH]; intros fs d; [left; reflexivity|]. cbn [opens]. unfold io_bind, io_read, io_op. destruct fs as [|[|[|k]] fs]; cbn [next_fault fst snd tl].
  - destruct (IH [] d) as [E|(f & E)]; rewrite E; [left; destruct n; reflexivity|right; eauto].
  - destruct (IH fs d) as [E|(f & E)]; rewrite E; [left; reflexivity|right; eauto].
  - right. eauto.
  - right. eauto.
Qed.
Lemma nth_skip {A} n (l : list A) (x : A) : nth n l x = match skipn n l with y :: _ => y | [] => x end.
Proof. revert l. induction n as [|n IH]; intros [|y l]; cbn; auto. Qed.
Lemma new_cases fs d :
  match io_result t_new_io fs d with
  | Ok t => exists h df, config_height fs d h /\ t = opened_tree h df d
  | Err e => e = ETreeInit \/ e = EChainInit
  | Panic => exists h n, config_height fs d h /\ h <= 1 /\ In (Fails n) fs
  | UB => False
  end /\ (vdisk d -> vdisk (io_after t_new_io fs d)).
Proof.
  set (P := fun y : list fault * disk * out bct => match snd y with
  | Ok t => exists h df, config_height fs d h /\ t = opened_tree h df d
  | Err e => e = ETreeInit \/ e = EChainInit
  | Panic => exists h n, config_height fs d h /\ h <= 1 /\ In (Fails n) fs
  | UB => False
  end /\ (vdisk d -> vdisk (snd (fst y)))).
  change (P (t_new_io fs d)). unfold t_new_io.
  unfold io_bind at 1. destruct (opens_cases 4 ETreeInit fs d) as [E|(f & E)]; rewrite E; [|split; cbn [fst snd]; auto].
  unfold io_bind at 1. destruct (opens_cases 3 EChainInit (skipn 4 fs) d) as [E'|(f & E')]; rewrite E'; [|split; cbn [fst snd]; auto]. rewrite skip_skip. change (4 + 3)%nat with 7%nat. clear E E'.
  unfold io_bind at 1. unfold io_try at 1. cbv iota beta. set (op := match next_fault (skipn 7 fs) with Fine => true | Fails _ => false end).
  assert (Hop : (op = true -> config_opens fs) /\ (op = false -> ~ config_opens fs)).
  { unfold op, config_opens, next_fault. rewrite nth_skip. destruct (skipn 7 fs) as [|[|n] l]; split; try discriminate; auto. }
  assert (Hin : forall n, In (Fails n) (tl (skipn 7 fs)) -> In (Fails n) fs).
  { intros n Hn. apply in_tl in Hn. rewrite <- (firstn_skipn 7 fs). apply in_or_app. auto. }
  revert Hin. generalize (tl (skipn 7 fs)). intros f1 Hin. clearbody op.
  unfold io_bind at 1. unfold io_get at 1. cbv iota beta.
  assert (R : forall h df f2, config_height fs d h -> (forall n, In (Fails n) f2 -> In (Fails n) fs) -> P (rest_io h df f2 d)).
  { intros h df f2 Hc Hf. destruct (rest_cases h df f2 d) as [H1 H2]. split; [|exact H2]. destruct (snd (rest_io h df f2 d)) as [t|e| |]; auto.
    - exists h, df. auto.
    - destruct H1 as (L & n & Hn). exists h, n. auto. }
  change (P (io_bind (match file_cur (md_cfg (k_main d)), op with
                 | Some _, true => do! _ := io_read (Err EChainInit) (fun _ => tt) in io_out (mc_read_config (md_cfg (k_main d)))
                 | _, _ => io_out (Ok (0, BEGINNING_DIFFICULTY)) end) (fun x => let '(h, df) := x in rest_io h df) f1 d)).
  unfold io_bind at 1. unfold config_height in R. unfold mc_read_config. destruct (file_cur (md_cfg (k_main d))) as [c|] eqn:Ec.
  - destruct op.
    + destruct Hop as [Ho _]. specialize (Ho eq_refl). unfold io_bind, io_read, io_op. destruct f1 as [|[|[|n]] f1]; cbn [next_fault fst snd tl]; try solve [split; cbn [fst snd]; auto].
      * unfold io_out. rewrite read2. destruct (Nat.ltb_spec (length c) 64) as [L|L]; cbn [bind]; [split; cbn [fst snd]; auto|]. cbn [index nth_error bind]. apply R; [left; rewrite be_val_from_be; auto|]. intros n [].
      * unfold io_out. rewrite read2. destruct (Nat.ltb_spec (length c) 64) as [L|L]; cbn [bind]; [split; cbn [fst snd]; auto|]. cbn [index nth_error bind]. apply R; [left; rewrite be_val_from_be; auto|]. intros n Hn. apply Hin. right. exact Hn.
    + unfold io_out. apply R; [right; split; [apply Hop; reflexivity|reflexivity]|exact Hin].
  - unfold io_out. apply R; [reflexivity|exact Hin].
Qed.

Lemma v_calls p h o fs : anyh h -> op_wf o ->
  anyh (io_after (io_step p o) fs h) /\ (io_result (io_step p o) fs h = UB -> p = Release /\ leaves_array (h_tree h) o).
Proof.
  intros Hh Hw. assert (K : anyh (io_after (io_step p o) fs h)).
  { destruct (sf_step p o True Hw ltac:(destruct o; exact Logic.I) fs h Hh) as [H _]. exact H. }
  split; [exact K|]. clear K. unfold io_result. intros E.
  assert (N : (match o with OEmitMain _ _ _ _ | OEmitDeriv _ _ _ => False | _ => True end) -> False).
  { intros No. exact (proj1 (proj2 (sf_step p o False Hw No fs h Hh)) E). }
  destruct o; try (destruct (N Logic.I)); cbn [io_step] in E; apply bind_ub in E as [E|(f1 & h1 & b & _ & E)]; try discriminate E.
  - apply emit_main_io_ub in E; assumption.
  - apply emit_deriv_io_ub in E; assumption.
Qed.
Lemma opened_any h df d : vdisk d -> vtree (opened_tree h df d).
Proof.
  intros (H1 & H2 & H3). split; [|split; [exact H2|split; [intros w c []|exact H3]]]. cbn [opened_tree t_main mc_blocks].
  destruct (h =? 0); [|exact H1]. apply V_insert; [exact H1|apply block_dump_ok, genesis_readable].
Qed.
Lemma close_any f t : vtree t -> (forall w c, V (dc_blocks c) -> V (dd_blocks (f w c))) -> forall w k, In (w, k) (close_derivs f t) -> V (dd_blocks k).
Proof.
  intros (_ & _ & H3 & H4) Hf. unfold close_derivs.
  revert H3 H4. generalize (t_closed t) as l0. generalize (t_derivs t) as l. clear t.
  induction l as [|[w c] l IH]; intros l0 H3 H4; [exact H4|]. cbn [fold_left fst snd]. apply IH; [intros w' c' Hi; apply (H3 w' c'); right; exact Hi|].
  intros w' k Hi. apply assoc_set_in in Hi as [Hi|Hi]; [|eapply H4, Hi]. apply pair_inv in Hi as [_ ->]. apply Hf. apply (H3 w c). left. reflexivity.
Qed.
Lemma t_close_any t : vtree t -> vdisk (t_close t).
Proof. intros H. split; [apply V_flush, H|]. split; [apply V_flush, H|]. apply (close_any (fun _ => dc_close)); [exact H|]. intros w c Hc. apply V_flush, Hc. Qed.
Lemma settle_any d : vdisk d -> vdisk (disk_settle d).
Proof. intros (H1 & H2 & H3). split; [apply V_flush, H1|]. split; [apply V_flush, H2|exact H3]. Qed.
End Values.

Lemma empty_values : byte_values sled_empty. Proof. intros k v X. discriminate X. Qed.
Lemma flush_values s : byte_values s -> byte_values (sled_flush s).
Proof. intros H k v. rewrite sled_get_flush. apply H. Qed.
(*@T C128: whatever the databases hold and whichever I/O operations fail, a call leads to undefined behaviour only if it would without failures, that is, in a release build and at an emission
    that leaves the array of the difficulty; and whatever it returns, what the databases hold afterwards are byte strings again, so that the same is true of the next call. *)
Lemma p_C128_calls : forall p h o fs, any_tree (h_tree h) -> op_wf o ->
  any_tree (h_tree (io_after (io_step p o) fs h)) /\ (io_result (io_step p o) fs h = UB -> p = Release /\ leaves_array (h_tree h) o).
Proof. exact (v_calls byte_values (fun s H => H) empty_values values_insert flush_values). Qed.
(*@E
Example C128_ex_calls :
  let b := SummBlock (MkInfo 1000 (repeat 0 32) (repeat 0 32) 1 (255 :: repeat 0 31) addrA) (repeat 0 32) in
  let h := opened (MkTree0 (MkMain (sled_insert (to_be 32 1) (block_dump b) sled_empty) sled_empty sled_empty 2 (repeat 0 32) file_absent) [] sled_empty sled_empty sled_empty sled_empty []) in
  io_result (io_step Release (OEmitMain (repeat 0 32) addrA [] 1601)) [Fine; Fails 0] h = UB /\
  io_result (io_step Release (OEmitMain (repeat 0 32) addrA [] 1601)) [Fails 0] h = Err EChainFindByHeight /\
  io_result (io_step Debug (OEmitMain (repeat 0 32) addrA [] 1601)) [] h = Panic /\
  io_result (io_step Release (OAddGas addrA 3)) [Fails 1] h = Panic /\ op_wf (OEmitMain (repeat 0 32) addrA [] 1601).
Proof.
  cbv zeta. split; [vm_compute; reflexivity|]. split; [vm_compute; reflexivity|]. split; [vm_compute; reflexivity|]. split; [vm_compute; reflexivity|].
  repeat split; try constructor; repeat constructor.
Qed.
@*)

(*@T C128: opening a directory with any contents while I/O operations fail: what is opened is what the directory holds, at the height its config file says or at height 0 when that file cannot
    be opened; errors are those of opening; it panics only when the coins of the root account cannot be written; and also a failed opening leaves byte strings. *)
Lemma p_C128_opening : forall fs d,
  match io_result t_new_io fs d with
  | Ok t => exists h, config_height fs d h /\ opened_at h d t
  | Err e => e = ETreeInit \/ e = EChainInit
  | Panic => exists h n, config_height fs d h /\ h <= 1 /\ In (Fails n) fs
  | UB => False
  end /\ (any_disk d -> any_disk (io_after t_new_io fs d)).
Proof.
  intros fs d. destruct (new_cases byte_values values_insert fs d) as [H1 H2]. split; [|exact H2]. destruct (io_result t_new_io fs d) as [t|e| |]; auto.
  destruct H1 as (h & df & Hc & ->). exists h. split; [exact Hc|]. apply opened_tree_at.
Qed.
(*@E
Example C128_ex_opening :
  let d := MkDisk (MkMainDisk sled_empty sled_empty sled_empty (MkFile (Some (to_be 32 7 ++ repeat 0 32)) [])) sled_empty sled_empty sled_empty sled_empty [] in
  (exists t, io_result t_new_io [] d = Ok t /\ mc_height (t_main t) = 7) /\
  (exists t, io_result t_new_io (repeat Fine 7 ++ [Fails 0]) d = Ok t /\ mc_height (t_main t) = 1) /\
  io_result t_new_io [Fine; Fails 0] d = Err ETreeInit /\ io_result t_new_io (repeat Fine 4 ++ [Fails 0]) d = Err EChainInit /\
  io_result t_new_io (repeat Fine 7 ++ [Fails 0; Fine; Fine; Fails 1]) d = Panic.
Proof.
  cbv zeta. split; [eexists; split; vm_compute; reflexivity|]. split; [eexists; split; vm_compute; reflexivity|]. split; [vm_compute; reflexivity|]. split; vm_compute; reflexivity.
Qed.
@*)

(** *** Crashes *)
Definition lasting (s : sled) : Prop := byte_values s /\ forall n, byte_values (sled_crash n s).
Lemma get_insert_values k v m : bytes_ok v -> (forall x y, sm_get x m = Some y -> bytes_ok y) -> forall x y, sm_get x (sm_insert k v m) = Some y -> bytes_ok y.
Proof. intros Hv Hm x y. rewrite sm_get_insert. destruct (bytes_eqb x k); [intros X; injection X as <-; exact Hv|apply Hm]. Qed.
Lemma lasting_empty : lasting sled_empty.
Proof. split; [exact empty_values|]. intros [|n] k v X; discriminate X. Qed.
Lemma lasting_insert k v s : lasting s -> bytes_ok v -> lasting (sled_insert k v s).
Proof.
  intros [H1 H2] Hv. split; [apply values_insert; assumption|]. intros n. unfold sled_insert, sled_commit, sled_crash. cbn [pend dur].
  rewrite firstn_app, fold_left_app. specialize (H2 n). unfold sled_crash in H2. destruct (n - length (pend s))%nat; cbn [firstn fold_left]; [exact H2|].
  rewrite firstn_nil. intros x y. cbn [fold_left]. unfold sled_get. cbn [cur]. unfold apply_batch at 1. cbn [fold_left fst snd]. apply get_insert_values; [exact Hv|exact H2].
Qed.
Lemma lasting_flush s : lasting s -> lasting (sled_flush s).
Proof. intros [H1 _]. split; [apply flush_values, H1|]. intros [|n]; exact H1. Qed.
Lemma lasting_crash n s : lasting s -> lasting (sled_crash n s).
Proof. intros [_ H2]. split; [apply H2|]. intros [|k]; exact (H2 n). Qed.
Lemma lasting_rest s : byte_values s -> sled_flush s = s -> lasting s.
Proof. intros H E. split; [exact H|]. rewrite <- E. intros [|n]; exact H. Qed.
Lemma any_history_ok p : (forall h, any_history p h -> vtree lasting (h_tree h)).
Proof.
  assert (O : forall d fs t, vdisk lasting d -> io_result t_new_io fs d = Ok t -> vtree lasting t).
  { intros d fs t Hd E. destruct (new_cases lasting lasting_insert fs d) as [H _]. rewrite E in H. destruct H as (h & df & _ & ->). apply (opened_any lasting lasting_insert), Hd. }
  fix IH 2. intros h H. destruct H as [d fs t Hd E|h o fs H Hw].
  - apply (O d fs t); [|exact E]. clear E t. revert d Hd. fix IH2 2. intros d Hd. destruct Hd as [d (H1 & H2 & H3) (R1 & R2 & R3)|h H|h s H|d fs' Hd N|d fs' s Hd].
    + split; [apply lasting_rest; assumption|]. split; [apply lasting_rest; assumption|]. intros w k Hi. apply lasting_rest; [apply (H3 w k Hi)|apply (R3 w k Hi)].
    + apply (t_close_any lasting lasting_flush), IH, H.
    + specialize (IH h H). split; [apply lasting_crash, IH|]. split; [apply lasting_crash, IH|]. apply (close_any lasting); [exact IH|].
      intros w c Hc. destruct (sv_deriv s w) as [[a b] f]. apply lasting_crash, Hc.
    + apply (settle_any lasting lasting_flush), (new_cases lasting lasting_insert), IH2, Hd.
    + destruct (new_cases lasting lasting_insert fs' d) as [_ K]. specialize (K (IH2 d Hd)) as (K1 & K2 & K3). split; [apply lasting_crash, K1|]. split; [apply lasting_crash, K2|exact K3].
  - apply (v_calls lasting (fun s X => proj1 X) lasting_empty lasting_insert lasting_flush); [apply IH, H|exact Hw].
Qed.

(*@T C128: so in a history that starts in a directory with any contents, with failing I/O operations, closings, crashes and openings, also failed and killed ones, no call is undefined in a debug build, and in a release build
    only the emissions named above are. *)
Lemma p_C128_histories : forall p h o fs, any_history p h -> op_wf o ->
  io_result (io_step p o) fs h = UB -> p = Release /\ leaves_array (h_tree h) o.
Proof. intros p h o fs H Hw. apply (v_calls lasting (fun s X => proj1 X) lasting_empty lasting_insert lasting_flush); [apply (any_history_ok p), H|exact Hw]. Qed.
(*@E
Example C128_ex_histories :
  let b := SummBlock (MkInfo 1000 (repeat 0 32) (repeat 0 32) 1 (255 :: repeat 0 31) addrA) (repeat 0 32) in
  let d := MkDisk (MkMainDisk (sled_flush (sled_insert (to_be 32 1) (block_dump b) sled_empty)) sled_empty sled_empty (MkFile (Some (to_be 32 2 ++ repeat 0 32)) [])) sled_empty sled_empty sled_empty sled_empty [] in
  any_disk d /\ at_rest d /\ exists t, io_result t_new_io [] d = Ok t /\ any_history Release (io_after (io_step Release OFlush) [Fine; Fails 2] (opened t)) /\
  io_result (io_step Release (OEmitMain (repeat 0 32) addrA [] 1601)) [] (io_after (io_step Release OFlush) [Fine; Fails 2] (opened t)) = UB.
Proof.
  cbv zeta. set (b := SummBlock _ _). set (d := MkDisk _ _ _ _ _ _). assert (A : any_disk d).
  { split; [|split; [intros k v X; discriminate X|intros w k []]]. cbn [d k_main md_blocks]. apply flush_values, values_insert; [intros k v X; discriminate X|]. apply block_dump_ok.
    repeat split; try constructor; repeat constructor. }
  assert (R : at_rest d) by (split; [reflexivity|split; [reflexivity|intros w k []]]). split; [exact A|]. split; [exact R|]. eexists. split; [vm_compute; reflexivity|]. split; [|vm_compute; reflexivity].
  eapply any_call; [|exact Logic.I]. eapply (any_open _ d []); [exact (left_any _ d A R)|vm_compute; reflexivity].
Qed.
@*)
