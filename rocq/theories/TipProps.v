(** A block commits to everything before it. *)
From Coq Require Import Lia ZifyBool ZifyNat ZifyN.
From Verif Require Import Base Sha256 Merkle Tools Transaction Block Sled Chain Tree Spec Reach QuietSpec LiveSpec Conc ConcTree ConcFlush ConcEmit Cancel ConcDeriv CrashSpec DcrashSpec HistSpec Io IoSpec LifeSpec DlifeSpec TipSpec Demo.
From Verif Require Import BaseFacts ToolsFacts MerkleFacts DiffFacts CodecFacts SledFacts ChainFacts TreeFacts LedgerFacts CrashFacts ConcFacts EmitFacts DerivFacts IoFacts CodecProps MainProps DerivProps DcrashProps HistProps LifeFacts LifeProps DlifeFacts DlifeProps.
From Verif Require LiveProps.

Local Strategy 1000 [u256_mul u256_add u256_sub BYTE_GAS_PRICE t_get_amount t_get_gas mc_decode dc_decode recalculate_fee recalculate_difficulty t_send_amount t_sub_gas sled_get check_pow emit_block next_info dc_new mc_read_config genesis_block].

(** Blocks one after the other, each naming the hash of the one before. *)
Record row (at_ : N -> block -> Prop) (L : list block) : Prop := {
  row_at : forall i b, at_ i b <-> nth_error L (N.to_nat i) = Some b;
  row_wf : Forall block_wf L;
  row_height : forall i b, nth_error L i = Some b -> bi_height (get_info b) = N.of_nat i;
  row_link : forall i a b, nth_error L i = Some a -> nth_error L (S i) = Some b -> bi_previous_hash (get_info b) = block_hash a
}.

Lemma firstn_more {A} (l : list A) n x : nth_error l n = Some x -> firstn (S n) l = firstn n l ++ [x].
Proof. revert n. induction l as [|y l IH]; intros [|n] H; try discriminate; cbn [nth_error] in H; [injection H as ->; reflexivity|]. cbn [firstn app]. f_equal. apply IH, H. Qed.
Lemma firstn_same_nth {A} (l l' : list A) n k : firstn n l = firstn n l' -> (k < n)%nat -> nth_error l k = nth_error l' k.
Proof.
  revert l l' k. induction n as [|n IH]; intros l l' k E H; [lia|]. destruct l as [|x l], l' as [|y l']; try discriminate E; [reflexivity|].
  cbn [firstn] in E. injection E as -> E. destruct k as [|k]; [reflexivity|]. cbn [nth_error]. apply IH; [exact E|lia].
Qed.
Lemma nth_last {A} (l : list A) d : l <> [] -> nth_error l (length l - 1) = Some (last l d).
Proof. intros H. rewrite <- (nthN_last l d H). unfold nthN. f_equal. lia. Qed.
Lemma walk_back A B LA LB : row A LA -> row B LB -> forall i j a b, nth_error LA i = Some a -> nth_error LB j = Some b -> block_hash a = block_hash b ->
  (a = b /\ i = j /\ firstn (S i) LA = firstn (S i) LB) \/
  exists k l c d, nth_error LA k = Some c /\ nth_error LB l = Some d /\ collision (block_dump c) (block_dump d).
Proof.
  intros RA RB. induction i as [|i IH]; intros j a b Ha Hb E.
  all: destruct (p_C11_dump_determines_block a b) as [_ D];
    [apply (proj1 (Forall_forall _ _) (row_wf _ _ RA)), (nth_error_In _ _ Ha)|apply (proj1 (Forall_forall _ _) (row_wf _ _ RB)), (nth_error_In _ _ Hb)|];
    destruct (D E) as [<-|C]; [|right; eauto 8];
    pose proof (row_height _ _ RA _ _ Ha) as H1; pose proof (row_height _ _ RB _ _ Hb) as H2; rewrite H1 in H2; apply Nnat.Nat2N.inj in H2; subst j.
  - left. split; [reflexivity|]. split; [reflexivity|]. destruct LA, LB; try discriminate. cbn [nth_error] in Ha, Hb. cbn [firstn]. congruence.
  - destruct (nth_error LA i) as [a'|] eqn:Ha'; [|apply nth_error_None in Ha'; assert (X : nth_error LA (S i) = None) by (apply nth_error_None; lia); congruence].
    destruct (nth_error LB i) as [b'|] eqn:Hb'; [|apply nth_error_None in Hb'; assert (X : nth_error LB (S i) = None) by (apply nth_error_None; lia); congruence].
    destruct (IH i a' b' eq_refl Hb') as [(-> & _ & F)|X]; [|left|right; exact X].
    + rewrite <- (row_link _ _ RA _ _ _ Ha' Ha), <- (row_link _ _ RB _ _ _ Hb' Hb). reflexivity.
    + split; [reflexivity|]. split; [reflexivity|]. rewrite (firstn_more LA _ a Ha), (firstn_more LB _ a Hb), F. reflexivity.
Qed.

Lemma row_same A B LA LB i : row A LA -> row B LB -> firstn (S i) LA = firstn (S i) LB -> forall k c, k <= N.of_nat i -> (A k c <-> B k c).
Proof. intros RA RB F k c Hk. rewrite (row_at _ _ RA), (row_at _ _ RB), (firstn_same_nth LA LB (S i) (N.to_nat k) F) by lia. reflexivity. Qed.
Lemma row_back A B LA LB i j a b : row A LA -> row B LB -> A i a -> B j b -> block_hash a = block_hash b ->
  (a = b /\ i = j /\ forall k c, k <= i -> (A k c <-> B k c)) \/
  exists k l c d, A k c /\ B l d /\ collision (block_dump c) (block_dump d).
Proof.
  intros RA RB Ha Hb E. apply (row_at _ _ RA) in Ha. apply (row_at _ _ RB) in Hb.
  destruct (walk_back A B LA LB RA RB _ _ _ _ Ha Hb E) as [(H1 & H2 & H3)|(k & l & c & d & H1 & H2 & H3)]; [left|right].
  - split; [exact H1|]. split; [lia|]. intros k c Hk. apply (row_same A B LA LB (N.to_nat i) RA RB H3). lia.
  - exists (N.of_nat k), (N.of_nat l), c, d. split; [apply (row_at _ _ RA); rewrite Nnat.Nat2N.id; exact H1|]. split; [apply (row_at _ _ RB); rewrite Nnat.Nat2N.id; exact H2|exact H3].
Qed.

Lemma chained_nth {A} (R : A -> A -> Prop) l : chained R l -> forall i a b, nth_error l i = Some a -> nth_error l (S i) = Some b -> R a b.
Proof.
  induction 1 as [|x|x y l Hxy _ IH]; intros i a b Ha Hb; [destruct i; discriminate..|destruct i as [|i]; [|exact (IH i a b Ha Hb)]].
  cbn [nth_error] in Ha, Hb. injection Ha as <-. injection Hb as <-. exact Hxy.
Qed.
Lemma main_link_prev p a b : main_link p a b -> bi_previous_hash (get_info b) = block_hash a.
Proof. unfold main_link. destruct b as [fee root i txs|i|i root]; [intros (_ & _ & _ & _ & H)|intros []|intros (_ & H)]; apply H. Qed.

Lemma life_more (ok ok' : host -> op -> list fault -> Prop) p a n b : (forall h o fs, ok h o fs -> ok' h o fs) -> life ok p a n b -> life ok' p a n b.
Proof. intros H. induction 1; [apply life_start|apply life_call; auto|apply life_close; assumption|apply life_crash; assumption|eapply life_open; eassumption|apply life_open_fails; assumption|apply life_open_crash; assumption]. Qed.

Lemma main_row p h : emitted_node p h -> exists L, row (block_at (h_tree h)) L /\ mc_get_height (t_main (h_tree h)) = N.of_nat (length L) /\
  nth_error L 0 = Some genesis /\ mc_get_last_block (t_main (h_tree h)) = Ok (Some (last L genesis)).
Proof.
  intros (n & Hn & Hl). destruct (p_C107_linked_partial p n h Hl Hn) as (L & g & Eg & Hg & Hh & Hf & Hlast & Hc).
  rewrite genesis_eq in Eg. apply ok_inv in Eg. subst g.
  destruct (p_C107_nothing_else_is_found p n h (life_more _ any_faults _ _ _ _ (fun _ _ _ _ => Logic.I) Hl)) as [Hb Hall]. pose proof (life_entries _ _ _ _ Hl) as HE.
  assert (HD : forall i b, nth_error L i = Some b -> block_wf b /\ bi_height (get_info b) = N.of_nat i).
  { intros i b E. pose proof (Hf i b E) as F. unfold mc_find_by_height in F. destruct (mc_find_raw_by_height (N.of_nat i) (t_main (h_tree h))) as [d|] eqn:Ed; [|discriminate F].
    unfold mc_find_raw_by_height in Ed. destruct (N.ltb_spec (mc_height (t_main (h_tree h))) (N.of_nat i)) as [|Hi]; [discriminate Ed|].
    destruct (stored_decode _ _ _ (alw_cur _ _ (kp_blocks _ _ _ _ HE) _ _ Ed) F) as (W & K & _). split; [exact W|]. apply height_key_inj in K; [lia|unfold mc_get_height in Hb; lia|destruct b; apply W]. }
  exists L. split; [split|].
  - intros i b. unfold block_at. rewrite Hh. split.
    + intros [Hi E]. destruct (nth_error L (N.to_nat i)) as [c|] eqn:Ec; [|apply nth_error_None in Ec; lia]. apply Hf in Ec. rewrite Nnat.N2Nat.id, E in Ec. congruence.
    + intros E. split; [assert ((N.to_nat i < length L)%nat) by (apply nth_error_Some; congruence); lia|]. apply Hf in E. rewrite Nnat.N2Nat.id in E. exact E.
  - apply Forall_forall. intros b Hin. apply In_nth_error in Hin as [i Hi]. apply (HD i b Hi).
  - intros i b Hi. apply (HD i b Hi).
  - intros i a b Ha Hbb. apply (main_link_prev p). exact (chained_nth _ _ Hc _ _ _ Ha Hbb).
  - split; [exact Hh|]. split; [destruct L; [discriminate Hg|exact Hg]|exact Hlast].
Qed.

(*@T C122: a block of the main chain determines everything before it.  If two nodes, whatever failed and whenever they were killed, have blocks with
   the same hash anywhere in their main chains, then these are at the same height and the two chains agree up to there, or two blocks the nodes have
   are a SHA-256 collision.  The nodes may be builds with and without overflow checks.
   Missing: blocks added from outside, see [C122_raw_refuted]; kills between the writing of the config and the flush of the blocks, as in [C107_linked_partial]. *)
Lemma p_C122_history_partial : forall p q hA hB i j a b, emitted_node p hA -> emitted_node q hB ->
  block_at (h_tree hA) i a -> block_at (h_tree hB) j b -> block_hash a = block_hash b ->
  (a = b /\ i = j /\ forall k c, k <= i -> (block_at (h_tree hA) k c <-> block_at (h_tree hB) k c)) \/
  exists k l c d, block_at (h_tree hA) k c /\ block_at (h_tree hB) l d /\ collision (block_dump c) (block_dump d).
Proof.
  intros p q hA hB i j a b HA HB Ha Hb E. destruct (main_row _ _ HA) as (LA & RA & _). destruct (main_row _ _ HB) as (LB & RB & _).
  exact (row_back _ _ _ _ _ _ _ _ RA RB Ha Hb E).
Qed.
(*@T C122: the last block determines the main chain: two nodes whose last blocks have the same hash have the same blocks at all heights. *)
Lemma p_C122_last_block_partial : forall p q hA hB a b, emitted_node p hA -> emitted_node q hB ->
  mc_get_last_block (t_main (h_tree hA)) = Ok (Some a) -> mc_get_last_block (t_main (h_tree hB)) = Ok (Some b) -> block_hash a = block_hash b ->
  (mc_get_height (t_main (h_tree hA)) = mc_get_height (t_main (h_tree hB)) /\ forall k c, block_at (h_tree hA) k c <-> block_at (h_tree hB) k c) \/
  exists k l c d, block_at (h_tree hA) k c /\ block_at (h_tree hB) l d /\ collision (block_dump c) (block_dump d).
Proof.
  intros p q hA hB a b HA HB Ha Hb E. destruct (main_row _ _ HA) as (LA & RA & EA & GA & TA). destruct (main_row _ _ HB) as (LB & RB & EB & GB & TB).
  rewrite TA in Ha. rewrite TB in Hb. apply ok_inv in Ha. apply ok_inv in Hb.
  assert (NA : LA <> []) by (intros ->; discriminate GA). assert (NB : LB <> []) by (intros ->; discriminate GB).
  pose proof (nth_last LA genesis NA) as Ha'. pose proof (nth_last LB genesis NB) as Hb'.
  replace (last LA genesis) with a in Ha' by congruence. replace (last LB genesis) with b in Hb' by congruence.
  destruct (walk_back _ _ LA LB RA RB _ _ _ _ Ha' Hb' E) as [(_ & H2 & H3)|(k & l & c & d & H1 & H2 & H3)]; [left|right].
  - assert (length LA <> 0)%nat by (destruct LA; [congruence|discriminate]). assert (length LB <> 0)%nat by (destruct LB; [congruence|discriminate]).
    split; [lia|]. intros k c. rewrite (row_at _ _ RA), (row_at _ _ RB). replace (S (length LA - 1)) with (length LA) in H3 by lia.
    rewrite firstn_all in H3. replace (length LA) with (length LB) in H3 by lia. rewrite firstn_all in H3. rewrite H3. reflexivity.
  - exists (N.of_nat k), (N.of_nat l), c, d. split; [apply (row_at _ _ RA); rewrite Nnat.Nat2N.id; exact H1|]. split; [apply (row_at _ _ RB); rewrite Nnat.Nat2N.id; exact H2|exact H3].
Qed.
Lemma prefix_ex {A} (dec : forall x y : A, {x = y} + {x <> y}) (l l' : list A) : exists f, (f <= length l /\ f <= length l')%nat /\ firstn f l = firstn f l' /\
  (f = length l \/ f = length l' \/ nth_error l f <> nth_error l' f).
Proof.
  revert l'. induction l as [|x l IH]; intros l'; [exists 0%nat; split; [cbn [length]; lia|]; split; [reflexivity|left; reflexivity]|].
  destruct l' as [|y l']; [exists 0%nat; split; [cbn [length]; lia|]; split; [reflexivity|right; left; reflexivity]|].
  destruct (dec x y) as [->|Hne].
  - destruct (IH l') as (f & [H1 H2] & H3 & H4). exists (S f). cbn [length firstn nth_error]. split; [lia|]. split; [congruence|]. destruct H4 as [->|[->|H4]]; auto.
  - exists 0%nat. split; [cbn [length]; lia|]. split; [reflexivity|]. right. right. cbn [nth_error]. congruence.
Qed.
Lemma info_dec (x y : basic_info) : {x = y} + {x <> y}.
Proof. decide equality; first [apply bytes_eq_dec|apply N.eq_dec]. Qed.
Lemma block_dec (x y : block) : {x = y} + {x <> y}.
Proof. decide equality; first [apply (list_eq_dec bytes_eq_dec)|apply info_dec|apply bytes_eq_dec|apply N.eq_dec]. Qed.
(*@T C122, forks: the main chains of two nodes agree up to some height, at least in the first block, and above it no block of the one has the hash of a block of the other,
   or two blocks the nodes have are a SHA-256 collision. *)
Lemma p_C122_fork_partial : forall p q hA hB, emitted_node p hA -> emitted_node q hB ->
  (exists f, 1 <= f <= N.min (mc_get_height (t_main (h_tree hA))) (mc_get_height (t_main (h_tree hB))) /\
    (forall k c, k < f -> (block_at (h_tree hA) k c <-> block_at (h_tree hB) k c)) /\
    (forall i j a b, f <= i \/ f <= j -> block_at (h_tree hA) i a -> block_at (h_tree hB) j b -> block_hash a <> block_hash b)) \/
  exists k l c d, block_at (h_tree hA) k c /\ block_at (h_tree hB) l d /\ collision (block_dump c) (block_dump d).
Proof.
  intros p q hA hB HA HB. destruct (main_row _ _ HA) as (LA & RA & EA & GA & _). destruct (main_row _ _ HB) as (LB & RB & EB & GB & _).
  assert (X : (exists i j a b, nth_error LA i = Some a /\ nth_error LB j = Some b /\ collision (block_dump a) (block_dump b)) \/
    forall i j a b, nth_error LA i = Some a -> nth_error LB j = Some b -> block_hash a = block_hash b -> i = j /\ firstn (S i) LA = firstn (S i) LB).
  { destruct (Exists_dec (fun a => Exists (fun b => collision (block_dump a) (block_dump b)) LB) LA) as [Y|Y].
    - intros a. apply Exists_dec. intros b. unfold collision. destruct (bytes_eq_dec (block_dump a) (block_dump b)) as [e|e]; [right; intros [n _]; exact (n e)|].
      destruct (bytes_eq_dec (sha256 (block_dump a)) (sha256 (block_dump b))) as [e'|e']; [left; split; assumption|right; intros [_ n]; exact (e' n)].
    - left. apply Exists_exists in Y as (a & Ha & Y). apply Exists_exists in Y as (b & Hb & Y). apply In_nth_error in Ha as [i Hi]. apply In_nth_error in Hb as [j Hj]. eauto 8.
    - right. intros i j a b Ha Hb E. destruct (walk_back _ _ LA LB RA RB _ _ _ _ Ha Hb E) as [(_ & H2 & H3)|(k & l & c & d & H1 & H2 & H3)]; [split; assumption|exfalso].
      apply Y. apply Exists_exists. exists c. split; [eapply nth_error_In, H1|]. apply Exists_exists. exists d. split; [eapply nth_error_In, H2|exact H3]. }
  destruct X as [(i & j & a & b & H1 & H2 & H3)|X]; [right|left].
  - exists (N.of_nat i), (N.of_nat j), a, b. split; [apply (row_at _ _ RA); rewrite Nnat.Nat2N.id; exact H1|]. split; [apply (row_at _ _ RB); rewrite Nnat.Nat2N.id; exact H2|exact H3].
  - destruct (prefix_ex block_dec LA LB) as (f & [F1 F2] & F3 & F4). exists (N.of_nat f).
    assert (Hf : (1 <= f)%nat).
    { destruct f; [exfalso|lia]. destruct LA; [discriminate GA|]. destruct LB; [discriminate GB|]. destruct F4 as [F4|[F4|F4]]; [discriminate F4..|]. apply F4. congruence. }
    split; [lia|]. split.
    + intros k c Hk. destruct f as [|f]; [lia|]. apply (row_same _ _ LA LB f RA RB F3). lia.
    + intros i j a b Hij Ha Hb E. apply (row_at _ _ RA) in Ha. apply (row_at _ _ RB) in Hb. destruct (X _ _ _ _ Ha Hb E) as [Eij F].
      assert (N.to_nat i < length LA)%nat by (apply nth_error_Some; congruence). assert (N.to_nat j < length LB)%nat by (apply nth_error_Some; congruence).
      destruct F4 as [F4|[F4|F4]]; [lia..|]. apply F4. apply (firstn_same_nth _ _ _ _ F). lia.
Qed.
(*@T C122, transactions: what two nodes return for the same transaction hash is the same, whatever happened to them, or a SHA-256 collision. *)
Lemma p_C122_transactions : forall p q n m hA hB k d d', life any_faults p (Down disk_empty) n (Up hA) -> life any_faults q (Down disk_empty) m (Up hB) ->
  mc_get_transaction_raw k (t_main (h_tree hA)) = Some d -> mc_get_transaction_raw k (t_main (h_tree hB)) = Some d' -> d = d' \/ collision d d'.
Proof.
  intros p q n m hA hB k d d' HA HB E E'. apply life_entries in HA. apply life_entries in HB.
  pose proof (alw_cur _ _ (kp_txs _ _ _ _ HA) _ _ E) as H1. pose proof (alw_cur _ _ (kp_txs _ _ _ _ HB) _ _ E') as H2.
  destruct (bytes_eq_dec d d') as [->|Hne]; [left; reflexivity|right]. split; [exact Hne|congruence].
Qed.

(** ** Derivative chains *)
Lemma deriv_row p w c (B : list basic_info) : dc_get_height c = N.of_nat (length B) ->
  (forall i x, nth_error B i = Some x -> dc_find_by_height (N.of_nat i) c = Ok (Some (DerivBlock x)) /\ bi_height x = N.of_nat i /\ bi_founder x = w) ->
  Forall info_wf B -> chained (deriv_link p) B -> row (dblock_at c) (map DerivBlock B).
Proof.
  intros Hh Hf Hw Hc. split.
  - intros i b. unfold dblock_at. rewrite Hh. split.
    + intros [Hi E]. destruct (nth_error B (N.to_nat i)) as [x|] eqn:Ex; [|apply nth_error_None in Ex; lia]. rewrite (map_nth_error DerivBlock _ _ Ex). apply Hf in Ex as [Ex _].
      rewrite Nnat.N2Nat.id, E in Ex. congruence.
    + intros E. destruct (nth_error B (N.to_nat i)) as [x|] eqn:Ex.
      * rewrite (map_nth_error DerivBlock _ _ Ex) in E. injection E as <-. split; [assert ((N.to_nat i < length B)%nat) by (apply nth_error_Some; congruence); lia|].
        apply Hf in Ex as [Ex _]. rewrite Nnat.N2Nat.id in Ex. exact Ex.
      * apply nth_error_None in Ex. assert (Z : nth_error (map DerivBlock B) (N.to_nat i) = None) by (apply nth_error_None; rewrite map_length; exact Ex). congruence.
  - apply Forall_map. exact Hw.
  - intros i b E. destruct (nth_error B i) as [x|] eqn:Ex.
    + rewrite (map_nth_error DerivBlock _ _ Ex) in E. injection E as <-. apply Hf in Ex. apply Ex.
    + apply nth_error_None in Ex. assert (Z : nth_error (map DerivBlock B) i = None) by (apply nth_error_None; rewrite map_length; exact Ex). congruence.
  - intros i a b Ha Hb. destruct (nth_error B i) as [x|] eqn:Ex; [|apply nth_error_None in Ex; assert (Z : nth_error (map DerivBlock B) i = None) by (apply nth_error_None; rewrite map_length; exact Ex); congruence].
    destruct (nth_error B (S i)) as [y|] eqn:Ey; [|apply nth_error_None in Ey; assert (Z : nth_error (map DerivBlock B) (S i) = None) by (apply nth_error_None; rewrite map_length; exact Ey); congruence].
    rewrite (map_nth_error DerivBlock _ _ Ex) in Ha. rewrite (map_nth_error DerivBlock _ _ Ey) in Hb. injection Ha as <-. injection Hb as <-. apply (chained_nth _ _ Hc _ _ _ Ex Ey).
Qed.
Lemma dlife_row p h w c : demitted_node p h -> assoc_get w (t_derivs (h_tree h)) = Some c ->
  exists B, row (dblock_at c) (map DerivBlock B) /\ dc_get_height c = N.of_nat (length B) /\ Forall (fun x => bi_founder x = w) B.
Proof.
  intros (n & Hn & Hl) Hc. destruct (p_C109_linked_partial p n h w c Hl Hn Hc) as (B & H1 & H2 & _ & H4).
  destruct (p_C109_nothing_else_is_found p n h w c (life_more _ any_faults _ _ _ _ (fun _ _ _ _ => Logic.I) Hl) Hc) as [_ Hall].
  assert (Hw : Forall (fun x => info_wf x /\ bi_founder x = w) B).
  { apply Forall_forall. intros x Hx. apply In_nth_error in Hx as [i Hi]. destruct (H2 i x Hi) as (F & _ & Hfo). split; [|exact Hfo]. unfold dc_find_by_height in F.
    destruct (dc_find_raw_by_height (N.of_nat i) c) as [d|] eqn:Ed; [|discriminate F]. destruct (Hall _ _ Ed) as (x' & W & _ & _ & F'). unfold dc_find_by_height in F'. rewrite Ed, F in F'. injection F' as ->. exact W. }
  exists B. split; [apply (deriv_row p w); try assumption|].
  - eapply Forall_impl; [|exact Hw]. intros x Hx. apply Hx.
  - split; [exact H1|]. eapply Forall_impl; [|exact Hw]. intros x Hx. apply Hx.
Qed.
Lemma at_founder A w B i b : row A (map DerivBlock B) -> Forall (fun x => bi_founder x = w) B -> A i b -> bi_founder (get_info b) = w.
Proof.
  intros R F H. apply (row_at _ _ R) in H. apply nth_error_In in H. apply in_map_iff in H as (x & <- & Hx). cbn [get_info]. apply (proj1 (Forall_forall _ _) F), Hx.
Qed.
(*@T C122: the same for derivative chains, whatever failed: blocks with the same hash belong to the same owner and the same height, and the chains agree up to there.
   Missing: blocks added through a handle; calls that cannot open an existing config file and kills inside a flush, as in [C109_linked_partial]. *)
Lemma p_C122_derivative_partial : forall p q hA hB w w' c c' i j a b, demitted_node p hA -> demitted_node q hB ->
  assoc_get w (t_derivs (h_tree hA)) = Some c -> assoc_get w' (t_derivs (h_tree hB)) = Some c' ->
  dblock_at c i a -> dblock_at c' j b -> block_hash a = block_hash b ->
  (w = w' /\ a = b /\ i = j /\ forall k x, k <= i -> (dblock_at c k x <-> dblock_at c' k x)) \/
  exists k l x y, dblock_at c k x /\ dblock_at c' l y /\ collision (block_dump x) (block_dump y).
Proof.
  intros p q hA hB w w' c c' i j a b HA HB Hc Hc' Ha Hb E. destruct (dlife_row _ _ _ _ HA Hc) as (B & R & _ & F). destruct (dlife_row _ _ _ _ HB Hc') as (B' & R' & _ & F').
  destruct (row_back _ _ _ _ _ _ _ _ R R' Ha Hb E) as [(H1 & H2 & H3)|X]; [left|right; exact X].
  split; [|auto]. subst b. pose proof (at_founder _ _ _ _ _ R F Ha). pose proof (at_founder _ _ _ _ _ R' F' Hb). congruence.
Qed.

Lemma reach_row p n t : reachable emission_only p n t -> few n -> exists L, row (block_at t) L.
Proof.
  intros Hr Hn. assert (Hr' : reachable no_raw_main p n t) by (eapply LiveProps.reach_mono; [|exact Hr]; intros o [H _]; exact H).
  destruct (linked_list p n t Hr' Hn) as (L & HL & Hlen & Hk). destruct (p_C35_emitted_chain_linked p n t Hr' Hn) as (L' & g & _ & _ & Hh & Hf & _).
  assert (HL' : length L' = length L). { pose proof (mi_height _ _ (ti_main _ _ HL)) as X. unfold mc_get_height in Hh. lia. }
  assert (Hf0 : forall i b, nth_error L i = Some b -> mc_find_by_height (N.of_nat i) (t_main t) = Ok (Some b)).
  { intros i b Hb. destruct (nth_error L' i) as [b'|] eqn:Eb; [|apply nth_error_None in Eb; assert (nth_error L i = None) by (apply nth_error_None; lia); congruence].
    pose proof (Hf _ _ Eb) as Hb'. rewrite Hb'. do 2 f_equal. unfold mc_find_by_height in Hb'.
    assert (HbN : nthN L (N.of_nat i) = Some b) by (unfold nthN; rewrite Nnat.Nat2N.id; exact Hb). unfold few in Hn.
    rewrite (main_find_raw _ L) in Hb' by (try apply HL; lia). rewrite HbN in Hb'. cbn [option_map] in Hb'.
    destruct (tree_readable t L _ _ HL ltac:(lia) HbN) as [Hrd|(info & ->)]; [rewrite readable_decode in Hb' by exact Hrd; congruence|].
    exfalso. destruct i as [|i]; [rewrite (ti_gen _ _ HL) in Hb; discriminate|]. exact (chained_in_kind p L Hk i _ Hb). }
  exists L. split.
  - intros i b. unfold block_at. rewrite Hh, HL'. split.
    + intros [Hi E]. destruct (nth_error L (N.to_nat i)) as [c|] eqn:Ec; [|apply nth_error_None in Ec; lia]. apply Hf0 in Ec. rewrite Nnat.N2Nat.id, E in Ec. congruence.
    + intros E. split; [assert ((N.to_nat i < length L)%nat) by (apply nth_error_Some; congruence); lia|]. apply Hf0 in E. rewrite Nnat.N2Nat.id in E. exact E.
  - apply HL.
  - intros i b Hi. apply (mi_heights _ _ (ti_main _ _ HL)). unfold nthN. rewrite Nnat.Nat2N.id. exact Hi.
  - intros i a b Ha Hb. apply (main_link_prev p). exact (chained_nth _ _ Hk _ _ _ Ha Hb).
Qed.
Lemma dreach_row p n t w c : reachable emission_only p n t -> few n -> assoc_get w (t_derivs t) = Some c ->
  exists B, row (dblock_at c) (map DerivBlock B) /\ dc_get_height c = N.of_nat (length B) /\ N.of_nat (length B) < 2 ^ 256 /\ Forall (fun x => bi_founder x = w) B /\
    (forall x, nth_error B 0 = Some x -> bi_previous_hash x = dc_genesis c) /\ exists k g, block_at t k g /\ block_hash g = dc_genesis c.
Proof.
  intros Hr Hn Hc. assert (Hr' : reachable no_raw_deriv p n t) by (eapply LiveProps.reach_mono; [|exact Hr]; intros o [_ H]; exact H).
  assert (Hr2 : reachable no_raw_main p n t) by (eapply LiveProps.reach_mono; [|exact Hr]; intros o [H _]; exact H).
  destruct (linked_list p n t Hr2 Hn) as (L & HL & Hlen & Hk). destruct (reach_row p n t Hr Hn) as [L2 R2].
  destruct (p_C39_chain_linked p n t w c Hr' Hn Hc) as ((k & m & Hk1 & Hk2 & Hk3) & B & H1 & H2 & H3 & H4).
  destruct (reachable_derivs true _ _ _ _ Hr' strict_true Hn) as (L1 & HL1 & Hlen1 & HD). destruct (derivs_inv_get _ _ _ _ _ _ _ HD Hc) as (_ & B1 & HB1 & Hl1).
  unfold few in Hn. pose proof (di_height _ _ _ _ _ _ HB1) as Hh1.
  assert (EB : length B = length B1) by (unfold dc_get_height in H1; lia).
  assert (W : Forall info_wf B).
  { apply Forall_forall. intros x Hx. apply In_nth_error in Hx as [i Hi]. destruct (H2 i x Hi) as (F & _ & _).
    destruct (nth_error B1 i) as [y|] eqn:Ey; [|apply nth_error_None in Ey; assert (nth_error B i = None) by (apply nth_error_None; lia); congruence].
    pose proof (di_chain _ _ _ _ _ _ HB1) as [_ _ C3 _]. assert (Wy : info_wf y) by (apply (proj1 (Forall_forall _ _) C3), (nth_error_In _ _ Ey)).
    rewrite nth_nthN in Ey. unfold dc_find_by_height in F. rewrite (deriv_find_raw _ _ _ _ _ _ _ _ HB1 Ey), (dc_decode_dump _ Wy) in F. injection F as <-. exact Wy. }
  exists B. split; [exact (deriv_row p w c B H1 H2 W H3)|]. split; [exact H1|]. split; [lia|]. split.
  - apply Forall_forall. intros x Hx. apply In_nth_error in Hx as [i Hi]. apply (H2 i x Hi).
  - split.
    + intros x Hx. destruct (H4 x Hx) as (k' & m' & _ & _ & E & S). rewrite <- E. apply S.
    + unfold mc_get_height in Hk1. pose proof (mi_height _ _ (ti_main _ _ HL)) as X.
      destruct (nthN L k) as [g|] eqn:Eg; [|unfold nthN in Eg; apply nth_error_None in Eg; lia].
      rewrite (main_find_raw _ L) in Hk2 by (try apply HL; lia). rewrite Eg in Hk2. cbn [option_map] in Hk2. injection Hk2 as Hk2.
      exists k, g. split; [|rewrite <- Hk3; unfold block_hash; rewrite Hk2; reflexivity]. split; [exact Hk1|]. unfold mc_find_by_height. rewrite (main_find_raw _ L) by (try apply HL; lia). rewrite Eg. cbn [option_map].
      destruct (tree_readable t L _ _ HL ltac:(lia) Eg) as [Hrd|(info & ->)]; [apply readable_decode, Hrd|].
      exfalso. unfold nthN in Eg. destruct (N.to_nat k) as [|i]; [rewrite (ti_gen _ _ HL) in Eg; discriminate|]. exact (chained_in_kind p L Hk i _ Eg).
Qed.
(*@T C122: the last block of a derivative chain determines that chain, its owner, the block of the main chain it is attached to and the main chain up to that block:
   two nodes that only emit and have derivative chains with the same last hash agree in all this, or two blocks they have are a SHA-256 collision.
   Missing: crashes and failing operations, after which the block a derivative chain is attached to may be gone (C87). *)
Lemma p_C122_anchor_partial : forall p q n m tA tB w w' c c' a b, reachable emission_only p n tA -> few n -> reachable emission_only q m tB -> few m ->
  assoc_get w (t_derivs tA) = Some c -> assoc_get w' (t_derivs tB) = Some c' ->
  dc_get_last_block c = Ok (Some a) -> dc_get_last_block c' = Ok (Some b) -> block_hash a = block_hash b ->
  (w = w' /\ dc_get_height c = dc_get_height c' /\ dc_genesis c = dc_genesis c' /\ (forall k x, dblock_at c k x <-> dblock_at c' k x) /\
   exists i g, block_at tA i g /\ block_hash g = dc_genesis c /\ forall k x, k <= i -> (block_at tA k x <-> block_at tB k x)) \/
  exists k l x y, ((block_at tA k x /\ block_at tB l y) \/ (dblock_at c k x /\ dblock_at c' l y)) /\ collision (block_dump x) (block_dump y).
Proof.
  intros p q n m tA tB w w' c c' a b HA Hn HB Hm Hc Hc' Ha Hb E.
  destruct (dreach_row _ _ _ _ _ HA Hn Hc) as (B & R & H1 & S1 & F & G & K). destruct (dreach_row _ _ _ _ _ HB Hm Hc') as (B' & R' & H1' & S1' & F' & G' & K').
  assert (Last : forall c B b, row (dblock_at c) (map DerivBlock B) -> dc_get_height c = N.of_nat (length B) -> N.of_nat (length B) < 2 ^ 256 -> dc_get_last_block c = Ok (Some b) ->
    length B <> 0%nat /\ dblock_at c (dc_get_height c - 1) b).
  { clear. intros c B b R H S L. unfold dc_get_last_block in L.
    assert (Z : dc_get_height c <> 0) by (intros Z; unfold dc_get_last_raw_block, dc_get_height in *; rewrite Z in L; discriminate L). split; [lia|]. split; [lia|].
    unfold dc_get_last_raw_block, dc_get_height, dc_find_by_height in *. destruct (N.eqb_spec (dc_height c) 0) as [e|e]; [contradiction|].
    replace (u256_sub (dc_height c) 1) with (Ok (dc_height c - 1)) in L by (unfold u256_sub; destruct (N.leb_spec 1 (dc_height c)); [reflexivity|lia]). exact L. }
  destruct (Last c B a R H1 S1 Ha) as [Z A1]. destruct (Last c' B' b R' H1' S1' Hb) as [Z' B1].
  destruct (row_back _ _ _ _ _ _ _ _ R R' A1 B1 E) as [(e1 & e2 & e3)|(k & l & x & y & X1 & X2 & X3)]; [|right; exists k, l, x, y; auto].
  assert (EH : dc_get_height c = dc_get_height c') by lia.
  assert (ES : forall k x, dblock_at c k x <-> dblock_at c' k x).
  { intros k x. destruct (N.lt_ge_cases k (dc_get_height c)) as [Hk|Hk]; [apply e3; lia|]. unfold dblock_at. split; intros [? _]; lia. }
  assert (EG : dc_genesis c = dc_genesis c').
  { destruct B as [|x B]; [contradiction|]. destruct B' as [|y B']; [contradiction|]. rewrite <- (G x eq_refl), <- (G' y eq_refl).
    assert (D : dblock_at c 0 (DerivBlock x)) by (apply (row_at _ _ R); reflexivity). apply ES, (row_at _ _ R') in D. cbn in D. congruence. }
  destruct K as (k & g & K1 & K2). destruct K' as (k' & g' & K1' & K2'). destruct (reach_row _ _ _ HA Hn) as [L RL]. destruct (reach_row _ _ _ HB Hm) as [L' RL'].
  destruct (row_back _ _ _ _ _ _ _ _ RL RL' K1 K1') as [(f1 & f2 & f3)|(k2 & l2 & x & y & X1 & X2 & X3)]; [congruence|left|right; exists k2, l2, x, y; auto].
  split; [subst b; pose proof (at_founder _ _ _ _ _ R F A1); pose proof (at_founder _ _ _ _ _ R' F' B1); congruence|].
  split; [exact EH|]. split; [exact EG|]. split; [exact ES|]. exists k, g. auto.
Qed.

(** Two blocks at height 1 and one at height 2 for both. *)
Definition raw_block (h ts : N) : block := TxBlock 0 (repeat 5 32) (MkInfo ts (repeat 1 32) (repeat 2 32) h BEGINNING_DIFFICULTY (repeat 4 33)) [].
(*@T C122: blocks added through [add_new_block] commit to nothing: the hash of the previous block in them is not compared with that block, and two trees can have
   the same last block over different blocks, none of which collide. *)
Lemma p_C122_raw_refuted : forall p, exists tA tB b x y, reachable any_op p 2 tA /\ reachable any_op p 2 tB /\
  mc_get_height (t_main tA) = 3 /\ mc_get_height (t_main tB) = 3 /\ mc_get_last_block (t_main tA) = Ok (Some b) /\ mc_get_last_block (t_main tB) = Ok (Some b) /\
  block_at tA 1 x /\ block_at tB 1 y /\ block_hash x <> block_hash y.
Proof.
  intros p.
  assert (W : forall h ts, h < 2 ^ 256 -> ts < 2 ^ 64 -> block_wf (raw_block h ts)).
  { intros h ts Hh Ht. unfold raw_block, block_wf, info_wf, u256_ok, u64_ok. cbn [bi_timestamp bi_pow bi_previous_hash bi_height bi_difficulty bi_founder].
    repeat split; try assumption; try lia; repeat constructor. }
  assert (R : forall ts, ts < 2 ^ 64 -> reachable any_op p 2 (fst (step p (fst (step p fresh (OAddNewBlock (raw_block 1 ts) []))) (OAddNewBlock (raw_block 2 7) [])))).
  { intros ts Ht. apply reach_call; [apply reach_call; [apply reach_open; unfold fresh; destruct (t_new disk_empty) eqn:E; [reflexivity|vm_compute in E; discriminate E..]| |exact Logic.I]| |exact Logic.I];
      (split; [apply W; lia|constructor]). }
  exists (fst (step p (fst (step p fresh (OAddNewBlock (raw_block 1 5) []))) (OAddNewBlock (raw_block 2 7) []))),
    (fst (step p (fst (step p fresh (OAddNewBlock (raw_block 1 6) []))) (OAddNewBlock (raw_block 2 7) []))), (raw_block 2 7), (raw_block 1 5), (raw_block 1 6).
  split; [apply R; lia|]. split; [apply R; lia|].
  split; [destruct p; vm_compute; reflexivity|]. split; [destruct p; vm_compute; reflexivity|]. split; [destruct p; vm_compute; reflexivity|]. split; [destruct p; vm_compute; reflexivity|].
  split; [split; destruct p; vm_compute; reflexivity|]. split; [split; destruct p; vm_compute; reflexivity|]. vm_compute. discriminate.
Qed.

(*@E
(* a node that emits a block, is killed and opened again, and another node; they fork at height 2 *)
Example C122_ex :
  let call o fs h := io_after (io_step Debug o) fs h in
  let other := OEmitMain (repeat 7 32) addrB [txh] 1597925500 in
  let next := OEmitMain (repeat 2 32) addrA [txh] 1597926000 in
  let h0 := opened fresh in
  let h1 := call OFlush [] (call emit_good [] h0) in
  let hA := call next [] match io_result t_new_io [] (t_crash (svs 0 0 0 9 0 0) (h_tree h1)) with Ok t => opened t | _ => h0 end in
  let hB := call other [Fails 3] (call other [] (call emit_good [] h0)) in
  let at_ h i := match mc_find_by_height i (t_main (h_tree h)) with Ok (Some b) => hd 0 (bi_pow (get_info b)) | _ => 0 end in
  (mc_get_height (t_main (h_tree hA)), mc_get_height (t_main (h_tree hB))) = (3, 3) /\ map (at_ hA) [1; 2] = [3; 2] /\ map (at_ hB) [1; 2] = [3; 7].
Proof. vm_compute. repeat split. Qed.
(* such nodes exist, with a derivative chain *)
Example C122_ex_node : let h := io_after (io_step Debug (OEmitDeriv (repeat 4 32) addrA 1597925000)) [] (io_after (io_step Debug emit_good) [] (opened fresh)) in
  emitted_node Debug h /\ demitted_node Debug h /\ exists c b, assoc_get addrA (t_derivs (h_tree h)) = Some c /\ dblock_at c 0 b /\ block_at (h_tree h) 1 (emitted Debug fresh emit_good).
Proof.
  assert (L : forall ok : host -> op -> list fault -> Prop, (forall h, ok h emit_good [] /\ ok h (OEmitDeriv (repeat 4 32) addrA 1597925000) []) ->
    life ok Debug (Down disk_empty) 2 (Up (io_after (io_step Debug (OEmitDeriv (repeat 4 32) addrA 1597925000)) [] (io_after (io_step Debug emit_good) [] (opened fresh))))).
  { intros ok H. apply life_call; [apply life_call; [apply life_open with (d := disk_empty) (fs := []); [apply life_start|reflexivity|vm_compute; reflexivity]| |apply H]| |apply H];
      repeat split; repeat constructor. }
  split; [exists 2%nat; split; [vm_compute; reflexivity|apply L; intros h; split; (split; [exact Logic.I|vm_compute; discriminate || exact Logic.I])]|].
  split; [exists 2%nat; split; [vm_compute; reflexivity|apply L; intros h; split; (split; [exact Logic.I|split; [vm_compute; auto|exact Logic.I]])]|].
  eexists. eexists. split; [vm_compute; reflexivity|]. split; split; vm_compute; reflexivity.
Qed.
@*)
