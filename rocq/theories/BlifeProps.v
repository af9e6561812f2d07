(** Balances in histories with failing operations, killed processes and failing openings. *)
From Coq Require Import Lia ZifyBool ZifyNat ZifyN.
From Verif Require Import Base Sha256 Merkle Tools Transaction Block Sled Chain Tree Spec Reach LedgerSpec SupplySpec QuietSpec Conc ConcTree ConcFlush ConcEmit Cancel ConcDeriv CrashSpec Io IoSpec LifeSpec BlifeSpec Demo.
From Verif Require Import BaseFacts ToolsFacts MerkleFacts DiffFacts CodecFacts SledFacts ChainFacts TreeFacts LedgerFacts CrashFacts ConcFacts EmitFacts IoFacts IoSure DcrashProps SupplyProps IoMoneyProps LifeFacts LifeProps BlifeFacts.

Local Strategy 1000 [u256_mul u256_add u256_sub BYTE_GAS_PRICE t_get_amount t_get_gas mc_decode dc_decode recalculate_fee recalculate_difficulty t_send_amount t_sub_gas sled_get check_pow emit_block next_info dc_new mc_read_config genesis_block].

Definition map_ok (x : smap) : Prop := sm_sorted x /\ forall k v, sm_get k x = Some v -> exists y, u256_ok y /\ v = led_encode y.
Lemma led_map s : led_ok s -> map_ok (cur s). Proof. intros [(_ & A & _) B]. split; [exact A|exact B]. Qed.
Lemma alw_led s : alw map_ok s -> led_ok s.
Proof.
  intros A. split; [|exact (proj2 (alw_cur _ _ A))]. destruct A as [L A]. split; [exact L|]. split; [exact (proj1 (alw_cur _ _ (conj L A)))|]. exact (proj1 (A 0%nat)).
Qed.
Lemma map_ok_reset x : map_ok x -> map_ok (reset x).
Proof.
  intros [A B]. assert (H : led_ok (MkSled x x [])) by (split; [split; [reflexivity|split; exact A]|exact B]).
  apply (led_ok_commit1 ROOT_PUBLIC_ADDRESS COINS_PER_CYCLE) in H; [|reflexivity]. exact (led_map _ H).
Qed.
Definition mok (b : machine) : Prop := alw map_ok (summary_of b) /\ alw map_ok (gas_of b).
Lemma mok_lok h : mok (Up h) -> lok h. Proof. intros [A B]. split; apply alw_led; assumption. Qed.
Lemma mok_step p o fs h : op_wf o -> mok (Up h) -> mok (Up (io_after (io_step p o) fs h)).
Proof.
  intros Hw H. destruct (f_step p o _ _ Hw fs h (lok_fund h (mok_lok h H))) as [[X Y] _]. fold (io_after (io_step p o) fs h) in X, Y. destruct H as [A B]. destruct (step_evo p o fs h) as [E1 E2].
  split; cbn [summary_of gas_of] in *; [apply (alw_evo _ _ _ _ A E1)|apply (alw_evo _ _ _ _ B E2)]; auto using led_map.
Qed.
Lemma mok_open d fs : config_opens fs -> mok (Down d) -> alw map_ok (k_summary (io_after t_new_io fs d)) /\ alw map_ok (k_gas (io_after t_new_io fs d)).
Proof. intros Hc [A B]. split; [apply open_any; [exact Hc|apply map_ok_reset|exact A]|rewrite (open_gas _ _ Hc); exact B]. Qed.
Lemma life_mok ok p a n b : mok a -> life ok p a n b -> mok b.
Proof.
  intros A L. induction L as [|n h o fs L IH Ho Hok|n h L [IH1 IH2]|n h s L [IH1 IH2]|n d fs t L IH Hc E|n d fs L IH Hc E|n d fs s L IH Hc].
  - exact A.
  - apply mok_step; assumption.
  - split; apply alw_flush; assumption.
  - split; apply alw_crash; assumption.
  - destruct (opened_ledgers _ _ _ Hc E) as [E1 E2]. destruct (mok_open d fs Hc IH). split; cbn [summary_of gas_of opened h_tree]; [rewrite E1|rewrite E2]; assumption.
  - destruct (mok_open d fs Hc IH). split; apply alw_flush; assumption.
  - destruct (mok_open d fs Hc IH). split; apply alw_crash; assumption.
Qed.
Lemma mok_empty : mok (Down disk_empty).
Proof. split; apply alw_flat; (split; [exact Logic.I|intros k v X; discriminate X]). Qed.
Lemma mok_saved h : mok (Up h) -> mok (Up (saved h)).
Proof. intros [A B]. split; apply alw_flush; assumption. Qed.
Lemma bal_small s w : led_ok s -> bal s w < 2 ^ 256. Proof. intros H. apply (led_get_bal s w H). Qed.

(*@T C110: whatever fails and whenever the process is killed, every account has an amount and gas that can be read, 256-bit numbers, and every call makes
   each of its changes of a balance as a whole or not at all: it has made all of them when it returns success, and those of a transaction
   are made in order. *)
Lemma p_C110_balances : forall p n h, life any_faults p (Down disk_empty) n (Up h) -> exists f g, funds (h_tree h) f g /\ (forall w, f w < 2 ^ 256 /\ g w < 2 ^ 256) /\
  forall o fs, op_wf o -> funds_after o (exists r, io_result (io_step p o) fs h = Ok r) f g (h_tree (io_after (io_step p o) fs h)).
Proof.
  intros p n h L. apply (life_mok _ _ _ _ _ mok_empty) in L. pose proof (mok_lok h L) as K. pose proof (lok_fund h K) as A. do 2 eexists. split; [apply A|]. split.
  - intros w. destruct K as [K1 K2]. split; apply bal_small; assumption.
  - intros o fs Hw. apply (f_step p o _ _ Hw fs h A).
Qed.

(** ** Balances of one moment *)
Lemma life_mono (ok ok' : host -> op -> list fault -> Prop) p a n b : (forall h o fs, ok h o fs -> ok' h o fs) -> life ok p a n b -> life ok' p a n b.
Proof.
  intros H L. induction L; [apply life_start|apply life_call; auto|apply life_close; auto|apply life_crash; auto|eapply life_open; eassumption|apply life_open_fails; auto|apply life_open_crash; auto].
Qed.
Lemma saved_keeps h : keeps entries txs_stored 0 (t_main (h_tree h)) -> keeps entries (fun _ => True) (mc_height (t_main (h_tree h))) (t_main (h_tree (saved h))).
Proof.
  intros [A B C D E]. set (H := mc_height (t_main (h_tree h))) in *.
  split; cbn [saved with_host h_tree t_settle with_main t_flush t_main mc_flush mc_blocks mc_txs mc_height mc_difficulty mc_cfg].
  - apply alw_flat. exact (alw_cur _ _ A).
  - apply alw_flat. exact Logic.I.
  - change (N.max H 1 <= H < 2 ^ 256). lia.
  - exact D.
  - split; [|constructor]. cbn [file_settle f_dur]. change (low H (file_cur (mc_cfg (mc_flush (t_main (h_tree h)))))). rewrite mc_cfg_flush. right. exists H, (mc_difficulty (t_main (h_tree h))). split; [lia|]. auto.
Qed.
Lemma high_life ok p H a n b : 2 <= H -> mkeeps entries (fun _ => True) H a -> life ok p a n b -> mkeeps entries (fun _ => True) H b.
Proof.
  intros HH A L. revert A. refine (kp_life entries (fun _ => True) H _ _ _ _ ok p a n b L); auto.
  - intros x i b0 X Hi Hb Hh. apply entries_insert; [exact X|lia|exact Hb|exact Hh].
  - intros X. lia.
Qed.
Lemma reset_other w x : w <> ROOT_PUBLIC_ADDRESS -> sm_get w (reset x) = sm_get w x.
Proof. intros H. unfold reset. rewrite sm_get_insert. destruct (bytes_eqb w ROOT_PUBLIC_ADDRESS) eqn:E; [apply bytes_eqb_eq in E; contradiction|reflexivity]. Qed.

(** The map is, for the accounts in [C], that of an earlier moment. *)
Definition visited (C : bytes -> Prop) (sel : bct -> sled) (ok : host -> op -> list fault -> Prop) (p : profile) (a : machine) (n : nat) (b : machine) (x : smap) : Prop :=
  exists n1 h1 n2, n = (n1 + n2)%nat /\ life ok p a n1 (Up h1) /\ life ok p (Up h1) n2 b /\ forall w, C w -> sm_get w x = sm_get w (cur (sel (h_tree h1))).
Lemma visited_mono C sel ok p a n b m c x : life ok p a n b -> life ok p b m c -> visited C sel ok p a n b x -> visited C sel ok p a (n + m) c x.
Proof.
  intros _ L (n1 & h1 & n2 & -> & L1 & L2 & H). exists n1, h1, (n2 + m)%nat. split; [lia|]. split; [exact L1|]. split; [eapply life_trans; eassumption|exact H].
Qed.
Lemma visited_here C sel ok p a n h : life ok p a n (Up h) -> visited C sel ok p a n (Up h) (cur (sel (h_tree h))).
Proof. intros L. exists n, h, 0%nat. split; [lia|]. split; [exact L|]. split; [apply life_start|reflexivity]. Qed.

(*@T C110: after a flush in which nothing failed, with the config file on disk, any calls and failures, and a crash: the amounts found by the next process are those
   of one moment since that flush, all of one moment, and so is the gas.  The root account is excepted while the chain consists of the first block only. *)
Lemma p_C110_balances_of_one_moment : forall p m n k h0 h s h',
  life any_faults p (Down disk_empty) m (Up h0) -> life any_faults p (Up (saved h0)) n (Up h) -> life no_calls p (Down (t_crash s (h_tree h))) k (Up h') ->
  (exists n1 h1 n2, n = (n1 + n2)%nat /\ life any_faults p (Up (saved h0)) n1 (Up h1) /\ life any_faults p (Up h1) n2 (Up h) /\
     forall w, w <> ROOT_PUBLIC_ADDRESS \/ 2 <= mc_get_height (t_main (h_tree h0)) -> t_get_amount w (h_tree h') = t_get_amount w (h_tree h1)) /\
  (exists n1 h1 n2, n = (n1 + n2)%nat /\ life any_faults p (Up (saved h0)) n1 (Up h1) /\ life any_faults p (Up h1) n2 (Up h) /\
     forall w, t_get_gas w (h_tree h') = t_get_gas w (h_tree h1)).
Proof.
  intros p m n k h0 h s h' L0 L1 L2. set (H := mc_get_height (t_main (h_tree h0))). set (a := Up (saved h0)) in *. set (C := fun w => w <> ROOT_PUBLIC_ADDRESS \/ 2 <= H).
  assert (K0 : mkeeps entries (fun _ => True) H a) by (apply saved_keeps, (life_entries any_faults p m h0 L0)).
  assert (HO : (forall x (Q : smap -> Prop), (forall y, (forall w, C w -> sm_get w y = sm_get w x) -> Q y) -> Q (reset x)) \/ 2 <= H).
  { destruct (N.le_gt_cases 2 H) as [X|X]; [right; exact X|left]. intros x Q HQ. apply HQ. intros w [Hw|Hw]; [apply reset_other, Hw|lia]. }
  assert (Vr : forall n b x, (forall y (Q : smap -> Prop), (forall z, (forall w, C w -> sm_get w z = sm_get w y) -> Q z) -> Q (reset y)) ->
     visited C t_summary any_faults p a n b x -> visited C t_summary any_faults p a n b (reset x)).
  { intros n0 b x Hr (n1 & h1 & n2 & E & A & B & D). apply Hr. intros z Hz. exists n1, h1, n2. repeat (split; [assumption|]). intros w Hw. rewrite Hz by exact Hw. apply D, Hw. }
  split.
  - assert (A : alw (visited C t_summary any_faults p a n (Up h)) (t_summary (h_tree h))).
    { refine (summary_life any_faults p a (visited C t_summary any_faults p a) _ n (Up h) _ _ _ L1).
      - intros n0 b m0 c x. apply visited_mono.
      - intros n0 h2 o fs L Ho _ _. apply visited_here, life_call; [exact L|exact Ho|exact Logic.I].
      - destruct HO as [HO|HO]; [left; intros n0 d x _; apply Vr, HO|right]. intros n0 d fs L Hc. pose proof (high_life _ _ H _ _ _ HO K0 L) as X. apply (open_high _ _ _ _ _ Hc HO X).
      - apply alw_flat. exact (visited_here C t_summary any_faults p a 0 (saved h0) (life_start _ _ _)). }
    assert (B : alw (visited C t_summary any_faults p a n (Up h)) (t_summary (h_tree h'))).
    { refine (summary_life no_calls p (Down (t_crash s (h_tree h))) (fun _ _ => visited C t_summary any_faults p a n (Up h)) _ k (Up h') _ _ _ L2); auto.
      - intros n0 h2 o fs _ _ [].
      - destruct HO as [HO|HO]; [left; intros n0 d x _; apply Vr, HO|right]. intros n0 d fs L Hc. assert (X : mkeeps entries (fun _ => True) H (Down d)).
        { refine (high_life _ _ H _ _ _ HO _ L). refine (high_life any_faults p H a n (Down (t_crash s (h_tree h))) HO K0 _). apply life_crash, L1. }
        apply (open_high _ _ _ _ _ Hc HO X).
      - apply alw_crash, A. }
    destruct (alw_cur _ _ B) as (n1 & h1 & n2 & E & X & Y & Z). exists n1, h1, n2. repeat (split; [assumption|]). intros w Hw. unfold t_get_amount, led_get, sled_get. rewrite Z by exact Hw. reflexivity.
  - assert (A : alw (visited (fun _ => True) t_gas any_faults p a n (Up h)) (t_gas (h_tree h))).
    { refine (gas_life any_faults p a (visited (fun _ => True) t_gas any_faults p a) _ n (Up h) _ _ L1).
      - intros n0 b m0 c x. apply visited_mono.
      - intros n0 h2 o fs L Ho _ _. apply visited_here, life_call; [exact L|exact Ho|exact Logic.I].
      - apply alw_flat. exact (visited_here (fun _ => True) t_gas any_faults p a 0 (saved h0) (life_start _ _ _)). }
    assert (B : alw (visited (fun _ => True) t_gas any_faults p a n (Up h)) (t_gas (h_tree h'))).
    { refine (gas_life no_calls p (Down (t_crash s (h_tree h))) (fun _ _ => visited (fun _ => True) t_gas any_faults p a n (Up h)) _ k (Up h') _ _ L2); auto.
      - intros n0 h2 o fs _ _ [].
      - apply alw_crash, A. }
    destruct (alw_cur _ _ B) as (n1 & h1 & n2 & E & X & Y & Z). exists n1, h1, n2. repeat (split; [assumption|]). intros w. unfold t_get_gas, led_get, sled_get. rewrite Z by exact Logic.I. reflexivity.
Qed.

(** ** The supply *)
Lemma supply_cur t t' a : cur (t_summary t) = cur (t_summary t') -> supply t a -> supply t' a.
Proof. intros E. apply supply_same. intros f A w. rewrite <- (A w). unfold t_get_amount, led_get, sled_get. rewrite E. reflexivity. Qed.
(*@T C110: once the chain has a second block and was flushed, with the config file on disk, calls that are not meant to change the supply leave it as it
   is whatever fails and whenever the process is killed: failures and restarts create and destroy no coins. *)
Lemma p_C110_supply_partial : forall p m n h0 h a, life any_faults p (Down disk_empty) m (Up h0) -> 2 <= mc_get_height (t_main (h_tree h0)) ->
  life coins_move p (Up (saved h0)) n (Up h) -> supply (h_tree h0) a -> supply (h_tree h) a.
Proof.
  intros p m n h0 h a L0 HH L1 Ha. set (H := mc_get_height (t_main (h_tree h0))) in *. pose proof (mok_saved _ (life_mok _ _ _ _ _ mok_empty L0)) as M0.
  assert (K0 : mkeeps entries (fun _ => True) H (Up (saved h0))) by (apply saved_keeps, (life_entries any_faults p m h0 L0)).
  set (P := fun x => forall t, cur (t_summary t) = x -> supply t a).
  assert (A : alw P (t_summary (h_tree h))).
  { refine (summary_life coins_move p (Up (saved h0)) (fun _ _ => P) _ n (Up h) _ _ _ L1); auto.
    - intros n0 h2 o fs L Ho [Hm Ht] A. pose proof (mok_lok _ (life_mok _ _ _ _ _ M0 L)) as K. cbv zeta. intros t Et. apply (supply_cur (h_tree (io_after (io_step p o) fs h2))); [symmetry; exact Et|].
      apply supply_lok; try assumption. apply (alw_cur _ _ A). reflexivity.
    - right. intros n0 d fs L Hc. apply (open_high _ _ _ _ _ Hc HH (high_life _ _ H _ _ _ HH K0 L)).
    - apply alw_flat. intros t Et. apply (supply_cur (h_tree h0)); [symmetry; exact Et|exact Ha]. }
  apply (alw_cur _ _ A). reflexivity.
Qed.
(*@E
(* a payment, a flush, a payment that is made but fails, a payment, then a crash after which the first of these two is found *)
Example C110_ex :
  let call o fs h := io_after (io_step Debug o) fs h in
  let pay a := OSendAmount ROOT_PUBLIC_ADDRESS addrA a in
  let h0 := call (pay 1000) [] (call emit_good [] (opened fresh)) in
  let h1 := call (pay 20) [Fails 1] (saved h0) in
  let h2 := call (pay 3) [] h1 in
  let h3 := match io_result t_new_io [] (t_crash (svs 0 0 0 0 1 0) (h_tree h2)) with Ok t => opened t | _ => h0 end in
  map (fun h => (mc_get_height (t_main (h_tree h)), t_get_amount addrA (h_tree h), bind (t_get_amount ROOT_PUBLIC_ADDRESS (h_tree h)) (fun x => Ok (COINS_PER_CYCLE - x)))) [h0; h1; h2; h3] =
    [(2, Ok 1000, Ok 1000); (2, Ok 1020, Ok 1020); (2, Ok 1023, Ok 1023); (2, Ok 1020, Ok 1020)].
Proof. vm_compute. reflexivity. Qed.
@*)

Definition paying : op := OSendAmount ROOT_PUBLIC_ADDRESS addrA 1000.
Definition bx1 : host := io_after (io_step Debug emit_good) [] (opened (again disk_empty)).
Definition bx2 : host := io_after (io_step Debug paying) [] bx1.
Definition bx3 : host := opened (again (t_crash (svs 9 9 9 0 9 9) (h_tree bx2))).
Lemma two_supply t x y : cur (t_summary t) = sm_insert ROOT_PUBLIC_ADDRESS (led_encode x) [(addrA, led_encode y)] -> u256_ok x -> u256_ok y -> supply t (x + y).
Proof.
  intros E Hx Hy. exists (fun w => if bytes_eqb w ROOT_PUBLIC_ADDRESS then x else if bytes_eqb w addrA then y else 0), [ROOT_PUBLIC_ADDRESS; addrA]. split; [|split; [|split]].
  - intros w. unfold t_get_amount, led_get, sled_get. rewrite E, sm_get_insert. destruct (bytes_eqb w ROOT_PUBLIC_ADDRESS); [apply led_decode_encode, Hx|]. cbn [sm_get]. destruct (bytes_eqb w addrA); [apply led_decode_encode, Hy|reflexivity].
  - constructor; [intros [X|[]]; revert X; vm_compute; discriminate|]. constructor; [intros []|constructor].
  - intros w. destruct (bytes_eqb w ROOT_PUBLIC_ADDRESS) eqn:E1; [intros _; left; apply bytes_eqb_eq in E1; congruence|]. destruct (bytes_eqb w addrA) eqn:E2; [intros _; right; left; apply bytes_eqb_eq in E2; congruence|]. intros X. contradiction.
  - unfold sum_over. cbn [map fold_right]. rewrite bytes_eqb_refl. assert (X : bytes_eqb addrA ROOT_PUBLIC_ADDRESS = false) by (vm_compute; reflexivity). rewrite X, bytes_eqb_refl. lia.
Qed.
(*@T C110 for the supply without a flush is false: a chain of two blocks whose config file did not reach the disk is opened as a chain of one block, and opening it
   gives the root account back what it has paid since. *)
Lemma p_C110_supply_refuted : exists n h s h', life coins_move Debug (Down disk_empty) n (Up h) /\ mc_get_height (t_main (h_tree h)) = 2 /\
  life no_calls Debug (Down (t_crash s (h_tree h))) 0 (Up h') /\ supply (h_tree h) COINS_PER_CYCLE /\ supply (h_tree h') (COINS_PER_CYCLE + 1000).
Proof.
  assert (O1 : io_result t_new_io [] disk_empty = Ok (again disk_empty)) by (vm_compute; reflexivity).
  assert (O2 : io_result t_new_io [] (t_crash (svs 9 9 9 0 9 9) (h_tree bx2)) = Ok (again (t_crash (svs 9 9 9 0 9 9) (h_tree bx2)))) by (vm_compute; reflexivity).
  exists 2%nat, bx2, (svs 9 9 9 0 9 9), bx3. split; [|split; [|split; [|split]]].
  - apply (life_call _ _ _ 1 bx1 paying).
    + apply (life_call _ _ _ 0 _ emit_good); [|apply (emit_pow_wf 3); lia|split; [exact Logic.I|discriminate]]. eapply (life_open _ _ _ 0 _ []); [apply life_start|reflexivity|exact O1].
    + split; [|split]; [repeat constructor..|reflexivity].
    + split; exact Logic.I.
  - vm_compute. reflexivity.
  - eapply (life_open _ _ _ 0 _ []); [apply life_start|reflexivity|exact O2].
  - replace COINS_PER_CYCLE with (COINS_PER_CYCLE - 1000 + 1000) by reflexivity. apply two_supply; [vm_compute; reflexivity|reflexivity..].
  - apply two_supply; [vm_compute; reflexivity|reflexivity..].
Qed.
