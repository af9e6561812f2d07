(** Notions used in the theorems about I/O errors.  Definitions only. *)
From Verif Require Import Base Sha256 Tools Transaction Block Sled Chain Tree Spec Reach QuietSpec LedgerSpec CrashSpec Io.

(** Nothing fails. *)
Definition fault_free (fs : list fault) : Prop := Forall (eq Fine) fs.
(** What a call leaves and what it returns. *)
Definition io_after {St A} (x : io St A) (fs : list fault) (s : St) : St := snd (fst (x fs s)).
Definition io_result {St A} (x : io St A) (fs : list fault) (s : St) : out A := snd (x fs s).
(** A tree just opened: the directories of its databases exist. *)
Definition opened (t : bct) : host := MkHost t true true.
(** Calls with arguments of the sizes their Rust types impose. *)
Definition calls_wf (calls : list (op * list fault)) : Prop := Forall (fun c => op_wf (fst c)) calls.

(** The config file of the main chain can be opened: it is the eighth thing opened. *)
Definition config_opens (fs : list fault) : Prop := nth 7 fs Fine = Fine.

(** Trees in use: created in an empty directory, called with faults in between, closed and opened again; [n] calls. *)
Inductive io_history (p : profile) : nat -> host -> Prop :=
| hist_new : forall t, t_new disk_empty = Ok t -> io_history p 0 (opened t)
| hist_call : forall n h o fs, io_history p n h -> op_wf o -> io_history p (S n) (io_after (io_step p o) fs h)
| hist_reopen : forall n h fs t, io_history p n h -> config_opens fs ->
    io_result t_new_io fs (t_close (h_tree h)) = Ok t -> io_history p n (opened t).

(** [m] holds exactly the blocks [L], each found under its height and, unless its hash is that of other bytes too,
    under its hash. *)
Definition chain_is (m : main_chain) (L : list block) : Prop :=
  mc_get_height m = N.of_nat (length L) /\ Forall block_wf L /\ genesis_block = match L with g :: _ => Ok g | [] => Panic end /\
  forall i b, nth_error L i = Some b ->
    bi_height (get_info b) = N.of_nat i /\ mc_find_raw_by_height (N.of_nat i) m = Some (block_dump b) /\
    (mc_find_raw_by_hash (block_hash b) m = Ok (Some (block_dump b)) \/ exists b', collision (block_dump b) (block_dump b')).

(** The blocks [L'] after a call that returned [r], [L] before. *)
Definition chain_after (p : profile) (o : op) (r : out result) (L L' : list block) : Prop :=
  match o, r with
  | OEmitMain _ _ _ _, Ok (RBlock b) => L' = L ++ [b] /\ exists lb, nth_error L (length L - 1) = Some lb /\ main_link p lb b
  | OEmitMain _ _ _ _, Ok _ => False
  | OAddNewBlock b _, Ok _ => L' = L ++ [b]
  | OAddNewBlock b _, _ => L' = L \/ L' = L ++ [b]
  | _, _ => L' = L
  end.

(** No config file of the chain of [w] is going to be opened: the chain is open already or has none. *)
Definition no_config (w : bytes) (t : bct) : Prop :=
  assoc_get w (t_derivs t) <> None \/ forall d, assoc_get (hex_encode w) (t_closed t) = Some d -> file_cur (dd_cfg d) = None.
Definition opens_nothing (o : op) (t : bct) : Prop :=
  match o with OGetDeriv w | OEmitDeriv _ w _ => no_config w t | _ => True end.

(** The config file of a derivative chain can be opened: it is the fourth operation of a call that opens the chain. *)
Definition deriv_config_opens (fs : list fault) : Prop := nth 3 fs Fine = Fine.

(** Nobody can tell [t] and [t'] apart: they answer every question alike and return the same from every further call. *)
Definition alike (t t' : bct) : Prop :=
  same_answers t t' /\ forall p ops, Forall2 same_result (results p t ops) (results p t' ops).

(** Calls that can be repeated after a failure: those that add nothing to and take nothing from a balance and do not
    close an epoch. *)
Definition repeatable (o : op) : Prop :=
  match o with
  | OEmitMain _ _ txs _ => txs <> []
  | OAddNewBlock _ _ | OAddTxs _ | OGetDeriv _ | OEmitDeriv _ _ _ | ODerivAddBlock _ _ | OSetAmount _ _ | OFlush | OMainFlush | ODerivFlush _ => True
  | _ => False
  end.
(** The call [o] returned no success; and a block given to it was not added. *)
Definition failed (p : profile) (o : op) (fs : list fault) (h : host) : Prop :=
  (forall r, io_result (io_step p o) fs h <> Ok r) /\
  match o with
  | OAddNewBlock _ _ => mc_get_height (t_main (h_tree (io_after (io_step p o) fs h))) = mc_get_height (t_main (h_tree h))
  | _ => True
  end.
(** The call [o] made again and again, each time meeting the next list of faults. *)
Fixpoint attempts (p : profile) (o : op) (fss : list (list fault)) (h : host) : host :=
  match fss with [] => h | fs :: fss => attempts p o fss (io_after (io_step p o) fs h) end.
Fixpoint all_failed (p : profile) (o : op) (fss : list (list fault)) (h : host) : Prop :=
  match fss with [] => True | fs :: fss => failed p o fs h /\ all_failed p o fss (io_after (io_step p o) fs h) end.

(** Amounts [f] and gas [g] of all accounts. *)
Definition funds (t : bct) (f g : bytes -> N) : Prop := amounts t f /\ gases t g.
(** The funds of [t'] after the call [o] on a tree with funds [f], [g]; [done]: it returned success.
    Every change of a balance is made as a whole or not at all, and was made when success is returned.  A transaction
    moves the amount first and charges the gas then.  Closing an epoch sets the root account. *)
Definition funds_after (o : op) (done : Prop) (f g : bytes -> N) (t' : bct) : Prop :=
  match o with
  | OSendTx tx =>
      let paid := moved f (tx_sender tx) (tx_receiver tx) (tx_amount tx) in
      let gas := gas_for (N.of_nat (tx_get_dump_size tx)) in
      (funds t' f g /\ ~ done) \/
      (tx_amount tx <= f (tx_sender tx) /\ gas <= g (tx_sender tx) /\
        ((funds t' paid g /\ ~ done) \/ funds t' paid (upd g (tx_sender tx) (g (tx_sender tx) - gas))))
  | OEmitMain _ _ txs _ => funds t' f g \/ (txs = [] /\ funds t' (upd f ROOT_PUBLIC_ADDRESS COINS_PER_CYCLE) g)
  | _ => funds t' (amount_after f o) (gas_after g o) \/ (funds t' f g /\ ~ done)
  end.

(** What is on disk after [t] was closed, or after a crash once the config file of the main chain had been written. *)
Definition left_by (t : bct) (d : disk) : Prop := d = t_close t \/ exists s, d = t_crash s (t_settle t).

(** A directory of the old databases is missing. *)
Definition missing (h : host) : Prop := h_old h = false \/ h_old_gas h = false.
