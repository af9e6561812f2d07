(** What blocks commit to and how it is proved to others.  Definitions only. *)
From Verif Require Import Base Sha256 Merkle Tools Transaction Block Sled Chain Tree Spec Reach LedgerSpec NodeSpec.

(** Blocks added by hand stay inside the epochs: none at a multiple of a million. *)
Definition inside_epochs (e : event) : Prop :=
  match e with Call (OAddNewBlock b _) => bi_height (get_info b) mod 1000000 <> 0 | _ => True end.
(** Transaction blocks added by hand carry the root of their hashes. *)
Definition roots_right (e : event) : Prop :=
  match e with Call (OAddNewBlock (TxBlock _ r _ txs) _) => merkle_root_of txs r | _ => True end.

(** The height of the newest summary in a chain of [h] blocks. *)
Definition epoch_start (h : N) : N := (h - 1) / 1000000 * 1000000.
(** The tree with the balances kept from the end of the last epoch in place of the present ones. *)
Definition last_epoch (t : bct) : bct := with_gas (with_summary t (t_old_summary t)) (t_old_gas t).
(** The leaf of an account whose stored amount is [v]. *)
Definition account_leaf (t : bct) (w v : bytes) : bytes :=
  sha256 (w ++ [124] ++ v ++ [124] ++ match sled_get w (t_old_gas t) with Some g => g | None => [] end).
Definition account_leaves (t : bct) : list bytes :=
  map (fun e => account_leaf t (fst e) (snd e)) (sled_iter (t_old_summary t)).

(** Whoever has the list can prove to whoever has the root that [item] is in it. *)
Definition provable (item : bytes) (items : list bytes) (root : bytes) : Prop :=
  exists tree proof,
    build_tree items = Ok tree /\ get_root tree = Ok root /\
    get_proof tree item = Ok (proof ++ [root]) /\ verify_proof item root proof = Ok true.
