(** Property C103: opening a directory again.
    Only theorem statements (closed by [exact]), examples showing that their
    premises are met, and the assumptions of each theorem. *)
From Coq Require Import Lia ZifyBool ZifyNat ZifyN.
From Verif Require Import Base Sha256 Merkle Tools Transaction Block Sled Chain Tree Spec Reach QuietSpec Conc ConcTree ConcFlush ConcEmit Cancel ConcDeriv Io IoSpec Demo.
From Verif Require Import BaseFacts ToolsFacts MerkleFacts DiffFacts CodecFacts SledFacts ChainFacts TreeFacts LedgerFacts CrashFacts ConcFacts EmitFacts QuietProps IoFacts IoSure IoProps IoRetryProps.
From Verif Require Import IoOpenProps.

(** C103: a directory whose opening failed, any number of times, can still be opened, and what is opened cannot be told
   from what would have been opened at first, neither by calls nor by what it leaves on disk when closed; if it could not be opened at first
   the same error is reported.  Opening the config file is assumed not to fail (see C97). *)
Theorem C103_open_again : forall fss d, Forall config_opens fss ->
  let d' := fold_left (fun d fs => disk_settle (io_after t_new_io fs d)) fss d in
  match t_new d', t_new d with Ok t', Ok t => alike t' t /\ t_close t' = t_close t | r', r => r' = r end.
Proof. exact p_C103_open_again. Qed.
Print Assumptions C103_open_again.

Example C103_ex : let d := disk_empty in let fs := repeat Fine 10 ++ [Fails 1] in config_opens fs /\ io_result t_new_io fs d = Panic /\
  let d' := disk_settle (io_after t_new_io fs d) in d' <> d /\ exists t, t_new d' = Ok t /\ mc_get_height (t_main t) = 1.
Proof. cbv zeta. split; [reflexivity|]. split; [vm_compute; reflexivity|]. split; [vm_compute; discriminate|]. eexists. split; vm_compute; reflexivity. Qed.

(** C103 without the assumption fails: an opening that could not open the config file and failed has reset the root
   account; opened again, the chain is as it was but the root account has the initial amount. *)
Theorem C103_config_refuted : exists d fs t t', (forall x, io_result t_new_io fs d <> Ok x) /\ t_new d = Ok t /\ mc_get_height (t_main t) = 2 /\
  t_get_amount ROOT_PUBLIC_ADDRESS t = Ok 5 /\ t_new (disk_settle (io_after t_new_io fs d)) = Ok t' /\ mc_get_height (t_main t') = 2 /\
  t_get_amount ROOT_PUBLIC_ADDRESS t' = Ok COINS_PER_CYCLE.
Proof. exact p_C103_config_refuted. Qed.
Print Assumptions C103_config_refuted.

