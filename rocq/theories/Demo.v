(** Concrete values for the examples next to the theorems and for refutations. *)
From Verif Require Import Base Sha256 Merkle Tools Transaction Block Sled Chain Tree.

Definition addrA : bytes := 2 :: repeat 17 32.
Definition addrB : bytes := 3 :: repeat 34 32.
Definition txh : bytes := repeat 3 32.
(** Default value for partial matches below, never reached. *)
Definition no_tree : bct :=
  MkTree0 (MkMain sled_empty sled_empty sled_empty 0 [] file_absent) [] sled_empty sled_empty
    sled_empty sled_empty [].
(** The tree opened in an empty directory. *)
Definition fresh : bct := match t_new disk_empty with Ok t => t | _ => no_tree end.
(** The last block of its main chain. *)
Definition last_of (t : bct) : block :=
  match mc_get_last_block (t_main t) with
  | Ok (Some b) => b | _ => DerivBlock (MkInfo 0 [] [] 0 [] []) end.
(** A block emission that succeeds and whose block validates / does not validate. *)
Definition emit_good : op := OEmitMain (repeat 3 32) addrA [txh] 1597925000.
Definition emit_bad : op := OEmitMain (repeat 5 32) addrA [txh] 1597925000.
Definition emitted (p : profile) (t : bct) (o : op) : block :=
  match snd (step p t o) with Ok (RBlock b) => b | _ => DerivBlock (MkInfo 0 [] [] 0 [] []) end.

(** Funds for [addrA]; a transaction of 1000 from [addrA] to [addrB] with a given signature. *)
Definition fund_ops : list op := [OAddAmount addrA 1000000000; OAddGas addrA (10 ^ 18)].
Definition funded : bct := run Debug fresh fund_ops.
Definition demo_tx (amount : N) (sig : bytes) : transaction :=
  tx_new_signed addrA addrB 1700000000 amount None sig.
(** A toy signature scheme: the signature is the digest twice. *)
Definition toy : ecdsa :=
  MkEcdsa (fun _ => true) (fun _ => true) (fun _ => true) (fun d _ => d ++ d)
    (fun d s _ => bytes_eqb s (d ++ d)).

(** Two derivative blocks of [addrA]. *)
Definition deriv_1 : op := OEmitDeriv (repeat 1 32) addrA 1597925000.
Definition deriv_2 : op := OEmitDeriv (repeat 4 32) addrA 1597926000.

(** Survivors of a crash: batches of blocks, references, transactions, config contents,
    amounts and gas. *)
Definition svs (b r t c s g : nat) : survivors := MkSurv b r t c s 0 g 0 (fun _ => (0, 0, 0)%nat).
