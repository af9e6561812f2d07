(** Checks of Secp.v that take long; they are made when this file is compiled and leave nothing behind. *)
From Verif Require Import Base Sha256 Transaction Tools Secp SecpSpec.

(** "Satoshi Nakamoto" signed with the secret key 1 (a test vector for RFC 6979 with this curve in wide use). *)
Check (eq_refl true <:
  (let m := sha256 [83;97;116;111;115;104;105;32;78;97;107;97;109;111;116;111] in
   let s := secp_sign m (repeat 0 31 ++ [1]) in
   (sig_r s =? 0x934b1ea10a4b3c1757e2b0c017d0b6143ce3c9a7e6a4a49860d7a6ab210ee3d8)
   && (sig_s s =? 0x2442ce9d2b916064108014783e923ec36b49743e2ffa1c4496f01a512aafd9e5)) = true).

(** The root account sends something: its transaction is accepted, with the other solution it is not, and neither with another amount. *)
Check (eq_refl true <:
  match tx_new secp256k1 ROOT_PUBLIC_ADDRESS (repeat 7 33) 1000 5 ROOT_PRIVATE_ADDRESS None with
  | Ok t =>
      let ok t := match tx_verify secp256k1 t with Ok b => b | _ => false end in
      ok t && negb (ok (with_signature t (negated (tx_signature t))))
      && negb (ok (MkTx (tx_sender t) (tx_receiver t) (tx_timestamp t) (tx_signature t) 6 (tx_data t) (tx_hash t)))
  | _ => false
  end = true).
