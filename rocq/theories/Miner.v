(** Model of the example programs examples/mine.rs and examples/mine_derivative.rs: loops over the public calls.
    The examples call [check_pow] with three arguments; tools.rs:200-205 takes the list of transactions as well, so they do not
    compile against this version of the library.  The model passes the transactions that are then put into the block.
    Console output is left out.  Model file: definitions only. *)
From Verif Require Import Base Sha256 Merkle Tools Transaction Block Sled Chain Tree.

(** [Result::unwrap]: an error panics. *)
Definition unwrap {A} (r : out A) : out A := match r with Err _ => Panic | r => r end.
(** One call whose result is unwrapped, then the rest. *)
Definition and_then {A B} (x : bct * out A) (f : A -> bct -> bct * out B) : bct * out B :=
  let '(t, r) := x in
  match r with Ok a => f a t | Err _ => (t, Panic) | Panic => (t, Panic) | UB => (t, UB) end.

(** examples/mine.rs:68-70: [for _ in transactions { tree.add_amount(&wallet, fee).unwrap() }] *)
Fixpoint pay_fees (wallet : bytes) (fee : N) (txs : list bytes) (t : bct) : bct * out unit :=
  match txs with
  | [] => (t, Ok tt)
  | _ :: txs => and_then (t_add_amount wallet fee t) (fun _ => pay_fees wallet fee txs)
  end.

(** examples/mine.rs:40-78: the body of the search loop for one nonce; [true] when the nonce was good and the block was made.
    [tx] is the transaction hash put into the block, [ts] the time read from the clock. *)
Definition mine_try (p : profile) (wallet tx : bytes) (nonce ts : N) (t : bct) : bct * out bool :=
  let prepare :=
    let! last := unwrap (mc_get_last_block (t_main t)) in
    let! last_block := unwrap_opt last in
    let! height := u256_add (bi_height (get_info last_block)) 1 in
    let txs := if height mod BLOCKS_PER_EPOCH =? 0 then [] else [tx] in
    let! ok := check_pow (block_hash last_block) (bi_difficulty (get_info last_block)) txs (height_key nonce) in
    Ok (last_block, txs, ok) in
  match prepare with
  | Ok (last_block, txs, ok) =>
      if negb ok then (t, Ok false)
      else
        and_then (t_emmit_new_main_block p (height_key nonce) wallet txs ts t) (fun _ t =>
        and_then (t_send_amount ROOT_PUBLIC_ADDRESS wallet MAIN_CHAIN_PAYMENT t) (fun _ t =>
        and_then (t, recalculate_fee (bi_difficulty (get_info last_block))) (fun fee t =>
        and_then (pay_fees wallet fee txs t) (fun _ t => (t_flush t, Ok true)))))
  | Err _ => (t, Panic) | Panic => (t, Panic) | UB => (t, UB)
  end.
(** examples/mine.rs:38-81: [while nonce < U256::MAX], at most [tries] rounds of it; [false]: nothing found so far. *)
Fixpoint mine_search (tries : nat) (p : profile) (wallet tx : bytes) (nonce ts : N) (t : bct) : bct * out bool :=
  match tries with
  | O => (t, Ok false)
  | S tries =>
      if nonce <? 2 ^ 256 - 1 then
        match mine_try p wallet tx nonce ts t with
        | (t', Ok false) => mine_search tries p wallet tx (nonce + 1) ts t'
        | r => r
        end
      else (t, Ok false)
  end.

(** examples/mine_derivative.rs:50-75, for one nonce; [chain] of :20 is the open chain of the wallet. *)
Definition mine_deriv_try (p : profile) (wallet : bytes) (nonce ts : N) (t : bct) : bct * out bool :=
  match assoc_get wallet (t_derivs t) with
  | None => (t, Ok false) (* not reached: the chain was opened at the start *)
  | Some c =>
      let prepare :=
        let! last := unwrap (dc_get_last_block c) in
        match last with
        | Some b => Ok (block_hash b, bi_difficulty (get_info b))
        | None =>
            let! g := unwrap (mc_find_by_hash (dc_genesis c) (t_main t)) in
            let! b := unwrap_opt g in
            Ok (block_hash b, BEGINNING_DIFFICULTY)
        end in
      match (let! (prev_hash, difficulty) := prepare in check_pow prev_hash difficulty [] (height_key nonce)) with
      | Ok false => (t, Ok false)
      | Ok true =>
          and_then (t_emmit_new_derivative_block p (height_key nonce) wallet ts t) (fun _ t =>
          and_then (t_add_gas wallet MAIN_CHAIN_PAYMENT t) (fun _ t =>
          and_then (step p t (ODerivFlush wallet)) (fun _ t => (t_flush t, Ok true))))
      | Err _ => (t, Panic) | Panic => (t, Panic) | UB => (t, UB)
      end
  end.
Fixpoint mine_deriv_search (tries : nat) (p : profile) (wallet : bytes) (nonce ts : N) (t : bct) : bct * out bool :=
  match tries with
  | O => (t, Ok false)
  | S tries =>
      if nonce <? 2 ^ 256 - 1 then
        match mine_deriv_try p wallet nonce ts t with
        | (t', Ok false) => mine_deriv_search tries p wallet (nonce + 1) ts t'
        | r => r
        end
      else (t, Ok false)
  end.
