(** Model of contracts/src/token/erc20/utils/safe_erc20.rs and of the typed interface call
    [Erc20Interface::balance_of] (contracts/src/token/erc20/interface.rs).

    The called token is arbitrary: [ext] gives, for every address, call and state of the
    world [S], either a revert ([None], no effect) or the returned bytes together with the
    new world.  The world contains the calling contract's own storage, so a token that
    re-enters its caller is covered. *)
From Verif.Base Require Import Prelude Bytes.
#[global] Open Scope Z_scope.

(** The calls of IErc20 used by the library (safe_erc20.rs:83-88, interface.rs:12-21). *)
Inductive token_call :=
| CTransfer (to value : Z)
| CTransferFrom (from to value : Z)
| CApprove (spender value : Z)
| CAllowance (owner spender : Z)
| CBalanceOf (account : Z).

Record ext (S : Type) := mkext {
  self : Z;                                          (* contract::address() *)
  has_code : Z -> bool;                              (* Address::has_code *)
  raw_call : Z -> token_call -> S -> option (list Z * S)
}.
Arguments self {S} _.
Arguments has_code {S} _ _.
Arguments raw_call {S} _ _ _ _.

(** safe_erc20.rs:37-69 *)
Inductive error :=
| SafeErc20FailedOperation (token : Z)
| SafeErc20FailedDecreaseAllowance (spender current requested : Z).

(** safe_erc20.rs:393-397: the last byte is 1 and all others are 0. *)
Fixpoint encodes_true (data : list Z) : bool :=
  match data with
  | [] => false
  | [last] => last =? 1
  | b :: rest => (b =? 0) && encodes_true rest
  end.

Section with_ext.
  Context {S : Type} (x : ext S).

  (** [RawCall::new().limit_return_data(0, BOOL_TYPE_SIZE)]: at most 32 returned bytes. *)
  Definition limited_call (token : Z) (c : token_call) (s : S) : option (list Z * S) :=
    match raw_call x token c s with
    | Some (data, s') => Some (firstn 32 data, s')
    | None => None
    end.

  (** safe_erc20.rs:331-351. A call that returns garbage has run: its effects stay. *)
  Definition call_optional_return (token : Z) (c : token_call) : M S error unit :=
    fun s =>
    if negb (has_code x token) then (Err (SafeErc20FailedOperation token), s)
    else match limited_call token c s with
         | Some (data, s') =>
             if (match data with [] => true | _ => false end) || encodes_true data
             then (Ok tt, s')
             else (Err (SafeErc20FailedOperation token), s')
         | None => (Err (SafeErc20FailedOperation token), s)
         end.

  (** safe_erc20.rs:366-386 ([RawCall::call], a state-changing call; effects of the callee
      stay); [U256::from_be_slice] of at most 32 bytes. *)
  Definition allowance (token spender : Z) : M S error Z :=
    fun s =>
    if negb (has_code x token) then (Err (SafeErc20FailedOperation token), s)
    else match limited_call token (CAllowance (self x) spender) s with
         | Some (data, s') => (Ok (of_be data), s')
         | None => (Err (SafeErc20FailedOperation token), s)
         end.

  (** safe_erc20.rs:236-245 *)
  Definition safe_transfer (token to value : Z) : M S error unit :=
    call_optional_return token (CTransfer to value).
  (** safe_erc20.rs:247-257 *)
  Definition safe_transfer_from (token from to value : Z) : M S error unit :=
    call_optional_return token (CTransferFrom from to value).

  (** safe_erc20.rs:294-314; [is_ok()] swallows the first error, not its effects. *)
  Definition force_approve (token spender value : Z) : M S error unit :=
    fun s =>
    match call_optional_return token (CApprove spender value) s with
    | (Ok _, s') => (Ok tt, s')
    | (_, s') =>
        (call_optional_return token (CApprove spender 0) ;;;
         call_optional_return token (CApprove spender value)) s'
    end.

  (** safe_erc20.rs:259-270 *)
  Definition safe_increase_allowance (token spender value : Z) : M S error unit :=
    current <~ allowance token spender ;;
    new <~ cadd current value ;;
    force_approve token spender new.

  (** safe_erc20.rs:272-292 *)
  Definition safe_decrease_allowance (token spender requested : Z) : M S error unit :=
    current <~ allowance token spender ;;
    fail_if (current <? requested) (SafeErc20FailedDecreaseAllowance spender current requested) ;;;
    force_approve token spender (wsub current requested).

  (** [Erc20Interface::new(token).balance_of(Call::new_in(self), account)]: a static call
      (the interface declares the function [view]), so without effects; fails if the call
      reverts or returns less than one word. *)
  Definition balance_of (token account : Z) (s : S) : option Z :=
    match raw_call x token (CBalanceOf account) s with
    | Some (data, _) => if (length data <? 32)%nat then None else Some (of_be (firstn 32 data))
    | None => None
    end.
End with_ext.
