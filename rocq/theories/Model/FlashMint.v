(** Model of contracts/src/token/erc20/extensions/flash_mint.rs on top of Erc20.

    The borrower is an arbitrary contract.  Its behaviour during one execution of its
    callback is a finite sequence of calls into the token contract made by itself or by
    any other account it talks to (each call succeeding, or failing and being rolled
    back on its own), followed by a return value or a revert.  Calls may be further flash
    loans, so a behaviour is a tree of unbounded depth and width.  Every execution against
    any (also adaptive) borrower performs exactly the calls of some such tree. *)
From Verif.Base Require Import Prelude Maps.
From Verif.Model Require Erc20.
From stdpp Require Import gmap.
#[global] Open Scope Z_scope.

(** flash_mint.rs:72-83 *)
Inductive error :=
| UnsupportedToken (token : Z)
| ExceededMaxLoan (max_loan : Z)
| InvalidReceiver (receiver : Z)
| ErrErc20 (e : Erc20.error).

(** What a contract sees of its environment: its own address ([contract::address()]),
    which accounts have code ([Address::has_code]), the hash constant
    [BORROWER_CALLBACK_VALUE] (flash_mint.rs:37-39), and the two storage words of
    [Erc20FlashMint] (flash_mint.rs:127-132), which no function of the library writes. *)
Record env := mkenv {
  this : Z;
  has_code : Z -> bool;
  callback_value : Z;
  flash_fee_value : Z;
  flash_fee_receiver : Z
}.

(** How the borrower's callback ends. *)
Inductive cb_end := Reverts | Returns (value : Z).

(** Calls into the contract (see the header). *)
Inductive call :=
| Plain (caller : Z) (o : Erc20.op)
| Flash (caller receiver token value : Z) (body : calls) (fin : cb_end)
with calls := CNil | CCons (c : call) (cs : calls).

Definition M20 := M Erc20.state error.

Section with_env.
  Context (e : env).

  (** flash_mint.rs:285-291 *)
  Definition max_flash_loan (token : Z) (s : Erc20.state) : Z :=
    if token =? this e then wsub U256_MAX (Erc20.total_supply s) else 0.

  (** flash_mint.rs:293-303 *)
  Definition flash_fee (token value : Z) : M20 Z :=
    if token =? this e then ret (flash_fee_value e) else fail (UnsupportedToken token).

  (** The settlement of a loan, flash_mint.rs:349-361 ([fee] is re-read here; nothing
      writes it). *)
  Definition settle (receiver value : Z) : M20 unit :=
    let fee := flash_fee_value e in
    allowance <~ cadd value fee ;;                                        (* 349-351 *)
    map_err ErrErc20 (Erc20._spend_allowance receiver (this e) allowance) ;;; (* 352 *)
    (if (fee =? 0) || (flash_fee_receiver e =? 0) then                    (* 354-361 *)
       map_err ErrErc20 (Erc20._burn receiver allowance)
     else
       map_err ErrErc20 (Erc20._burn receiver value) ;;;
       map_err ErrErc20 (Erc20._transfer receiver (flash_fee_receiver e) fee)).

  (** flash_mint.rs:308-364; [on_flash_loan] is the external call at 326-337: it runs the
      borrower's [body] in a frame of its own, whose effects are dropped if it reverts. *)
  Definition flash_loan_with (on_flash_loan : M20 Z)
      (receiver token value : Z) : M20 bool :=
    max_loan <~ gets (max_flash_loan token) ;;                            (* 316 *)
    fail_if (max_loan <? value) (ExceededMaxLoan max_loan) ;;;            (* 317-321 *)
    flash_fee token value ;;;                                             (* 323 *)
    fail_if (negb (has_code e receiver)) (InvalidReceiver receiver) ;;;   (* 324-328 *)
    map_err ErrErc20 (Erc20._mint receiver value) ;;;                     (* 329 *)
    loan_return <~ on_flash_loan ;;                                       (* 330-342 *)
    fail_if (negb (loan_return =? callback_value e)) (InvalidReceiver receiver) ;;; (* 343-347 *)
    settle receiver value ;;;
    ret true.

  (** One call as its own frame, and a sequence of calls. *)
  Fixpoint exec_call (c : call) {struct c} : M20 unit :=
    match c with
    | Plain caller o => map_err ErrErc20 (Erc20.exec caller o)
    | Flash _ receiver token value body fin =>
        Erc20.ignore (flash_loan_with
          (fun s => match fin with
                    | Reverts => (Err (InvalidReceiver receiver), s)
                    | Returns v => (Ok v, run_calls body s)
                    end) receiver token value)
    end
  with run_calls (cs : calls) (s : Erc20.state) {struct cs} : Erc20.state :=
    match cs with
    | CNil => s
    | CCons c cs' => run_calls cs' (snd (tx (exec_call c) s))
    end.

  Definition run (l : list call) (s : Erc20.state) : Erc20.state :=
    fold_left (fun s c => snd (tx (exec_call c) s)) l s.
End with_env.
