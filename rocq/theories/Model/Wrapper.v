(** Model of contracts/src/token/erc20/extensions/wrapper.rs. *)
From Verif.Base Require Import Prelude.
From Verif.Model Require Erc20 SafeErc20 Erc20World.
Import SafeErc20 Erc20World.
#[global] Open Scope Z_scope.

(** wrapper.rs:64-79 *)
Inductive error :=
| ErrErc20 (e : Erc20.error)
| ErrSafeErc20 (e : SafeErc20.error)
| InvalidSender (sender : Z)
| InvalidReceiver (receiver : Z)
| InvalidUnderlying (token : Z).

Section with_ext.
  Context (x : ext world) (underlying : Z).

  (** wrapper.rs:241-268; [sender] is msg::sender(). *)
  Definition deposit_for (sender account value : Z) : M world error bool :=
    fail_if (sender =? self x) (InvalidSender sender) ;;;
    fail_if (account =? self x) (InvalidReceiver account) ;;;
    map_err ErrSafeErc20 (safe_transfer_from x underlying sender (self x) value) ;;;
    map_err ErrErc20 (on_tok (Erc20._mint account value)) ;;;
    ret true.

  (** wrapper.rs:270-285 *)
  Definition withdraw_to (sender account value : Z) : M world error bool :=
    fail_if (account =? self x) (InvalidReceiver account) ;;;
    map_err ErrErc20 (on_tok (Erc20._burn sender value)) ;;;
    map_err ErrSafeErc20 (safe_transfer x underlying account value) ;;;
    ret true.

  (** wrapper.rs:310-332; the reported token is the wrapper's own address (line 322). *)
  Definition _recover (account : Z) : M world error Z :=
    fun w =>
    match balance_of x underlying (self x) w with
    | None => (Err (InvalidUnderlying (self x)), w)
    | Some underlying_balance =>
        (value <~ csub underlying_balance (Erc20.total_supply (tok w)) ;;
         (if 0 <? value then map_err ErrErc20 (on_tok (Erc20._mint account value)) else ret tt) ;;;
         ret value) w
    end.
End with_ext.

(** Calls on the two-contract system: the wrapper's functions ([_recover] can be exposed by
    an inheriting contract), the inherited token's public functions, and the underlying
    token's functions called by anybody. *)
Inductive call :=
| DepositFor (sender account value : Z)
| WithdrawTo (sender account value : Z)
| Recover (account : Z)
| Token (sender : Z) (o : Erc20.op)
| Underlying (sender : Z) (o : Erc20.op).

Definition exec (x : ext world) (u : Z) (c : call) : M world error unit :=
  match c with
  | DepositFor s a v => Erc20.ignore (deposit_for x u s a v)
  | WithdrawTo s a v => Erc20.ignore (withdraw_to x u s a v)
  | Recover a => Erc20.ignore (_recover x u a)
  | Token s o => map_err ErrErc20 (on_tok (Erc20.exec s o))
  | Underlying s o => map_err ErrErc20 (on_asset (Erc20.exec s o))
  end.
Definition step (x : ext world) (u : Z) (w : world) (c : call) : world := snd (tx (exec x u c) w).
Definition run (x : ext world) (u : Z) (h : list call) (w : world) : world := fold_left (step x u) h w.
