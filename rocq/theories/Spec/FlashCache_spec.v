(** Vocabulary for flash loans over remembering accessors. *)
From Verif.Base Require Import Prelude.
From Verif.Model Require Erc20 FlashMint.
From Verif.Spec Require Import Erc20_spec FlashMint_spec.
Import FlashMint.
#[global] Open Scope Z_scope.

(** The fee is destroyed when there is nobody to pay it to. *)
Definition burns_fee (e : env) : bool := (flash_fee_receiver e =? 0) && negb (flash_fee_value e =? 0).
Definition burned (e : env) (value : Z) : Z := if flash_fee_receiver e =? 0 then value + flash_fee_value e else value.
(** Calls that leave the supply as it is: no tokens are made or destroyed; loans only if they
    do not destroy the fee. *)
Definition moves (o : Erc20.op) : Prop :=
  match o with
  | Erc20.OTransfer _ _ | Erc20.OApprove _ _ | Erc20.OTransferFrom _ _ _ | Erc20.OSpendAllowance _ _ _ => True
  | _ => False
  end.
Fixpoint steady (e : env) (c : call) : Prop :=
  match c with
  | Plain _ o => moves o
  | Flash _ _ _ _ body _ => burns_fee e = false /\ steadies e body
  end
with steadies (e : env) (cs : calls) : Prop :=
  match cs with CNil => True | CCons c cs' => steady e c /\ steadies e cs' end.
(** Callbacks that leave the supply as it is; anything goes outside of callbacks. *)
Definition tame (e : env) (c : call) : Prop :=
  match c with Plain _ _ => True | Flash _ _ _ _ body _ => steadies e body end.
