(** A plain token as its users know it: an ideal ledger over the integers. *)
From Verif.Base Require Import Prelude Bytes.
From Coq Require Import String List.
From Verif.Spec Require Import SolAbi_spec Entry_spec.
#[global] Open Scope Z_scope.
Local Open Scope list_scope.
Local Open Scope Z_scope.

Record ledger := mkLedger {
  l_supply : Z;
  l_balance : Z -> Z;
  l_allowance : Z -> Z -> Z
}.
Definition with_balances (b : ledger) (supply : Z) (f : Z -> Z) : ledger := mkLedger supply f (l_allowance b).
Definition with_allowance (b : ledger) (o sp v : Z) : ledger :=
  mkLedger (l_supply b) (l_balance b) (fun x y => if (x =? o) && (y =? sp) then v else l_allowance b x y).

Inductive order := Pay (to v : Z) | Allow (spender v : Z) | Draw (from to v : Z) | Issue (to v : Z).
Definition order_fits (r : order) : Prop :=
  match r with
  | Pay a v | Allow a v | Issue a v => is_address a /\ is_u256 v
  | Draw a b v => is_address a /\ is_address b /\ is_u256 v
  end.

(** A verdict: the new books, or a reason ([None]: no reason given). *)
Inductive verdict (B : Type) := Yes (b : B) | No (r : option reason).
Arguments Yes {B}. Arguments No {B}.
Definition checks : Type := list (bool * option reason).
Fixpoint decide {B} (l : checks) (b : B) : verdict B :=
  match l with
  | [] => Yes b
  | (bad, r) :: l' => if bad then No r else decide l' b
  end.
Definition may_spend (b : ledger) (o sp v : Z) : checks :=
  let al := l_allowance b o sp in
  if al =? U256_MAX then [] else
  [(al <? v, Some (ERC20InsufficientAllowance sp al v)); (o =? 0, Some (ERC20InvalidApprover 0));
   (sp =? 0, Some (ERC20InvalidSpender 0))].
Definition after_spending (b : ledger) (o sp v : Z) : ledger :=
  let al := l_allowance b o sp in if al =? U256_MAX then b else with_allowance b o sp (al - v).
Definition may_move (b : ledger) (from to v : Z) : checks :=
  [(from =? 0, Some (ERC20InvalidSender 0)); (to =? 0, Some (ERC20InvalidReceiver 0));
   (l_balance b from <? v, Some (ERC20InsufficientBalance from (l_balance b from) v))].
Definition may_approve (o sp : Z) : checks :=
  [(o =? 0, Some (ERC20InvalidApprover 0)); (sp =? 0, Some (ERC20InvalidSpender 0))].
Definition order_checks (c : Z) (r : order) (b : ledger) : checks :=
  match r with
  | Pay to v => may_move b c to v
  | Allow sp v => may_approve c sp
  | Draw f t v => may_spend b f c v ++ may_move b f t v
  | Issue a v => [(a =? 0, Some (ERC20InvalidReceiver 0)); (two256 <=? l_supply b + v, None)]
  end.
Definition order_effect (c : Z) (r : order) (b : ledger) : ledger :=
  match r with
  | Pay to v => with_balances b (l_supply b) (moved (l_balance b) c to v)
  | Allow sp v => with_allowance b c sp v
  | Draw f t v => with_balances (after_spending b f c v) (l_supply b) (moved (l_balance b) f t v)
  | Issue a v => with_balances b (l_supply b + v) (at_key (l_balance b) a (l_balance b a + v))
  end.
Definition new_ledger : ledger := mkLedger 0 (fun _ => 0) (fun _ _ => 0).

(** The words of a ledger fit. *)
Definition ledger_fits (b : ledger) : Prop :=
  is_u256 (l_supply b) /\ (forall a, is_u256 (l_balance b a)) /\ (forall o sp, is_u256 (l_allowance b o sp)).
