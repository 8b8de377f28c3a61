(** Independent vocabulary for the ERC-20 properties: only the observable getters
    [balance_of], [allowance], [total_supply] and the event log are used. *)
From Verif.Base Require Import Prelude Maps.
From Verif.Model Require Import Erc20.
#[global] Open Scope Z_scope.

(** States a deployed token can be in. *)
Definition reachable (s : state) : Prop := exists h, hist_wf h /\ s = run h init.

(** Mathematical sum of balances over a list of accounts. *)
Fixpoint sum_balances (s : state) (l : list Z) : Z :=
  match l with [] => 0 | a :: l' => balance_of s a + sum_balances s l' end.

(** [l] lists, without repetition, at least all accounts holding something. *)
Definition covers (s : state) (l : list Z) : Prop :=
  List.NoDup l /\ forall a, balance_of s a <> 0 -> List.In a l.

Definition delta (a b v : Z) : Z := if a =? b then v else 0.

(** Balances after moving [v] out of [from] and into [to] (0 = nobody). *)
Definition balances_moved (s s' : state) (from to v : Z) : Prop :=
  forall a, a <> 0 -> balance_of s' a = balance_of s a - delta a from v + delta a to v.
Definition same_balances (s s' : state) : Prop := forall a, balance_of s' a = balance_of s a.
Definition same_allowances (s s' : state) : Prop := forall o sp, allowance s' o sp = allowance s o sp.
Definition other_allowances_same (s s' : state) (o0 sp0 : Z) : Prop :=
  forall o sp, (o, sp) <> (o0, sp0) -> allowance s' o sp = allowance s o sp.

(** Observational equality of token states. *)
Definition same_state (s s' : state) : Prop :=
  same_balances s s' /\ same_allowances s s' /\ total_supply s' = total_supply s /\ log s' = log s.

(** What each error of a transfer-like call is allowed to report. *)
Definition error_justified (s : state) (caller from to v : Z) (e : error) : Prop :=
  match e with
  | InsufficientBalance sd b n => sd = from /\ b = balance_of s from /\ n = v /\ b < v
  | InvalidSender x => x = 0 /\ from = 0
  | InvalidReceiver x => x = 0 /\ to = 0
  | InsufficientAllowance sp al n => sp = caller /\ al = allowance s from caller /\ n = v /\ al < v
  | InvalidSpender x => x = 0 /\ caller = 0
  | InvalidApprover x => x = 0 /\ from = 0
  end.

(** Ledger reconstructed from [Transfer] events alone. *)
Definition event_balance (a : Z) (e : event) : Z :=
  match e with
  | Transfer from to v => delta a to v - delta a from v
  | Approval _ _ _ => 0
  end.
Definition event_supply (e : event) : Z :=
  match e with
  | Transfer from to v => delta from 0 v - delta to 0 v
  | Approval _ _ _ => 0
  end.
Fixpoint sum_events (f : event -> Z) (l : list event) : Z :=
  match l with [] => 0 | e :: l' => f e + sum_events f l' end.

(** Last value announced by an [Approval] event for a pair. *)
Fixpoint last_approval (o sp : Z) (l : list event) (acc : Z) : Z :=
  match l with
  | [] => acc
  | Approval o' sp' v :: l' =>
      last_approval o sp l' (if (o' =? o) && (sp' =? sp) then v else acc)
  | _ :: l' => last_approval o sp l' acc
  end.

(** Amount [sp] took from [o] in one call: successful transfer_from / burn_from. *)
Definition taken_by (o sp : Z) (c : Z) (x : op) : Z :=
  match x with
  | OTransferFrom f _ v => if (c =? sp) && (f =? o) then v else 0
  | OBurnFrom f v => if (c =? sp) && (f =? o) then v else 0
  | _ => 0
  end.
(** Amount [sp] took from [o] over a whole history. *)
Fixpoint total_taken (o sp : Z) (h : list (Z * op)) (s : state) : Z :=
  match h with
  | [] => 0
  | (c, x) :: h' =>
      (if is_ok (fst (tx (exec c x) s)) then taken_by o sp c x else 0)
      + total_taken o sp h' (step s (c, x))
  end.
(** The entry points exposed to users by [#[public] impl IErc20] and [IErc20Burnable]. *)
Definition public_op (x : op) : Prop :=
  match x with
  | OTransfer _ _ | OApprove _ _ | OTransferFrom _ _ _ | OBurn _ | OBurnFrom _ _ => True
  | _ => False
  end.
(** [o] never approves [sp] in the history. *)
Definition no_approval (o sp : Z) (h : list (Z * op)) : Prop :=
  Forall (fun cx => match snd cx with
                    | OApprove sp' _ => ~ (fst cx = o /\ sp' = sp)
                    | _ => True
                    end) h.

(** The allowance of [sp] over [o]'s tokens after [sp] spent [v] of it; the largest value is never reduced. *)
Definition allowance_after (s : state) (o sp v : Z) : Z :=
  if allowance s o sp =? U256_MAX then U256_MAX else allowance s o sp - v.
