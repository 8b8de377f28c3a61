(** Model of contracts/src/token/erc20/mod.rs and
    contracts/src/token/erc20/extensions/burnable.rs. *)
From Verif.Base Require Import Prelude Maps.
From stdpp Require Import gmap.
#[global] Open Scope Z_scope.

(** Events, erc20/mod.rs:39-44. *)
Inductive event :=
| Transfer (from to value : Z)
| Approval (owner spender value : Z).

(** Errors, erc20/mod.rs:47-121. *)
Inductive error :=
| InsufficientBalance (sender balance needed : Z)
| InvalidSender (sender : Z)
| InvalidReceiver (receiver : Z)
| InsufficientAllowance (spender allowance needed : Z)
| InvalidSpender (spender : Z)
| InvalidApprover (approver : Z).

(** Storage, erc20/mod.rs:131-139; [log] is the list of emitted events, oldest
    first (evm::log). The nested allowance map is keyed by (owner, spender). *)
Record state := mk {
  balances : gmap Z Z;
  allowances : gmap (Z * Z) Z;
  supply : Z;
  log : list event
}.

Definition init : state := mk ∅ ∅ 0 [].

Definition set_balance (a v : Z) (s : state) : state :=
  mk (mset (balances s) a v) (allowances s) (supply s) (log s).
Definition set_allowance (o sp v : Z) (s : state) : state :=
  mk (balances s) (mset (allowances s) (o, sp) v) (supply s) (log s).
Definition set_supply (v : Z) (s : state) : state :=
  mk (balances s) (allowances s) v (log s).
Definition emit (e : event) (s : state) : state :=
  mk (balances s) (allowances s) (supply s) (log s ++ [e]).

(** erc20/mod.rs:274-276 *)
Definition total_supply (s : state) : Z := supply s.
(** erc20/mod.rs:278-280 *)
Definition balance_of (s : state) (a : Z) : Z := mget (balances s) a.
(** erc20/mod.rs:292-294 *)
Definition allowance (s : state) (o sp : Z) : Z := mget (allowances s) (o, sp).

(** erc20/mod.rs:338-362 *)
Definition _approve (owner spender value : Z) (emit_event : bool) : M state error bool :=
  fail_if (owner =? 0) (InvalidApprover 0) ;;;
  fail_if (spender =? 0) (InvalidSpender 0) ;;;
  modify (set_allowance owner spender value) ;;;
  (if emit_event then modify (emit (Approval owner spender value)) else ret tt) ;;;
  ret true.

(** erc20/mod.rs:458-502. The supply addition is [add_assign_checked]
    (utils/math/storage/checked.rs:17-20, panics); the supply subtraction and the
    credit are [sub_assign_unchecked] / [add_assign_unchecked]
    (utils/math/storage/unchecked.rs:17-20, 34-37, wrap); the debit is U256 [-] (wraps). *)
Definition _update (from to value : Z) : M state error unit :=
  (if from =? 0 then
     ts <~ gets supply ;;
     ts' <~ cadd ts value ;;
     modify (set_supply ts')
   else
     from_balance <~ gets (fun s => balance_of s from) ;;
     fail_if (from_balance <? value) (InsufficientBalance from from_balance value) ;;;
     modify (set_balance from (wsub from_balance value))) ;;;
  (if to =? 0 then
     ts <~ gets supply ;;
     modify (set_supply (wsub ts value))
   else
     tb <~ gets (fun s => balance_of s to) ;;
     modify (set_balance to (wadd tb value))) ;;;
  modify (emit (Transfer from to value)).

(** erc20/mod.rs:383-403 *)
Definition _transfer (from to value : Z) : M state error unit :=
  fail_if (from =? 0) (InvalidSender 0) ;;;
  fail_if (to =? 0) (InvalidReceiver 0) ;;;
  _update from to value.

(** erc20/mod.rs:420-431 *)
Definition _mint (account value : Z) : M state error unit :=
  fail_if (account =? 0) (InvalidReceiver 0) ;;;
  _update 0 account value.

(** erc20/mod.rs:521-532 *)
Definition _burn (account value : Z) : M state error unit :=
  fail_if (account =? 0) (InvalidSender 0) ;;;
  _update account 0 value.

(** erc20/mod.rs:553-575 *)
Definition _spend_allowance (owner spender value : Z) : M state error unit :=
  current <~ gets (fun s => allowance s owner spender) ;;
  if current =? U256_MAX then ret tt
  else
    fail_if (current <? value) (InsufficientAllowance spender current value) ;;;
    _approve owner spender (wsub current value) false ;;;
    ret tt.

(** erc20/mod.rs:282-290; [caller] is msg::sender(). *)
Definition transfer (caller to value : Z) : M state error bool :=
  _transfer caller to value ;;; ret true.

(** erc20/mod.rs:296-303 *)
Definition approve (caller spender value : Z) : M state error bool :=
  _approve caller spender value true.

(** erc20/mod.rs:305-315 *)
Definition transfer_from (caller from to value : Z) : M state error bool :=
  _spend_allowance from caller value ;;;
  _transfer from to value ;;;
  ret true.

(** extensions/burnable.rs:62-64 *)
Definition burn (caller value : Z) : M state error unit := _burn caller value.

(** extensions/burnable.rs:66-73 *)
Definition burn_from (caller account value : Z) : M state error unit :=
  _spend_allowance account caller value ;;;
  _burn account value.

(** Everything a contract built on [Erc20] can do with it: the public entry points
    and the [pub] internal functions available to inheriting contracts. *)
Inductive op :=
| OTransfer (to value : Z)
| OApprove (spender value : Z)
| OTransferFrom (from to value : Z)
| OBurn (value : Z)
| OBurnFrom (account value : Z)
| OMint (account value : Z)               (* _mint, pub *)
| OInternalBurn (account value : Z)       (* _burn, pub *)
| OUpdate (from to value : Z)             (* _update, pub *)
| OSpendAllowance (owner spender value : Z). (* _spend_allowance, pub *)

Definition ignore {S E A} (m : M S E A) : M S E unit := m ;;; ret tt.

Definition exec (caller : Z) (o : op) : M state error unit :=
  match o with
  | OTransfer to v => ignore (transfer caller to v)
  | OApprove sp v => ignore (approve caller sp v)
  | OTransferFrom f t v => ignore (transfer_from caller f t v)
  | OBurn v => burn caller v
  | OBurnFrom a v => burn_from caller a v
  | OMint a v => _mint a v
  | OInternalBurn a v => _burn a v
  | OUpdate f t v => _update f t v
  | OSpendAllowance ow sp v => _spend_allowance ow sp v
  end.

(** The amounts are 256-bit words. *)
Definition op_value (o : op) : Z :=
  match o with
  | OTransfer _ v | OApprove _ v | OTransferFrom _ _ v | OBurn v | OBurnFrom _ v
  | OMint _ v | OInternalBurn _ v | OUpdate _ _ v | OSpendAllowance _ _ v => v
  end.
Definition op_wf (o : op) : Prop := is_u256 (op_value o).

(** One transaction, and a history of transactions (caller, call). *)
Definition step (s : state) (co : Z * op) : state := snd (tx (exec (fst co) (snd co)) s).
Definition run (h : list (Z * op)) (s : state) : state := fold_left step h s.
Definition hist_wf (h : list (Z * op)) : Prop := Forall (fun co => op_wf (snd co)) h.
