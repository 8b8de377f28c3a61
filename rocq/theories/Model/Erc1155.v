(** Model of contracts/src/token/erc1155/mod.rs, extensions/burnable.rs and
    extensions/supply.rs.

    The Supply extension repeats the functions of the base contract around its own
    [_update]; they are modelled once, over any contract [sys] (see [base] and [supply]). *)
From Verif.Base Require Import Prelude Maps.
From stdpp Require Import gmap.
#[global] Open Scope Z_scope.

(** mod.rs:52-80 *)
Inductive event :=
| TransferSingle (operator from to id value : Z)
| TransferBatch (operator from to : Z) (ids values : list Z)
| ApprovalForAll (account operator : Z) (approved : bool).

(** mod.rs:158-195 *)
Inductive error :=
| InsufficientBalance (sender balance needed token_id : Z)
| InvalidSender (sender : Z)
| InvalidReceiver (receiver : Z)
| InvalidReceiverWithReason (reason : list Z)
| MissingApprovalForAll (operator owner : Z)
| InvalidOperator (operator : Z)
| InvalidArrayLength (ids_length values_length : Z).

(** mod.rs:204-211 *)
Record state := mk {
  balances : gmap Z (gmap Z Z);
  operator_approvals : gmap (Z * Z) bool;
  log : list event
}.
Definition init : state := mk ∅ ∅ [].
Definition MS := M state error.
Definition emit (ev : event) : MS unit :=
  modify (fun s => mk (balances s) (operator_approvals s) (log s ++ [ev])).

(** mod.rs:364-366 *)
Definition balance_of (account id : Z) (s : state) : Z := mget (getd ∅ (balances s) id) account.
Definition set_balance (account id v : Z) (s : state) : state :=
  mk (<[id := mset (getd ∅ (balances s) id) account v]> (balances s)) (operator_approvals s) (log s).
(** mod.rs:1016-1027 *)
Definition require_equal_arrays_length {S A B} (ids : list A) (values : list B) : M S error unit :=
  fail_if (negb (Nat.eqb (length ids) (length values)))
    (InvalidArrayLength (Z.of_nat (length ids)) (Z.of_nat (length values))).
(** mod.rs:368-382 *)
Definition balance_of_batch (accounts ids : list Z) : MS (list Z) :=
  require_equal_arrays_length ids accounts ;;;
  gets (fun s => map (fun '(account, token_id) => balance_of account token_id s) (combine accounts ids)).
(** mod.rs:392-394 *)
Definition is_approved_for_all (account operator : Z) (s : state) : bool :=
  getd false (operator_approvals s) (account, operator).
(** mod.rs:698-713 *)
Definition _set_approval_for_all (owner operator : Z) (approved : bool) : MS unit :=
  fail_if (operator =? 0) (InvalidOperator operator) ;;;
  modify (fun s => mk (balances s) (<[(owner, operator) := approved]> (operator_approvals s)) (log s)) ;;;
  emit (ApprovalForAll owner operator approved).
(** mod.rs:384-390 *)
Definition set_approval_for_all (caller operator : Z) (approved : bool) : MS unit :=
  _set_approval_for_all caller operator approved.
(** mod.rs:970-1003; the debit is unchecked (it wraps), the credit panics on overflow *)
Definition do_update (from to token_id value : Z) : MS unit :=
  (if negb (from =? 0) then
     from_balance <~ gets (balance_of from token_id) ;;
     fail_if (from_balance <? value) (InsufficientBalance from from_balance value token_id) ;;;
     modify (set_balance from token_id (wsub from_balance value))
   else ret tt) ;;;
  (if negb (to =? 0) then
     b <~ gets (balance_of to token_id) ;;
     v <~ cadd b value ;;
     modify (set_balance to token_id v)
   else ret tt).
Fixpoint do_updates (from to : Z) (l : list (Z * Z)) : MS unit :=
  match l with
  | [] => ret tt
  | (id, value) :: l' => do_update from to id value ;;; do_updates from to l'
  end.
(** mod.rs:460-484 *)
Definition _update (operator from to : Z) (ids values : list Z) : MS unit :=
  require_equal_arrays_length ids values ;;;
  do_updates from to (combine ids values) ;;;
  match ids, values with
  | [id], value :: _ => emit (TransferSingle operator from to id value)
  | _, _ => emit (TransferBatch operator from to ids values)
  end.
(** mod.rs:1040-1049, extensions/burnable.rs:95-107 *)
Definition authorize_transfer (sender from : Z) : MS unit :=
  ok <~ gets (is_approved_for_all from sender) ;;
  fail_if (negb (from =? sender) && negb ok) (MissingApprovalForAll sender from).

(** mod.rs:24-42 *)
Definition SINGLE_TRANSFER_FN_SELECTOR : Z := 0xf23a6e61.
Definition BATCH_TRANSFER_FN_SELECTOR : Z := 0xbc197c81.
(** mod.rs:1054-1130 *)
Inductive transfer := Single (id value : Z) | Batch (ids values : list Z).
Definition receiver_data (ids values : list Z) : Z * transfer :=
  match ids, values with
  | [id], value :: _ => (SINGLE_TRANSFER_FN_SELECTOR, Single id value)
  | _, _ => (BATCH_TRANSFER_FN_SELECTOR, Batch ids values)
  end.
(** The outcome of calling a receiver's hook, as in [Erc721]; [handler] gets the
    receiver, the operator, the previous owner, the details (which hook and its
    arguments) and the data. *)
Inductive reply := Returned (selector : Z) | Failed (reason : list Z).
Definition handler (S : Type) := Z -> Z -> Z -> transfer -> list Z -> S -> reply * S.

(** A contract: its [_update] and authorisation functions. *)
Record sys (S : Type) := mkSys {
  sys_update : Z -> Z -> Z -> list Z -> list Z -> M S error unit;
  (** the base contract's own [_update], on which the Burnable functions work *)
  sys_inner_update : Z -> Z -> Z -> list Z -> list Z -> M S error unit;
  sys_authorize : Z -> Z -> M S error unit;
  sys_set_approval_for_all : Z -> Z -> bool -> M S error unit
}.
Arguments sys_update {S}. Arguments sys_inner_update {S}. Arguments sys_authorize {S}.
Arguments sys_set_approval_for_all {S}.

Section contract.
  Context {S : Type} (C : sys S) (has_code : Z -> bool) (h : handler S).
  (** mod.rs:748-792 *)
  Definition _check_on_erc1155_received (operator from to : Z) (details : Z * transfer) (data : list Z) : M S error unit :=
    if negb (has_code to) then ret tt else
    r <~ (fun s => let '(r, s') := h to operator from (snd details) data s in (Ok r, s')) ;;
    match r with
    | Failed [] => fail (InvalidReceiver to)
    | Failed reason => fail (InvalidReceiverWithReason reason)
    | Returned id => fail_if (negb (id =? fst details)) (InvalidReceiver to)
    end.
  (** mod.rs:521-542; supply.rs:288-310 *)
  Definition _update_with_acceptance_check (caller from to : Z) (ids values : list Z) (data : list Z) : M S error unit :=
    sys_update C caller from to ids values ;;;
    if negb (to =? 0) then
      _check_on_erc1155_received caller from to (receiver_data ids values) data
    else ret tt.
  (** mod.rs:829-849; supply.rs:312-331 *)
  Definition _do_mint (caller to : Z) (ids values : list Z) (data : list Z) : M S error unit :=
    fail_if (to =? 0) (InvalidReceiver to) ;;;
    _update_with_acceptance_check caller 0 to ids values data.
  (** mod.rs:874-893; supply.rs:333-351 *)
  Definition _do_burn (caller from : Z) (ids values : list Z) : M S error unit :=
    fail_if (from =? 0) (InvalidSender from) ;;;
    _update_with_acceptance_check caller from 0 ids values [].
  (** mod.rs:930-949; supply.rs:353-372 *)
  Definition do_safe_transfer_from (caller from to : Z) (ids values : list Z) (data : list Z) : M S error unit :=
    fail_if (to =? 0) (InvalidReceiver to) ;;;
    fail_if (from =? 0) (InvalidSender from) ;;;
    _update_with_acceptance_check caller from to ids values data.
  (** mod.rs:396-406; supply.rs:155-165 *)
  Definition safe_transfer_from (caller from to id value : Z) (data : list Z) : M S error unit :=
    sys_authorize C caller from ;;; do_safe_transfer_from caller from to [id] [value] data.
  (** mod.rs:408-418; supply.rs:167-177 *)
  Definition safe_batch_transfer_from (caller from to : Z) (ids values : list Z) (data : list Z) : M S error unit :=
    sys_authorize C caller from ;;; do_safe_transfer_from caller from to ids values data.
  (** mod.rs:570-578, 610-618, 639-646, 671-678; supply.rs:182-225 *)
  Definition _mint (caller to id value : Z) (data : list Z) : M S error unit := _do_mint caller to [id] [value] data.
  Definition _mint_batch (caller to : Z) (ids values : list Z) (data : list Z) : M S error unit := _do_mint caller to ids values data.
  Definition _burn (caller from id value : Z) : M S error unit := _do_burn caller from [id] [value].
  Definition _burn_batch (caller from : Z) (ids values : list Z) : M S error unit := _do_burn caller from ids values.
  (** extensions/burnable.rs:71-90: on the base contract (with the Supply extension,
      reachable through [Deref]); a burn calls no receiver *)
  Definition inner_burn (caller from : Z) (ids values : list Z) : M S error unit :=
    fail_if (from =? 0) (InvalidSender from) ;;;
    sys_inner_update C caller from 0 ids values.
  Definition burn (caller account id value : Z) : M S error unit :=
    sys_authorize C caller account ;;; inner_burn caller account [id] [value].
  Definition burn_batch (caller account : Z) (ids values : list Z) : M S error unit :=
    sys_authorize C caller account ;;; inner_burn caller account ids values.
End contract.

Definition base : sys state := mkSys state _update _update authorize_transfer set_approval_for_all.

(** supply.rs:40-50 *)
Record supply_state := mkSupply {
  erc1155 : state;
  total_supply : gmap Z Z;
  total_supply_all : Z
}.
Definition supply_init : supply_state := mkSupply init ∅ 0.
Definition on_base {A} (m : MS A) : M supply_state error A :=
  zoom erc1155 (fun t s => mkSupply t (total_supply s) (total_supply_all s)) m.
Definition set_total f s := mkSupply (erc1155 s) (f (total_supply s)) (total_supply_all s).
Definition set_all v s := mkSupply (erc1155 s) (total_supply s) v.
(** supply.rs:252-257: [add_assign_checked] per id *)
Fixpoint supply_add (l : list (Z * Z)) : M supply_state error unit :=
  match l with
  | [] => ret tt
  | (id, value) :: l' =>
      t <~ gets (fun s => mget (total_supply s) id) ;;
      v <~ cadd t value ;;
      modify (set_total (fun m => mset m id v)) ;;;
      supply_add l'
  end.
(** supply.rs:267-274: [sub_assign_unchecked] per id *)
Fixpoint supply_sub (l : list (Z * Z)) : M supply_state error unit :=
  match l with
  | [] => ret tt
  | (id, value) :: l' =>
      t <~ gets (fun s => mget (total_supply s) id) ;;
      modify (set_total (fun m => mset m id (wsub t value))) ;;;
      supply_sub l'
  end.
(** [values.iter().sum()] on [U256]: wraps *)
Definition wsum (l : list Z) : Z := fold_left wadd l 0.
(** supply.rs:243-286 *)
Definition supply_update (operator from to : Z) (token_ids values : list Z) : M supply_state error unit :=
  on_base (_update operator from to token_ids values) ;;;
  (if from =? 0 then
     supply_add (combine token_ids values) ;;;
     all <~ gets total_supply_all ;;
     v <~ cadd all (wsum values) ;;
     modify (set_all v)
   else ret tt) ;;;
  (if to =? 0 then
     supply_sub (combine token_ids values) ;;;
     all <~ gets total_supply_all ;;
     modify (set_all (wsub all (wsum values)))
   else ret tt).
(** supply.rs:106-108 *)
Definition exists_id (id : Z) (s : supply_state) : bool := 0 <? mget (total_supply s) id.
Definition supply : sys supply_state :=
  mkSys supply_state supply_update
    (fun operator from to ids values => on_base (_update operator from to ids values))
    (fun sender from => on_base (authorize_transfer sender from))
    (fun caller operator approved => on_base (set_approval_for_all caller operator approved)).

(** Calls: the public functions, those of Burnable, and the internal ones a deriving
    contract may expose; calls that reach a receiver carry its behaviour, as in [Erc721]. *)
Inductive op :=
| SafeTransferFrom (from to id value : Z) (data : list Z) (body : calls) (fin : reply)
| SafeBatchTransferFrom (from to : Z) (ids values : list Z) (data : list Z) (body : calls) (fin : reply)
| SetApprovalForAll (operator : Z) (approved : bool)
| Burn (account id value : Z)
| BurnBatch (account : Z) (ids values : list Z)
| IMint (to id value : Z) (data : list Z) (body : calls) (fin : reply)
| IMintBatch (to : Z) (ids values : list Z) (data : list Z) (body : calls) (fin : reply)
| IBurn (from id value : Z)
| IBurnBatch (from : Z) (ids values : list Z)
with calls := CNil | CCons (caller : Z) (o : op) (cs : calls).

Section exec.
  Context {S : Type} (C : sys S) (has_code : Z -> bool).
  Definition receiver (body : S -> S) (fin : reply) : handler S :=
    fun _ _ _ _ _ s => match fin with
                        | Returned v => (Returned v, body s)
                        | Failed r => (Failed r, s)
                        end.
  Fixpoint exec (c : Z) (o : op) {struct o} : M S error unit :=
    match o with
    | SafeTransferFrom f t i v d body fin => safe_transfer_from C has_code (receiver (run_calls body) fin) c f t i v d
    | SafeBatchTransferFrom f t is vs d body fin => safe_batch_transfer_from C has_code (receiver (run_calls body) fin) c f t is vs d
    | SetApprovalForAll p b => sys_set_approval_for_all C c p b
    | Burn a i v => burn C c a i v
    | BurnBatch a is vs => burn_batch C c a is vs
    | IMint t i v d body fin => _mint C has_code (receiver (run_calls body) fin) c t i v d
    | IMintBatch t is vs d body fin => _mint_batch C has_code (receiver (run_calls body) fin) c t is vs d
    | IBurn f i v => _burn C has_code (receiver (fun s => s) (Failed [])) c f i v
    | IBurnBatch f is vs => _burn_batch C has_code (receiver (fun s => s) (Failed [])) c f is vs
    end
  with run_calls (cs : calls) (s : S) {struct cs} : S :=
    match cs with
    | CNil => s
    | CCons c o cs' => run_calls cs' (snd (tx (exec c o) s))
    end.
End exec.

Fixpoint of_list (l : list (Z * op)) : calls :=
  match l with [] => CNil | (c, o) :: l' => CCons c o (of_list l') end.
Definition run {S} (C : sys S) (has_code : Z -> bool) (l : list (Z * op)) (s : S) : S :=
  run_calls C has_code (of_list l) s.
