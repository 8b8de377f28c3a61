(** Model of contracts/src/token/erc721/mod.rs and extensions/burnable.rs.

    A receiving contract is arbitrary: [handler] says what happens when the token contract
    calls [on_erc721_received] on it, as a function of the arguments it is given and of
    the token contract's storage, which the receiver may change by calling back. *)
From Verif.Base Require Import Prelude Maps.
From stdpp Require Import gmap.
#[global] Open Scope Z_scope.

(** mod.rs:36-75 *)
Inductive event :=
| Transfer (from to token_id : Z)
| Approval (owner approved token_id : Z)
| ApprovalForAll (owner operator : Z) (approved : bool).

(** mod.rs:80-182; [InvalidReceiverWithReason] is the propagated revert data of the
    receiver (mod.rs:1019-1022). *)
Inductive error :=
| InvalidOwner (owner : Z)
| NonexistentToken (token_id : Z)
| IncorrectOwner (sender token_id owner : Z)
| InvalidSender (sender : Z)
| InvalidReceiver (receiver : Z)
| InvalidReceiverWithReason (reason : list Z)
| InsufficientApproval (operator token_id : Z)
| InvalidApprover (approver : Z)
| InvalidOperator (operator : Z).

(** mod.rs:221-236 *)
Record state := mk {
  owners : gmap Z Z;
  balances : gmap Z Z;
  token_approvals : gmap Z Z;
  operator_approvals : gmap (Z * Z) bool;
  log : list event
}.
Definition init : state := mk ∅ ∅ ∅ ∅ [].
Definition set_owners f s := mk (f (owners s)) (balances s) (token_approvals s) (operator_approvals s) (log s).
Definition set_balances f s := mk (owners s) (f (balances s)) (token_approvals s) (operator_approvals s) (log s).
Definition set_token_approvals f s := mk (owners s) (balances s) (f (token_approvals s)) (operator_approvals s) (log s).
Definition set_operator_approvals f s := mk (owners s) (balances s) (token_approvals s) (f (operator_approvals s)) (log s).
Definition emit (ev : event) : M state error unit :=
  modify (fun s => mk (owners s) (balances s) (token_approvals s) (operator_approvals s) (log s ++ [ev])).

(** The result of the external call [on_erc721_received]: the selector it returns, or a
    failure with the given revert data (an empty list also stands for a call that fails
    in any other way, for instance with malformed return data: mod.rs:1016-1026 treats
    them alike). *)
Inductive reply := Returned (selector : Z) | Failed (reason : list Z).
(** [receiver operator from token_id data], then the storage at the time of the call:
    that of this contract, or ([handler_on]) of a system of contracts it is part of. *)
Definition handler_on (S : Type) := Z -> Z -> Z -> Z -> list Z -> S -> reply * S.
Definition handler := handler_on state.

(** mod.rs:30: [RECEIVER_FN_SELECTOR] *)
Definition RECEIVER_FN_SELECTOR : Z := 0x150b7a02.

Definition MS := M state error.

(** mod.rs:516-518 *)
Definition _owner_of (token_id : Z) (s : state) : Z := mget (owners s) token_id.
(** mod.rs:528-530 *)
Definition _get_approved (token_id : Z) (s : state) : Z := mget (token_approvals s) token_id.
(** mod.rs:488-490 *)
Definition is_approved_for_all (owner operator : Z) (s : state) : bool :=
  getd false (operator_approvals s) (owner, operator).
(** mod.rs:412-417 *)
Definition balance_of (owner : Z) : MS Z :=
  fail_if (owner =? 0) (InvalidOwner 0) ;;;
  gets (fun s => mget (balances s) owner).
(** mod.rs:960-966 *)
Definition _require_owned (token_id : Z) : MS Z :=
  owner <~ gets (_owner_of token_id) ;;
  fail_if (owner =? 0) (NonexistentToken token_id) ;;;
  ret owner.
(** mod.rs:419-421 *)
Definition owner_of (token_id : Z) : MS Z := _require_owned token_id.
(** mod.rs:483-486 *)
Definition get_approved (token_id : Z) : MS Z :=
  _require_owned token_id ;;; gets (_get_approved token_id).
(** mod.rs:545-555 *)
Definition _is_authorized (owner spender token_id : Z) (s : state) : bool :=
  negb (spender =? 0) &&
  ((owner =? spender) || is_approved_for_all owner spender s
   || (_get_approved token_id s =? spender)).
(** mod.rs:577-592 *)
Definition _check_authorized (owner operator token_id : Z) : MS unit :=
  ok <~ gets (_is_authorized owner operator token_id) ;;
  if (ok : bool) then ret tt
  else if owner =? 0 then fail (NonexistentToken token_id)
  else fail (InsufficientApproval operator token_id).
(** mod.rs:612-614 (value is a u128) *)
Definition _increase_balance (account value : Z) : MS unit :=
  modify (set_balances (fun b => mset b account (wadd (mget b account) value))).
(** mod.rs:886-913 *)
Definition _approve (to token_id auth : Z) (emit_event : bool) : MS unit :=
  (if emit_event || negb (auth =? 0) then
     owner <~ _require_owned token_id ;;
     appr <~ gets (is_approved_for_all owner auth) ;;
     fail_if (negb (auth =? 0) && negb (owner =? auth) && negb appr) (InvalidApprover auth) ;;;
     if emit_event then emit (Approval owner to token_id) else ret tt
   else ret tt) ;;;
  modify (set_token_approvals (fun m => mset m token_id to)).
(** mod.rs:644-672 *)
Definition _update (to token_id auth : Z) : MS Z :=
  from <~ gets (_owner_of token_id) ;;
  (if negb (auth =? 0) then _check_authorized from auth token_id else ret tt) ;;;
  (if negb (from =? 0) then
     _approve 0 token_id 0 false ;;;
     modify (set_balances (fun b => mset b from (wsub (mget b from) 1)))
   else ret tt) ;;;
  (if negb (to =? 0) then
     modify (set_balances (fun b => mset b to (wadd (mget b to) 1)))
   else ret tt) ;;;
  modify (set_owners (fun m => mset m token_id to)) ;;;
  emit (Transfer from to token_id) ;;;
  ret from.
(** mod.rs:693-705 *)
Definition _mint (to token_id : Z) : MS unit :=
  fail_if (to =? 0) (InvalidReceiver 0) ;;;
  previous_owner <~ _update to token_id 0 ;;
  fail_if (negb (previous_owner =? 0)) (InvalidSender 0).
(** mod.rs:766-773 *)
Definition _burn (token_id : Z) : MS unit :=
  previous_owner <~ _update 0 token_id 0 ;;
  fail_if (previous_owner =? 0) (NonexistentToken token_id).
(** mod.rs:796-821 *)
Definition _transfer (from to token_id : Z) : MS unit :=
  fail_if (to =? 0) (InvalidReceiver 0) ;;;
  previous_owner <~ _update to token_id 0 ;;
  if previous_owner =? 0 then fail (NonexistentToken token_id)
  else fail_if (negb (previous_owner =? from)) (IncorrectOwner from token_id previous_owner).
(** mod.rs:931-944 *)
Definition _set_approval_for_all (owner operator : Z) (approved : bool) : MS unit :=
  fail_if (operator =? 0) (InvalidOperator operator) ;;;
  modify (set_operator_approvals (fun m => <[(owner, operator) := approved]> m)) ;;;
  emit (ApprovalForAll owner operator approved).
(** mod.rs:444-469 *)
Definition transfer_from (caller from to token_id : Z) : MS unit :=
  fail_if (to =? 0) (InvalidReceiver 0) ;;;
  previous_owner <~ _update to token_id caller ;;
  fail_if (negb (previous_owner =? from)) (IncorrectOwner from token_id previous_owner).
(** mod.rs:471-473 *)
Definition approve (caller to token_id : Z) : MS unit := _approve to token_id caller true.
(** mod.rs:475-481 *)
Definition set_approval_for_all (caller operator : Z) (approved : bool) : MS unit :=
  _set_approval_for_all caller operator approved.
(** extensions/burnable.rs:35-44 *)
Definition burn (caller token_id : Z) : MS unit :=
  _update 0 token_id caller ;;; ret tt.

(** mod.rs:993-1035; [has_code] is [Address::has_code] *)
Definition _check_on_erc721_received {S : Type} (has_code : Z -> bool) (h : handler_on S)
    (operator from to token_id : Z) (data : list Z) : M S error unit :=
  if negb (has_code to) then ret tt else
  r <~ (fun s => let '(r, s') := h to operator from token_id data s in (Ok r, s')) ;;
  match r with
  | Failed [] => fail (InvalidReceiver to)
  | Failed reason => fail (InvalidReceiverWithReason reason)
  | Returned id => fail_if (negb (id =? RECEIVER_FN_SELECTOR)) (InvalidReceiver to)
  end.

Section with_receivers.
  Context (has_code : Z -> bool) (h : handler).

  (** mod.rs:433-442; 423-430 is the case of empty data *)
  Definition safe_transfer_from_with_data (caller from to token_id : Z) (data : list Z) : MS unit :=
    transfer_from caller from to token_id ;;;
    _check_on_erc721_received has_code h caller from to token_id data.
  Definition safe_transfer_from (caller from to token_id : Z) : MS unit :=
    safe_transfer_from_with_data caller from to token_id [].
  (** mod.rs:732-746 *)
  Definition _safe_mint (caller to token_id : Z) (data : list Z) : MS unit :=
    _mint to token_id ;;;
    _check_on_erc721_received has_code h caller 0 to token_id data.
  (** mod.rs:852-861 *)
  Definition _safe_transfer (caller from to token_id : Z) (data : list Z) : MS unit :=
    _transfer from to token_id ;;;
    _check_on_erc721_received has_code h caller from to token_id data.
End with_receivers.

(** Calls into the contract: the public interface, [burn] of the burnable extension, and
    the internal functions a deriving contract may expose.  The safe variants carry what
    the receiver does when called: further calls into this contract (by itself or by
    accounts it talks to; each its own frame), then its reply.  As in [FlashMint], every
    execution against any receiver performs the calls of some such tree. *)
Inductive op :=
| TransferFrom (from to token_id : Z)
| SafeTransferFrom (from to token_id : Z) (data : list Z) (body : calls) (fin : reply)
| Approve (to token_id : Z)
| SetApprovalForAll (operator : Z) (approved : bool)
| Burn (token_id : Z)
| IMint (to token_id : Z)
| ISafeMint (to token_id : Z) (data : list Z) (body : calls) (fin : reply)
| IBurn (token_id : Z)
| ITransfer (from to token_id : Z)
| ISafeTransfer (from to token_id : Z) (data : list Z) (body : calls) (fin : reply)
with calls := CNil | CCons (caller : Z) (o : op) (cs : calls).

Section exec.
  Context (has_code : Z -> bool).
  Fixpoint exec (caller : Z) (o : op) {struct o} : MS unit :=
    let recv body fin : handler :=
      fun _ _ _ _ _ s =>
        match fin with
        | Returned v => (Returned v, run_calls body s)
        | Failed r => (Failed r, s)     (* the receiver's frame is rolled back *)
        end in
    match o with
    | TransferFrom f t i => transfer_from caller f t i
    | SafeTransferFrom f t i d body fin =>
        safe_transfer_from_with_data has_code (recv body fin) caller f t i d
    | Approve t i => approve caller t i
    | SetApprovalForAll q b => set_approval_for_all caller q b
    | Burn i => burn caller i
    | IMint t i => _mint t i
    | ISafeMint t i d body fin => _safe_mint has_code (recv body fin) caller t i d
    | IBurn i => _burn i
    | ITransfer f t i => _transfer f t i
    | ISafeTransfer f t i d body fin => _safe_transfer has_code (recv body fin) caller f t i d
    end
  with run_calls (cs : calls) (s : state) {struct cs} : state :=
    match cs with
    | CNil => s
    | CCons c o cs' => run_calls cs' (snd (tx (exec c o) s))
    end.
End exec.

Fixpoint of_list (l : list (Z * op)) : calls :=
  match l with [] => CNil | (c, o) :: l' => CCons c o (of_list l') end.
(** A history: transactions from any accounts. *)
Definition run (has_code : Z -> bool) (l : list (Z * op)) (s : state) : state :=
  run_calls has_code (of_list l) s.
