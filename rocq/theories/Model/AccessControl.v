(** Model of contracts/src/access/control.rs. Roles (bytes32) are [Z]; the default
    admin role is 0 (control.rs:310). *)
From Verif.Base Require Import Prelude Maps.
From stdpp Require Import gmap.
#[global] Open Scope Z_scope.

(** control.rs:68-85 *)
Inductive event :=
| RoleAdminChanged (role previous_admin new_admin : Z)
| RoleGranted (role account sender : Z)
| RoleRevoked (role account sender : Z).
(** control.rs:95-113 *)
Inductive error :=
| UnauthorizedAccount (account needed_role : Z)
| BadConfirmation.
(** control.rs:125-137: RoleData.has_role and RoleData.admin_role per role *)
Record state := mk {
  members : gmap (Z * Z) bool;   (* (role, account) *)
  admins : gmap Z Z;             (* role -> admin role, default 0 *)
  log : list event
}.
Definition init : state := mk ∅ ∅ [].
Definition DEFAULT_ADMIN_ROLE : Z := 0.

(** control.rs:258-260 *)
Definition has_role (s : state) (role account : Z) : bool := getd false (members s) (role, account).
(** control.rs:266-268 *)
Definition get_role_admin (s : state) (role : Z) : Z := mget (admins s) role.

(** control.rs:345-357 *)
Definition _check_role (role account : Z) : M state error unit :=
  b <~ gets (fun s => has_role s role account) ;;
  fail_if (negb b) (UnauthorizedAccount account role).
(** control.rs:262-264 *)
Definition only_role (caller role : Z) : M state error unit := _check_role role caller.
(** control.rs:323-331 *)
Definition _set_role_admin (role new_admin : Z) : M state error unit :=
  prev <~ gets (fun s => get_role_admin s role) ;;
  modify (fun s => mk (members s) (mset (admins s) role new_admin)
                      (log s ++ [RoleAdminChanged role prev new_admin])).
(** control.rs:373-381 *)
Definition _grant_role (caller role account : Z) : M state error bool :=
  b <~ gets (fun s => has_role s role account) ;;
  if b then ret false
  else
    modify (fun s => mk (<[(role, account) := true]> (members s)) (admins s)
                        (log s ++ [RoleGranted role account caller])) ;;;
    ret true.
(** control.rs:397-405 *)
Definition _revoke_role (caller role account : Z) : M state error bool :=
  b <~ gets (fun s => has_role s role account) ;;
  if b then
    modify (fun s => mk (<[(role, account) := false]> (members s)) (admins s)
                        (log s ++ [RoleRevoked role account caller])) ;;;
    ret true
  else ret false.
(** control.rs:270-279 *)
Definition grant_role (caller role account : Z) : M state error unit :=
  admin <~ gets (fun s => get_role_admin s role) ;;
  only_role caller admin ;;;
  _grant_role caller role account ;;;
  ret tt.
(** control.rs:281-290 *)
Definition revoke_role (caller role account : Z) : M state error unit :=
  admin <~ gets (fun s => get_role_admin s role) ;;
  only_role caller admin ;;;
  _revoke_role caller role account ;;;
  ret tt.
(** control.rs:292-305 *)
Definition renounce_role (caller role confirmation : Z) : M state error unit :=
  fail_if (negb (caller =? confirmation)) BadConfirmation ;;;
  _revoke_role caller role confirmation ;;;
  ret tt.

(** Public entry points, and the author-level [pub] functions. *)
Inductive op :=
| OGrant (role account : Z)
| ORevoke (role account : Z)
| ORenounce (role confirmation : Z)
| OSetRoleAdmin (role new_admin : Z)        (* _set_role_admin *)
| OInternalGrant (role account : Z)         (* _grant_role *)
| OInternalRevoke (role account : Z).       (* _revoke_role *)
Definition exec (caller : Z) (o : op) : M state error unit :=
  match o with
  | OGrant r a => grant_role caller r a
  | ORevoke r a => revoke_role caller r a
  | ORenounce r a => renounce_role caller r a
  | OSetRoleAdmin r n => _set_role_admin r n
  | OInternalGrant r a => _grant_role caller r a ;;; ret tt
  | OInternalRevoke r a => _revoke_role caller r a ;;; ret tt
  end.
Definition step (s : state) (co : Z * op) : state := snd (tx (exec (fst co) (snd co)) s).
Definition run (h : list (Z * op)) (s : state) : state := fold_left step h s.
