(** Model of examples/access-control/src/lib.rs: an ERC-20 whose [transfer_from] needs a
    role, with a public [set_role_admin]. *)
From Verif.Base Require Import Prelude Maps.
From Verif.Model Require Erc20 AccessControl.
#[global] Open Scope Z_scope.

(** lib.rs:13-17 *)
Inductive error := AccessError (e : AccessControl.error) | Erc20Error (e : Erc20.error).
(** lib.rs:21-26 *)
Record state := mk { erc20 : Erc20.state; access : AccessControl.state }.
(** lib.rs:28-29: the Keccak-256 hash of "TRANSFER_ROLE" *)
Definition TRANSFER_ROLE : Z := 0x8502233096d909befbda0999bb8ea2f3a6be3c138b9fbf003752a4c8bce86f6c.
(** constructor.sol: the deployer gets the default admin role *)
Definition init (deployer : Z) : state :=
  mk Erc20.init (snd (AccessControl._grant_role deployer AccessControl.DEFAULT_ADMIN_ROLE deployer AccessControl.init)).

Definition on_erc20 {A} (m : M Erc20.state Erc20.error A) : M state error A :=
  map_err Erc20Error (zoom erc20 (fun t s => mk t (access s)) m).
Definition on_access {A} (m : M AccessControl.state AccessControl.error A) : M state error A :=
  map_err AccessError (zoom access (fun a s => mk (erc20 s) a) m).

(** lib.rs:34-38 *)
Definition make_admin (caller account : Z) : M state error unit :=
  on_access (AccessControl.only_role caller AccessControl.DEFAULT_ADMIN_ROLE) ;;;
  on_access (AccessControl.grant_role caller TRANSFER_ROLE account).
(** lib.rs:40-49 *)
Definition transfer_from (caller from to value : Z) : M state error bool :=
  on_access (AccessControl.only_role caller TRANSFER_ROLE) ;;;
  on_erc20 (Erc20.transfer_from caller from to value).
(** lib.rs:53-55 *)
Definition set_role_admin (role new_admin_role : Z) : M state error unit :=
  on_access (AccessControl._set_role_admin role new_admin_role).

(** The public functions: those above, and what [#[inherit(Erc20, AccessControl)]]
    (lib.rs:32) adds. *)
Inductive op :=
| MakeAdmin (account : Z)
| TransferFrom (from to value : Z)
| SetRoleAdmin (role new_admin_role : Z)
| Transfer (to value : Z)
| Approve (spender value : Z)
| Grant (role account : Z)
| Revoke (role account : Z)
| Renounce (role confirmation : Z).
Definition exec (caller : Z) (o : op) : M state error unit :=
  match o with
  | MakeAdmin a => make_admin caller a
  | TransferFrom f t v => transfer_from caller f t v ;;; ret tt
  | SetRoleAdmin r n => set_role_admin r n
  | Transfer t v => on_erc20 (Erc20.transfer caller t v) ;;; ret tt
  | Approve p v => on_erc20 (Erc20.approve caller p v) ;;; ret tt
  | Grant r a => on_access (AccessControl.grant_role caller r a)
  | Revoke r a => on_access (AccessControl.revoke_role caller r a)
  | Renounce r a => on_access (AccessControl.renounce_role caller r a)
  end.
Definition step (s : state) (co : Z * op) : state := snd (tx (exec (fst co) (snd co)) s).
Definition run (h : list (Z * op)) (s : state) : state := fold_left step h s.
