(** Model of contracts/src/access/ownable.rs. *)
From Verif.Base Require Import Prelude.
#[global] Open Scope Z_scope.

Inductive event := OwnershipTransferred (previous_owner new_owner : Z).   (* ownable.rs:33 *)
Inductive error := UnauthorizedAccount (account : Z) | InvalidOwner (owner : Z). (* ownable.rs:42-59 *)
(** ownable.rs:69-72 *)
Record state := mk { owner : Z; log : list event }.

(** ownable.rs:171-180 *)
Definition only_owner (caller : Z) : M state error unit :=
  o <~ gets owner ;; fail_if (negb (o =? caller)) (UnauthorizedAccount caller).
(** ownable.rs:193-197 *)
Definition _transfer_ownership (new_owner : Z) : M state error unit :=
  prev <~ gets owner ;;
  modify (fun s => mk new_owner (log s ++ [OwnershipTransferred prev new_owner])).
(** ownable.rs:136-151 *)
Definition transfer_ownership (caller new_owner : Z) : M state error unit :=
  only_owner caller ;;;
  fail_if (new_owner =? 0) (InvalidOwner 0) ;;;
  _transfer_ownership new_owner.
(** ownable.rs:153-157 *)
Definition renounce_ownership (caller : Z) : M state error unit :=
  only_owner caller ;;;
  _transfer_ownership 0.

Inductive op := OTransferOwnership (new_owner : Z) | ORenounce.
Definition exec (caller : Z) (o : op) : M state error unit :=
  match o with
  | OTransferOwnership n => transfer_ownership caller n
  | ORenounce => renounce_ownership caller
  end.
Definition step (s : state) (co : Z * op) : state := snd (tx (exec (fst co) (snd co)) s).
Definition run (h : list (Z * op)) (s : state) : state := fold_left step h s.
