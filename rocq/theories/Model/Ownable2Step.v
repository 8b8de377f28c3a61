(** Model of contracts/src/access/ownable_two_step.rs. *)
From Verif.Base Require Import Prelude.
From Verif.Model Require Ownable.
#[global] Open Scope Z_scope.

(** ownable_two_step.rs:42; [OwnershipTransferred] comes from the inner Ownable. *)
Inductive event := OwnershipTransferStarted (previous_owner new_owner : Z).
(** ownable_two_step.rs:52-59 *)
Record state := mk { ownable : Ownable.state; pending_owner : Z; log2 : list event }.

(** ownable_two_step.rs:164-166 *)
Definition owner (s : state) : Z := Ownable.owner (ownable s).

(** calls on [self.ownable] *)
Definition on_ownable {A} (m : M Ownable.state Ownable.error A) : M state Ownable.error A :=
  zoom ownable (fun o s => mk o (pending_owner s) (log2 s)) m.

(** ownable_two_step.rs:222-225 *)
Definition _transfer_ownership (new_owner : Z) : M state Ownable.error unit :=
  modify (fun s => mk (ownable s) 0 (log2 s)) ;;;
  on_ownable (Ownable._transfer_ownership new_owner).

(** ownable_two_step.rs:172-185 *)
Definition transfer_ownership (caller new_owner : Z) : M state Ownable.error unit :=
  on_ownable (Ownable.only_owner caller) ;;;
  modify (fun s => mk (ownable s) new_owner (log2 s)) ;;;
  current <~ gets owner ;;
  modify (fun s => mk (ownable s) (pending_owner s)
                      (log2 s ++ [OwnershipTransferStarted current new_owner])).

(** ownable_two_step.rs:187-197 *)
Definition accept_ownership (caller : Z) : M state Ownable.error unit :=
  pending <~ gets pending_owner ;;
  fail_if (negb (caller =? pending)) (Ownable.UnauthorizedAccount caller) ;;;
  _transfer_ownership caller.

(** ownable_two_step.rs:199-203 *)
Definition renounce_ownership (caller : Z) : M state Ownable.error unit :=
  on_ownable (Ownable.only_owner caller) ;;;
  _transfer_ownership 0.

Inductive op := OTransferOwnership (new_owner : Z) | OAccept | ORenounce.
Definition exec (caller : Z) (o : op) : M state Ownable.error unit :=
  match o with
  | OTransferOwnership n => transfer_ownership caller n
  | OAccept => accept_ownership caller
  | ORenounce => renounce_ownership caller
  end.
Definition step (s : state) (co : Z * op) : state := snd (tx (exec (fst co) (snd co)) s).
Definition run (h : list (Z * op)) (s : state) : state := fold_left step h s.
(** Deployed with an owner and nobody nominated. *)
Definition init (o : Z) : state := mk (Ownable.mk o []) 0 [].
