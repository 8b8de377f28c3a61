(** Model of examples/ownable/src/lib.rs and examples/ownable-two-step/src/lib.rs: an ERC-20
    whose [transfer] is for the owner only. *)
From Verif.Base Require Import Prelude.
From Verif.Model Require Erc20 Ownable Ownable2Step.
#[global] Open Scope Z_scope.

(** ownable/src/lib.rs:13-17, ownable-two-step/src/lib.rs:13-17 *)
Inductive error := Erc20Error (e : Erc20.error) | OwnableError (e : Ownable.error).

(** ownable/src/lib.rs:19-26 *)
Record state := mk { erc20 : Erc20.state; ownable : Ownable.state }.
Definition on_erc20 {A} (m : M Erc20.state Erc20.error A) : M state error A :=
  map_err Erc20Error (zoom erc20 (fun t s => mk t (ownable s)) m).
Definition on_ownable {A} (m : M Ownable.state Ownable.error A) : M state error A :=
  map_err OwnableError (zoom ownable (fun o s => mk (erc20 s) o) m).
(** ownable/src/lib.rs:31-35 *)
Definition transfer (caller to value : Z) : M state error unit :=
  on_ownable (Ownable.only_owner caller) ;;;
  on_erc20 (Erc20.transfer caller to value) ;;;
  ret tt.

(** ownable-two-step/src/lib.rs:19-26 *)
Record state2 := mk2 { erc20_2 : Erc20.state; ownable2 : Ownable2Step.state }.
Definition on_erc20_2 {A} (m : M Erc20.state Erc20.error A) : M state2 error A :=
  map_err Erc20Error (zoom erc20_2 (fun t s => mk2 t (ownable2 s)) m).
Definition on_ownable2 {A} (m : M Ownable2Step.state Ownable.error A) : M state2 error A :=
  map_err OwnableError (zoom ownable2 (fun o s => mk2 (erc20_2 s) o) m).
(** ownable-two-step/src/lib.rs:31-35; the guard is [Ownable::only_owner], reached
    through [Deref] (ownable_two_step.rs:61-67). *)
Definition transfer2 (caller to value : Z) : M state2 error unit :=
  on_ownable2 (Ownable2Step.on_ownable (Ownable.only_owner caller)) ;;;
  on_erc20_2 (Erc20.transfer caller to value) ;;;
  ret tt.
