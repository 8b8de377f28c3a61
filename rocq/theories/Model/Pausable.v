(** Model of contracts/src/utils/pausable.rs. *)
From Verif.Base Require Import Prelude.
#[global] Open Scope Z_scope.

Inductive event := Paused (account : Z) | Unpaused (account : Z).      (* pausable.rs:32-37 *)
Inductive error := EnforcedPause | ExpectedPause.                       (* pausable.rs:45-51 *)
(** pausable.rs:74-77 *)
Record state := mk { paused : bool; log : list event }.
Definition init : state := mk false [].

(** pausable.rs:134-139 *)
Definition when_not_paused : M state error unit :=
  p <~ gets paused ;; fail_if p EnforcedPause.
(** pausable.rs:151-156 *)
Definition when_paused : M state error unit :=
  p <~ gets paused ;; fail_if (negb p) ExpectedPause.
(** pausable.rs:101-106 *)
Definition pause (caller : Z) : M state error unit :=
  when_not_paused ;;;
  modify (fun s => mk true (log s)) ;;;
  modify (fun s => mk (paused s) (log s ++ [Paused caller])).
(** pausable.rs:117-122 *)
Definition unpause (caller : Z) : M state error unit :=
  when_paused ;;;
  modify (fun s => mk false (log s)) ;;;
  modify (fun s => mk (paused s) (log s ++ [Unpaused caller])).

Inductive op := OPause | OUnpause.
Definition exec (caller : Z) (o : op) : M state error unit :=
  match o with OPause => pause caller | OUnpause => unpause caller end.
Definition step (s : state) (co : Z * op) : state := snd (tx (exec (fst co) (snd co)) s).
Definition run (h : list (Z * op)) (s : state) : state := fold_left step h s.
