(** Model of contracts/src/utils/nonces.rs. *)
From Verif.Base Require Import Prelude Maps.
From stdpp Require Import gmap.
#[global] Open Scope Z_scope.

(** nonces.rs:27 *)
Inductive error := InvalidAccountNonce (account current_nonce : Z).

(** nonces.rs:46-49 *)
Record state := mk { nonce_map : gmap Z Z }.
Definition init : state := mk ∅.

(** nonces.rs:60-62 *)
Definition nonces (s : state) (owner : Z) : Z := mget (nonce_map s) owner.

(** nonces.rs:76-84: returns the nonce and stores nonce+1 (panics on overflow). *)
Definition use_nonce (owner : Z) : M state error Z :=
  nonce <~ gets (fun s => nonces s owner) ;;
  n' <~ cadd nonce 1 ;;
  modify (fun s => mk (mset (nonce_map s) owner n')) ;;;
  ret nonce.

(** nonces.rs:103-118: note that the nonce is consumed before the comparison. *)
Definition use_checked_nonce (owner nonce : Z) : M state error unit :=
  current <~ use_nonce owner ;;
  fail_if (negb (nonce =? current)) (InvalidAccountNonce owner current).

(** Transactions against a contract exposing both functions. *)
Inductive op := OUse (owner : Z) | OUseChecked (owner nonce : Z).
Definition exec (o : op) : M state error Z :=
  match o with
  | OUse a => use_nonce a
  | OUseChecked a n => use_checked_nonce a n ;;; ret n
  end.
Definition step (s : state) (o : op) : state := snd (tx (exec o) s).
Definition run (h : list op) (s : state) : state := fold_left step h s.
