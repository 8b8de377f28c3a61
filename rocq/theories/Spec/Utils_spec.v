(** Specification vocabulary for Nonces and Pausable, independent of the model's storage. *)
From Verif.Base Require Import Prelude.
From Verif.Model Require Nonces Pausable.
#[global] Open Scope Z_scope.

(** The account an operation is about. *)
Definition nonce_op_owner (o : Nonces.op) : Z :=
  match o with Nonces.OUse a => a | Nonces.OUseChecked a _ => a end.

(** The values handed out to account [a] by the successful calls of a history, in order. *)
Fixpoint handed_out (a : Z) (h : list Nonces.op) (s : Nonces.state) : list Z :=
  match h with
  | [] => []
  | o :: h' =>
      match fst (tx (Nonces.exec o) s) with
      | Ok n => if nonce_op_owner o =? a then [n] else []
      | _ => []
      end ++ handed_out a h' (Nonces.step s o)
  end.

(** 0, 1, ..., n-1 *)
Definition count_up (n : nat) : list Z := map Z.of_nat (seq 0 n).

(** Kind of an event: did it pause? *)
Definition is_pause (e : Pausable.event) : bool :=
  match e with Pausable.Paused _ => true | Pausable.Unpaused _ => false end.
(** Kinds alternate, starting with [b]. *)
Fixpoint alternates (b : bool) (l : list Pausable.event) : Prop :=
  match l with
  | [] => True
  | e :: l' => is_pause e = b /\ alternates (negb b) l'
  end.
(** Kind of the last successful call of a history, from a state whose flag is [b]:
    a call succeeds iff it asks for a change. *)
Fixpoint last_kind (b : bool) (h : list (Z * Pausable.op)) : bool :=
  match h with
  | [] => b
  | (_, Pausable.OPause) :: h' => last_kind true h'
  | (_, Pausable.OUnpause) :: h' => last_kind false h'
  end.
