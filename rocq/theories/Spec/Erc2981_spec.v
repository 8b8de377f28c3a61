(** What a history of royalty settings means, independently of the contract's storage. *)
From Verif.Base Require Import Prelude.
From Verif.Model Require Erc2981.
Import Erc2981.
#[global] Open Scope Z_scope.

Definition setting := option (Z * Z).
Definition valid (den r f : Z) : bool := (f <=? den) && negb (r =? 0).
(** The default receiver and fraction after the calls [h], [acc] before. *)
Fixpoint default_after (den : Z) (h : list op) (acc : setting) : setting :=
  match h with
  | [] => acc
  | SetDefault r f :: h' => default_after den h' (if valid den r f then Some (r, f) else acc)
  | DeleteDefault :: h' => default_after den h' None
  | _ :: h' => default_after den h' acc
  end.
Fixpoint token_after (den id : Z) (h : list op) (acc : setting) : setting :=
  match h with
  | [] => acc
  | SetToken i r f :: h' => token_after den id h' (if (i =? id) && valid den r f then Some (r, f) else acc)
  | ResetToken i :: h' => token_after den id h' (if i =? id then None else acc)
  | _ :: h' => token_after den id h' acc
  end.
(** Token specific if set, else the default, else nobody and nothing. *)
Definition effective (den id : Z) (h : list op) : Z * Z :=
  match token_after den id h None, default_after den h None with
  | Some rf, _ => rf
  | None, Some rf => rf
  | None, None => (0, 0)
  end.
Definition op_wf (o : op) : Prop :=
  match o with SetDefault _ f | SetToken _ _ f => 0 <= f | _ => True end.
