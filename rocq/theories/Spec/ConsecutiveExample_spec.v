(** What the erc721-consecutive example should do, from its constructor arguments on. *)
From Verif.Base Require Import Prelude.
From Verif.Model Require Erc721 Consecutive ConsecutiveExample.
#[global] Open Scope Z_scope.

(** The recipients of the constructor with the numbers of tokens they get. *)
Definition amount_of (l : list (Z * Z)) : Z := fold_right (fun x n => snd x + n) 0 l.
(** Whom an id belongs to at first: the ids from [first] on are handed out in order. *)
Fixpoint initial_owner (first : Z) (l : list (Z * Z)) (id : Z) : Z :=
  match l with
  | [] => 0
  | (to, n) :: l' => if (first <=? id) && (id <? first + n) then to else initial_owner (first + n) l' id
  end.
(** Arguments that can be served. *)
Definition serviceable (first max : Z) (receivers amounts : list Z) : Prop :=
  (length receivers <= length amounts)%nat /\
  Forall (fun x => snd x = 0 \/ fst x <> 0 /\ snd x <= max) (combine receivers amounts) /\
  first + amount_of (combine receivers amounts) < two96.
(** Calls by anybody but the zero address with 256-bit ids. *)
Definition call_wf (co : Z * ConsecutiveExample.call) : Prop :=
  fst co <> 0 /\
  match snd co with
  | ConsecutiveExample.PBurn id | ConsecutiveExample.PMint _ id | ConsecutiveExample.PTransferFrom _ _ id
  | ConsecutiveExample.PApprove _ id => is_u256 id
  | ConsecutiveExample.PSetApprovalForAll _ _ => True
  end.
(** Ownership as a plain function, driven by the calls that succeed. *)
Definition moves (c : ConsecutiveExample.call) (own : Z -> Z) : Z -> Z :=
  let put id a := fun j => if j =? id then a else own j in
  match c with
  | ConsecutiveExample.PBurn id => put id 0
  | ConsecutiveExample.PMint to id | ConsecutiveExample.PTransferFrom _ to id => put id to
  | ConsecutiveExample.PApprove _ _ | ConsecutiveExample.PSetApprovalForAll _ _ => own
  end.
Fixpoint owners_after (first : Z) (h : list (Z * ConsecutiveExample.call)) (s : Consecutive.state) (own : Z -> Z) : Z -> Z :=
  match h with
  | [] => own
  | (c, o) :: h' =>
      match tx (ConsecutiveExample.exec first c o) s with
      | (Ok _, s') => owners_after first h' s' (moves o own)
      | _ => owners_after first h' s own
      end
  end.
