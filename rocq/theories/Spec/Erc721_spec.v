(** Vocabulary for the ERC-721 properties. *)
From Verif.Base Require Import Prelude Maps.
From Verif.Model Require Erc721.
From stdpp Require Import gmap.
Import Erc721.
#[global] Open Scope Z_scope.

(** What the public getters answer. *)
Definition owner (s : state) (id a : Z) : Prop := fst (owner_of id s) = Ok a.
Definition exists_token (s : state) (id : Z) : Prop := exists a, owner s id a.
Definition balance (s : state) (a n : Z) : Prop := fst (balance_of a s) = Ok n.
Definition approved (s : state) (id a : Z) : Prop := fst (get_approved id s) = Ok a.
Definition operator (s : state) (o p : Z) : Prop := is_approved_for_all o p s = true.
(** Entitled to move a token of [o]: the owner, its operators, the approved address. *)
Definition may_move (s : state) (id o c : Z) : Prop :=
  c = o \/ operator s o c \/ approved s id c.
(** [l] lists the tokens of [a] without repetition. *)
Definition tokens_of (s : state) (a : Z) (l : list Z) : Prop :=
  NoDup l /\ forall id, id ∈ l <-> owner s id a.

(** Inputs as the ABI and the chain deliver them: a call has a nonzero sender and ids are
    256-bit words; the same for everything a receiver does in its callback. *)
Fixpoint op_nodes (G : Z -> op -> Prop) (caller : Z) (o : op) : Prop :=
  G caller o /\
  match o with
  | SafeTransferFrom _ _ _ _ body _ | ISafeMint _ _ _ body _ | ISafeTransfer _ _ _ _ body _ =>
      calls_nodes G body
  | _ => True
  end
with calls_nodes (G : Z -> op -> Prop) (cs : calls) : Prop :=
  match cs with
  | CNil => True
  | CCons c o cs' => op_nodes G c o /\ calls_nodes G cs'
  end.
Definition op_id (o : op) : Z :=
  match o with
  | TransferFrom _ _ i | SafeTransferFrom _ _ i _ _ _ | Approve _ i | Burn i | IMint _ i
  | ISafeMint _ i _ _ _ | IBurn i | ITransfer _ _ i | ISafeTransfer _ _ i _ _ _ => i
  | SetApprovalForAll _ _ => 0
  end.
Definition node_wf (caller : Z) (o : op) : Prop := caller <> 0 /\ is_u256 (op_id o).
Definition history := list (Z * op).
Definition nodes (G : Z -> op -> Prop) (l : history) : Prop := calls_nodes G (of_list l).
Definition well_formed (l : history) : Prop := nodes node_wf l.
Definition reachable (s : state) : Prop :=
  exists has_code l, well_formed l /\ s = run has_code l init.

(** Reading the event log: the last event about a token, or a pair, decides. *)
Fixpoint log_owner (l : list event) (id acc : Z) : Z :=
  match l with
  | [] => acc
  | Transfer _ to i :: l' => log_owner l' id (if i =? id then to else acc)
  | _ :: l' => log_owner l' id acc
  end.
Fixpoint log_approved (l : list event) (id acc : Z) : Z :=
  match l with
  | [] => acc
  | Transfer _ _ i :: l' => log_approved l' id (if i =? id then 0 else acc)
  | Approval _ a i :: l' => log_approved l' id (if i =? id then a else acc)
  | _ :: l' => log_approved l' id acc
  end.
Fixpoint log_operator (l : list event) (o p : Z) (acc : bool) : bool :=
  match l with
  | [] => acc
  | ApprovalForAll o' p' b :: l' =>
      log_operator l' o p (if (o' =? o) && (p' =? p) then b else acc)
  | _ :: l' => log_operator l' o p acc
  end.
(** Each [Transfer] and [Approval] event names the owner at its time, [own] being the
    owners before the first event. *)
Fixpoint truthful (l : list event) (own : Z -> Z) : Prop :=
  match l with
  | [] => True
  | Transfer f t i :: l' => f = own i /\ truthful l' (fun j => if i =? j then t else own j)
  | Approval o _ i :: l' => o = own i /\ truthful l' own
  | ApprovalForAll _ _ _ :: l' => truthful l' own
  end.

(** Not all 2^256 ids are taken. *)
Definition room (s : state) : Prop := exists j, is_u256 j /\ ~ exists_token s j.
(** Calls everybody can make, as opposed to the internal functions. *)
Definition is_public (o : op) : Prop :=
  match o with
  | TransferFrom _ _ _ | SafeTransferFrom _ _ _ _ _ _ | Approve _ _ | SetApprovalForAll _ _ | Burn _ => True
  | _ => False
  end.
