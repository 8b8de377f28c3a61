(** Specification vocabulary for roles and ownership. *)
From Verif.Base Require Import Prelude.
From Verif.Model Require AccessControl Ownable Ownable2Step.
#[global] Open Scope Z_scope.

(** *** Roles *)
(** Calls available to users of the contract plus changes of the admin graph; the
    author-level [_grant_role]/[_revoke_role] are excluded. *)
Definition guarded (o : AccessControl.op) : Prop :=
  match o with
  | AccessControl.OInternalGrant _ _ | AccessControl.OInternalRevoke _ _ => False
  | _ => True
  end.
(** [c] may grant or revoke [role] in [s]. *)
Definition administers (s : AccessControl.state) (c role : Z) : Prop :=
  AccessControl.has_role s (AccessControl.get_role_admin s role) c = true.
(** The call gives [role] to [a]. *)
Definition gives (s : AccessControl.state) (co : Z * AccessControl.op) (role a : Z) : Prop :=
  snd co = AccessControl.OGrant role a /\ administers s (fst co) role.
(** The call takes [role] from [a]. *)
Definition takes (s : AccessControl.state) (co : Z * AccessControl.op) (role a : Z) : Prop :=
  (snd co = AccessControl.ORevoke role a /\ administers s (fst co) role) \/
  (snd co = AccessControl.ORenounce role a /\ fst co = a).

(** Membership according to the event log. *)
Fixpoint member_by_events (role a : Z) (acc : bool) (l : list AccessControl.event) : bool :=
  match l with
  | [] => acc
  | AccessControl.RoleGranted r x _ :: l' =>
      member_by_events role a (if (r =? role) && (x =? a) then true else acc) l'
  | AccessControl.RoleRevoked r x _ :: l' =>
      member_by_events role a (if (r =? role) && (x =? a) then false else acc) l'
  | AccessControl.RoleAdminChanged _ _ _ :: l' => member_by_events role a acc l'
  end.
(** Admin role according to the event log. *)
Fixpoint admin_by_events (role acc : Z) (l : list AccessControl.event) : Z :=
  match l with
  | [] => acc
  | AccessControl.RoleAdminChanged r _ n :: l' =>
      admin_by_events role (if r =? role then n else acc) l'
  | _ :: l' => admin_by_events role acc l'
  end.
(** Number of membership events about (role, a). *)
Fixpoint membership_events (role a : Z) (l : list AccessControl.event) : list bool :=
  match l with
  | [] => []
  | AccessControl.RoleGranted r x _ :: l' =>
      (if (r =? role) && (x =? a) then [true] else []) ++ membership_events role a l'
  | AccessControl.RoleRevoked r x _ :: l' =>
      (if (r =? role) && (x =? a) then [false] else []) ++ membership_events role a l'
  | AccessControl.RoleAdminChanged _ _ _ :: l' => membership_events role a l'
  end.
(** [true, false, true, ...] *)
Fixpoint alternating (b : bool) (l : list bool) : Prop :=
  match l with
  | [] => True
  | x :: l' => x = b /\ alternating (negb b) l'
  end.

(** A set of roles whose admins are all inside the set (e.g. the default admin role alone)
    and that has no members at all. *)
Definition dead_roles (R : Z -> Prop) (s : AccessControl.state) : Prop :=
  (forall r, R r -> R (AccessControl.get_role_admin s r)) /\
  (forall r a, R r -> AccessControl.has_role s r a = false).

(** *** Ownership *)
(** States visited by a history, one per prefix, starting with the initial one. *)
Fixpoint visited (h : list (Z * Ownable2Step.op)) (s : Ownable2Step.state) : list Ownable2Step.state :=
  s :: match h with [] => [] | x :: h' => visited h' (Ownable2Step.step s x) end.

(** Owner according to the [OwnershipTransferred] log. *)
Fixpoint owner_by_events (acc : Z) (l : list Ownable.event) : Z :=
  match l with
  | [] => acc
  | Ownable.OwnershipTransferred _ n :: l' => owner_by_events n l'
  end.
(** Every event names the previous owner correctly. *)
Fixpoint chained (acc : Z) (l : list Ownable.event) : Prop :=
  match l with
  | [] => True
  | Ownable.OwnershipTransferred p n :: l' => p = acc /\ chained n l'
  end.
