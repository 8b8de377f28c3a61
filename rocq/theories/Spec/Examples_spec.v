(** Vocabulary for the properties of the example contracts. *)
From Verif.Base Require Import Prelude.
From Verif.Model Require Erc1155 Erc1155Example AccessControl AccessExample Pausable.
From Verif.Spec Require Erc1155_spec.
#[global] Open Scope Z_scope.

(** *** examples/erc1155 *)
Module E := Erc1155Example.
(** The call of the plain ERC-1155 contract a call stands for; receivers only answer. *)
Definition token_call (o : E.op) : option Erc1155.op :=
  match o with
  | E.Mint t i v d fin => Some (Erc1155.IMint t i v d Erc1155.CNil fin)
  | E.MintBatch t is vs d fin => Some (Erc1155.IMintBatch t is vs d Erc1155.CNil fin)
  | E.Burn a i v => Some (Erc1155.Burn a i v)
  | E.BurnBatch a is vs => Some (Erc1155.BurnBatch a is vs)
  | E.SafeTransferFrom f t i v d fin => Some (Erc1155.SafeTransferFrom f t i v d Erc1155.CNil fin)
  | E.SafeBatchTransferFrom f t is vs d fin => Some (Erc1155.SafeBatchTransferFrom f t is vs d Erc1155.CNil fin)
  | E.SetApprovalForAll p b => Some (Erc1155.SetApprovalForAll p b)
  | E.Pause | E.Unpause => None
  end.
(** Calls that move tokens, if they succeed. *)
Definition moves_tokens (o : E.op) : Prop :=
  match o with E.SetApprovalForAll _ _ | E.Pause | E.Unpause => False | _ => True end.
Definition is_paused (s : E.state) : bool := Pausable.paused (E.pausable s).
Definition token_balance (s : E.state) (a id : Z) : Z := Erc1155.balance_of a id (E.erc1155 s).
(** Nonzero callers and 256-bit values. *)
Definition call_wf (co : Z * E.op) : Prop :=
  match token_call (snd co) with Some t => Erc1155_spec.node_wf (fst co) t | None => True end.

(** *** examples/access-control *)
Module A := AccessExample.
Definition holds (s : A.state) (role a : Z) : Prop := AccessControl.has_role (A.access s) role a = true.
Definition admin_of (s : A.state) (role : Z) : Z := AccessControl.get_role_admin (A.access s) role.
(** [c] may give and take [role] by itself. *)
Definition may_administer (s : A.state) (c role : Z) : Prop := holds s (admin_of s role) c.
Definition arrived (deployer : Z) (s : A.state) : Prop := exists h, s = A.run h (A.init deployer).
