(** Vocabulary for the ERC-721 wrapper property. *)
From Verif.Base Require Import Prelude Maps.
From Verif.Model Require Erc721 Wrapper721.
From Verif.Spec Require Export Erc721_spec.
Import Wrapper721.
#[global] Open Scope Z_scope.

(** Every call of a tree, with its caller, satisfies [G]. *)
Fixpoint w_op_nodes (G : Z -> op -> Prop) (c : Z) (o : op) : Prop :=
  G c o /\
  match o with
  | USafeTransferFrom _ _ _ _ b _ | USafeMint _ _ _ b _ | WSafeTransferFrom _ _ _ _ b _
  | WReceived _ _ _ _ b _ | WRecover _ _ b _ => w_calls_nodes G b
  | WDepositFor _ l | WWithdrawTo _ l => w_rounds_nodes G l
  | _ => True
  end
with w_calls_nodes (G : Z -> op -> Prop) (cs : calls) : Prop :=
  match cs with
  | CNil => True
  | CCons c o cs' => w_op_nodes G c o /\ w_calls_nodes G cs'
  end
with w_rounds_nodes (G : Z -> op -> Prop) (l : rounds) : Prop :=
  match l with
  | RNil => True
  | RCons _ b _ l' => w_calls_nodes G b /\ w_rounds_nodes G l'
  end.
Fixpoint round_ids (l : rounds) : list Z :=
  match l with RNil => [] | RCons i _ _ l' => i :: round_ids l' end.
Definition w_op_ids (o : op) : list Z :=
  match o with
  | UTransferFrom _ _ i | USafeTransferFrom _ _ i _ _ _ | UApprove _ i | UBurn i | UMint _ i
  | USafeMint _ i _ _ _ | WTransferFrom _ _ i | WSafeTransferFrom _ _ i _ _ _ | WApprove _ i
  | WBurn i | WReceived _ _ i _ _ _ | WRecover _ i _ _ => [i]
  | USetApprovalForAll _ _ | WSetApprovalForAll _ _ => []
  | WDepositFor _ l | WWithdrawTo _ l => round_ids l
  end.
(** Calls by anyone but the zero address and the two contracts, with 256-bit ids. *)
Definition w_node_wf (me tok : Z) (c : Z) (o : op) : Prop :=
  c <> 0 /\ c <> me /\ c <> tok /\ forall i, In i (w_op_ids o) -> is_u256 i.
Definition w_history := list (Z * op).
Definition w_nodes (G : Z -> op -> Prop) (h : w_history) : Prop := w_calls_nodes G (of_list h).
Definition w_reachable (me tok : Z) (s : world) : Prop :=
  exists has_code h, w_nodes (w_node_wf me tok) h /\ s = run has_code me tok h init.

(** Withdrawals that name the token [i]. *)
Definition withdraws (i : Z) (o : op) : Prop :=
  match o with WWithdrawTo _ l => In i (round_ids l) | _ => False end.
(** The token's owner has given rights to nobody. *)
Definition unshared (s : Erc721.state) (i o : Z) : Prop :=
  owner s i o /\ approved s i 0 /\ forall p, ~ operator s o p.
