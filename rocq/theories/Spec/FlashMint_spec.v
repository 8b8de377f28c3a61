(** Specification vocabulary for flash loans. *)
From Verif.Base Require Import Prelude.
From Verif.Model Require Erc20 FlashMint.
From Verif.Spec Require Import Erc20_spec.
Import FlashMint.
#[global] Open Scope Z_scope.

(** All amounts in a call tree are 256-bit words. *)
Fixpoint call_wf (c : call) : Prop :=
  match c with
  | Plain _ o => Erc20.op_wf o
  | Flash _ _ _ v body _ => is_u256 v /\ calls_wf body
  end
with calls_wf (cs : calls) : Prop :=
  match cs with CNil => True | CCons c cs' => call_wf c /\ calls_wf cs' end.

(** All plain calls in a tree are calls of the public token API (no privileged mint). *)
Fixpoint call_public (c : call) : Prop :=
  match c with
  | Plain _ o => public_op o
  | Flash _ _ _ _ body _ => calls_public body
  end
with calls_public (cs : calls) : Prop :=
  match cs with CNil => True | CCons c cs' => call_public c /\ calls_public cs' end.

(** States of a deployed flash-mint token: after any sequence of top-level calls, each
    of which may be a flash loan with an arbitrary borrower. *)
Definition reachable (e : env) (s : Erc20.state) : Prop :=
  exists l, Forall call_wf l /\ s = run e l Erc20.init.

(** Allowance [o] -> [sp] is sufficient for [v]. *)
Definition allowed (s : Erc20.state) (o sp v : Z) : Prop :=
  Erc20.allowance s o sp = U256_MAX \/ v <= Erc20.allowance s o sp.
