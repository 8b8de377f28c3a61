(** Which nestings of calls ERC-777 allows. *)
From Verif.Base Require Import Prelude.
From Verif.Model Require Erc20 Erc20World Erc4626 VaultHooks.
From Verif.Spec Require Import World_spec Erc4626_spec.
Import Erc20World Erc4626 VaultHooks.
#[global] Open Scope Z_scope.

(** Hooks run the code of the party concerned. When assets come in, the sender's hook runs
    (before the transfer) and the recipient is the vault, which has none; when they go out,
    the vault, which has none, is the sender, and the recipient's hook runs (after the
    transfer). Transfers between others may run both. *)
Inductive erc777_wf (this : Z) : rcall -> Prop :=
| wf_in c pre : (exists cl a r, c = VDeposit cl a r \/ c = VMint cl a r) ->
    call_wf this c -> Forall (erc777_wf this) pre -> erc777_wf this (RCall c pre [])
| wf_out c post : (exists cl a r o, c = VWithdraw cl a r o \/ c = VRedeem cl a r o) ->
    call_wf this c -> Forall (erc777_wf this) post -> erc777_wf this (RCall c [] post)
| wf_shares cl o : call_wf this (Shares cl o) -> erc777_wf this (RCall (Shares cl o) [] [])
| wf_asset cl o pre post : call_wf this (Asset cl o) ->
    Forall (erc777_wf this) pre -> Forall (erc777_wf this) post ->
    erc777_wf this (RCall (Asset cl o) pre post).

(** The same with hooks of strangers anywhere. *)
Inductive any_wf (this : Z) : rcall -> Prop :=
| wf_any c pre post : call_wf this c -> Forall (any_wf this) pre -> Forall (any_wf this) post ->
    any_wf this (RCall c pre post).

(** A state is no worse for the holders: a share is worth no less. *)
Definition no_worse (this offset : Z) (w w' : world) : Prop :=
  assets1 this w * shares1 offset w' <= assets1 this w' * shares1 offset w.
