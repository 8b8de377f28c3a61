(** Specification vocabulary for the two-contract systems (wrapper, vault). *)
From Verif.Base Require Import Prelude.
From Verif.Model Require Erc20 Erc20World.
From Verif.Spec Require Import Erc20_spec.
Import Erc20World.
#[global] Open Scope Z_scope.

(** What third parties may do on the asset contract: its public API, and whoever is
    privileged there may mint. *)
Definition third_party_op (o : Erc20.op) : Prop :=
  public_op o \/ exists a v, o = Erc20.OMint a v.

(** Shorthands for the observables of the two ledgers. *)
Definition asset_bal (w : world) (a : Z) : Z := Erc20.balance_of (asset_st w) a.
Definition share_bal (w : world) (a : Z) : Z := Erc20.balance_of (tok w) a.
Definition share_supply (w : world) : Z := Erc20.total_supply (tok w).

Definition can_take (u : Erc20.state) (owner spender v : Z) : Prop :=
  Erc20.allowance u owner spender = U256_MAX \/ v <= Erc20.allowance u owner spender.

(** [v] units of the asset moved from [from] to [to], nothing else in the ledger's
    balances and supply changed. *)
Definition moved (u u' : Erc20.state) (from to v : Z) : Prop :=
  balances_moved u u' from to v /\ Erc20.total_supply u' = Erc20.total_supply u /\
  Erc20.log u' = Erc20.log u ++ [Erc20.Transfer from to v].
