(** What "the enumeration is exact" means, in terms of the public getters. *)
From Verif.Base Require Import Prelude Maps.
From Verif.Model Require Erc721 Enumerable Erc721Example.
From Verif.Spec Require Import Erc721_spec.
From stdpp Require Import gmap.
Import Erc721Example.
#[global] Open Scope Z_scope.

(** [L] is what the owner's enumeration lists: position by position, with nothing beyond
    its end.  Id 0 is answered like an index out of bounds. *)
Definition owner_listing (s : state) (a : Z) (L : list Z) : Prop :=
  forall i, 0 <= i ->
    Enumerable.token_of_owner_by_index a i (enumerable s) =
    match nth_error L (Z.to_nat i) with
    | Some id => if id =? 0 then Err (Enumerable.OutOfBoundsIndex a i) else Ok id
    | None => Err (Enumerable.OutOfBoundsIndex a i)
    end.
Definition all_listing (s : state) (L : list Z) : Prop :=
  Enumerable.total_supply (enumerable s) = Z.of_nat (length L) /\
  forall i, 0 <= i ->
    Enumerable.token_by_index i (enumerable s) =
    match nth_error L (Z.to_nat i) with
    | Some id => Ok id
    | None => Err (Enumerable.OutOfBoundsIndex 0 i)
    end.
(** The enumeration is exact. *)
Definition exact_enumeration (s : state) : Prop :=
  (forall a, a <> 0 -> exists L, tokens_of (erc721 s) a L /\ balance (erc721 s) a (Z.of_nat (length L)) /\
     owner_listing s a L) /\
  (exists L, NoDup L /\ (forall id, id ∈ L <-> exists_token (erc721 s) id) /\ all_listing s L).

Definition op_wf (co : Z * op) : Prop :=
  fst co <> 0 /\
  match snd co with
  | Burn i | Mint _ i | SafeMint _ i _ _ | TransferFrom _ _ i | SafeTransferFrom _ _ i _ _ | Approve _ i => is_u256 i
  | _ => True
  end.
(** No transfer of a token to its own owner. *)
Definition no_self (co : Z * op) : Prop :=
  match snd co with
  | TransferFrom f t _ | SafeTransferFrom f t _ _ _ => f <> t
  | _ => True
  end.
