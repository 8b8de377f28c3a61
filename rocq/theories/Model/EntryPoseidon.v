(** The deployed examples/poseidon behind its entry point: as in Model/Entry.v, with a fixed
    array as argument. The contract has no state. *)
From Verif.Base Require Import Prelude Bytes.
From Coq Require Import String List.
From Verif.Model Require Import Introspection Router Entry.
From Verif.Model Require SolAbi.
Import SolAbi.
#[global] Open Scope Z_scope.
Local Open Scope list_scope.
Local Open Scope Z_scope.

(** A fixed array of static elements is encoded as its elements, in place. *)
Definition elements (t : abi_type) : list abi_type := match t with U256x2 => [U256; U256] | _ => [t] end.
Section example.
  (** The function of Model/PoseidonExample.v, for the shipped field and parameters. *)
  Context (hash : Z -> Z -> option Z).
  (** examples/poseidon/src/lib.rs:14-36; [None] is a panic. *)
  Definition entry_poseidon (value : Z) (input : list Z) : answer :=
    if (length input <? 4)%nat then Reverted [] else
    match find_fn Pub.PoseidonExample (of_be (firstn 4 input)) with
    | None => Reverted []
    | Some (_, f) =>
        if negb (value =? 0) then Reverted [] else
        match decode_params (flat_map elements (arg_types f)) (skipn 4 input) with
        | Some [Word a; Word b] =>
            match hash a b with
            | Some h => Returned (abi_params [Word h])
            | None => Reverted []
            end
        | _ => Reverted []
        end
    end.
End example.
