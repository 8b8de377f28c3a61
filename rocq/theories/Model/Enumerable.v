(** Model of contracts/src/token/erc721/extensions/enumerable.rs.

    The Solidity-style vector [all_tokens] is a list; the conversion of its length to the
    platform's [usize] is not modelled (it could fail only after 2^32 mints). *)
From Verif.Base Require Import Prelude Maps.
From Verif.Model Require Erc721.
From stdpp Require Import gmap.
#[global] Open Scope Z_scope.

(** enumerable.rs:27-61 *)
Inductive error := OutOfBoundsIndex (owner index : Z) | ForbiddenBatchMint.

(** enumerable.rs:70-80 *)
Record state := mk {
  owned_tokens : gmap (Z * Z) Z;
  owned_tokens_index : gmap Z Z;
  all_tokens : list Z;
  all_tokens_index : gmap Z Z
}.
Definition init : state := mk ∅ ∅ [] ∅.
Definition set_owned f s := mk (f (owned_tokens s)) (owned_tokens_index s) (all_tokens s) (all_tokens_index s).
Definition set_index f s := mk (owned_tokens s) (f (owned_tokens_index s)) (all_tokens s) (all_tokens_index s).
Definition set_all f s := mk (owned_tokens s) (owned_tokens_index s) (f (all_tokens s)) (all_tokens_index s).
Definition set_all_index f s := mk (owned_tokens s) (owned_tokens_index s) (all_tokens s) (f (all_tokens_index s)).

(** [StorageVec::get] and [StorageVec::setter] with a U256 index. *)
Definition vget (l : list Z) (i : Z) : option Z := if i <? 0 then None else nth_error l (Z.to_nat i).
Definition vset (l : list Z) (i v : Z) : option (list Z) :=
  if (i <? 0) || (Z.of_nat (length l) <=? i) then None else Some (<[Z.to_nat i := v]> l).

(** enumerable.rs:141-153 *)
Definition token_of_owner_by_index (owner index : Z) (s : state) : res error Z :=
  let token := mget (owned_tokens s) (owner, index) in
  if token =? 0 then Err (OutOfBoundsIndex owner index) else Ok token.
(** enumerable.rs:155-158 *)
Definition total_supply (s : state) : Z := Z.of_nat (length (all_tokens s)).
(** enumerable.rs:160-164 *)
Definition token_by_index (index : Z) (s : state) : res error Z :=
  match vget (all_tokens s) index with Some t => Ok t | None => Err (OutOfBoundsIndex 0 index) end.

Definition ME := M state Erc721.error.
(** Reading the ERC-721 contract passed by reference. *)
Definition balance_in (e : Erc721.state) (a : Z) : ME Z := lift_res (fst (Erc721.balance_of a e)).

(** enumerable.rs:190-201 *)
Definition _add_token_to_owner_enumeration (to token_id : Z) (erc721 : Erc721.state) : ME unit :=
  b <~ balance_in erc721 to ;;
  let length := wsub b 1 in
  modify (set_owned (fun m => mset m (to, length) token_id)) ;;;
  modify (set_index (fun m => mset m token_id length)).
(** enumerable.rs:210-215 *)
Definition _add_token_to_all_tokens_enumeration (token_id : Z) : ME unit :=
  index <~ gets total_supply ;;
  modify (set_all_index (fun m => mset m token_id index)) ;;;
  modify (set_all (fun l => l ++ [token_id])).
(** enumerable.rs:240-270 *)
Definition _remove_token_from_owner_enumeration (from token_id : Z) (erc721 : Erc721.state) : ME unit :=
  last_token_index <~ balance_in erc721 from ;;
  token_index <~ gets (fun s => mget (owned_tokens_index s) token_id) ;;
  (if negb (token_index =? last_token_index) then
     last_token_id <~ gets (fun s => mget (owned_tokens s) (from, last_token_index)) ;;
     modify (set_owned (fun m => mset m (from, token_index) last_token_id)) ;;;
     modify (set_index (fun m => mset m last_token_id token_index))
   else ret tt) ;;;
  modify (set_index (fun m => mset m token_id 0)) ;;;
  modify (set_owned (fun m => mset m (from, last_token_index) 0)).
(** enumerable.rs:286-320; the subtraction at 293 and both [expect]s panic on an empty
    vector or an index beyond it *)
Definition _remove_token_from_all_tokens_enumeration (token_id : Z) : ME unit :=
  len <~ gets total_supply ;;
  panic_if (len =? 0) ;;;
  let last_token_index := len - 1 in
  token_index <~ gets (fun s => mget (all_tokens_index s) token_id) ;;
  o <~ gets (fun s => vget (all_tokens s) last_token_index) ;;
  match o with
  | None => panic
  | Some last_token_id =>
      l <~ gets (fun s => vset (all_tokens s) token_index last_token_id) ;;
      match l with
      | None => panic
      | Some l => modify (set_all (fun _ => l))
      end ;;;
      modify (set_all_index (fun m => mset m last_token_id token_index)) ;;;
      modify (set_all_index (fun m => mset m token_id 0)) ;;;
      modify (set_all (fun l => removelast l))
  end.
(** enumerable.rs:335-341 *)
Definition _check_increase_balance (amount : Z) : res error unit :=
  if 0 <? amount then Err ForbiddenBatchMint else Ok tt.
