(** Model of contracts/src/token/erc20/extensions/permit.rs. *)
From Verif.Base Require Import Prelude Bytes Keccak.
From Verif.Model Require Erc20 Nonces Ecdsa Eip712.
From Coq Require Import String.
#[global] Open Scope Z_scope.

(** permit.rs:57-68 *)
Inductive error :=
| ExpiredSignature (deadline : Z)
| InvalidSigner (signer owner : Z)
| Erc20Error (e : Erc20.error)
| ECDSA (e : Ecdsa.error)
| NonceError (e : Nonces.error).  (* cannot arise: use_nonce returns no Result *)

(** The contract storage touched by permit: the token and the nonces (permit.rs:147-148). *)
Record state := mk { erc20 : Erc20.state; nonces : Nonces.state }.
Definition init : state := mk Erc20.init Nonces.init.
Definition on_erc20 {A} (m : M Erc20.state Erc20.error A) : M state error A :=
  map_err Erc20Error (zoom erc20 (fun t s => mk t (nonces s)) m).
Definition on_nonces {A} (m : M Nonces.state Nonces.error A) : M state error A :=
  map_err NonceError (zoom nonces (fun n s => mk (erc20 s) n) m).

Section permit.
  Variable keccak : list Z -> Z.
  Variable ecrecover : Ecdsa.precompile.
  Variable dom : Eip712.domain.

  (** permit.rs:29-32 *)
  Definition PERMIT_TYPEHASH : Z := keccak (bytes_of_string
    "Permit(address owner,address spender,uint256 value,uint256 nonce,uint256 deadline)").

  (** permit.rs:154-161, ABI encoding of the static tuple declared at 39-41 *)
  Definition struct_preimage (owner spender value nonce deadline : Z) : list Z :=
    word PERMIT_TYPEHASH ++ word owner ++ word spender ++ word value ++ word nonce ++ word deadline.

  (** permit.rs:138-174; [timestamp] is block::timestamp() *)
  Definition permit (timestamp owner spender value deadline v r s : Z) : M state error unit :=
    fail_if (deadline <? timestamp) (ExpiredSignature deadline) ;;;
    nonce <~ on_nonces (Nonces.use_nonce owner) ;;
    let struct_hash := keccak (struct_preimage owner spender value nonce deadline) in
    let hash := Eip712.hash_typed_data_v4 keccak dom struct_hash in
    signer <~ map_err ECDSA (lift_res (Ecdsa.recover ecrecover hash v r s)) ;;
    fail_if (negb (signer =? owner)) (InvalidSigner signer owner) ;;;
    on_erc20 (Erc20._approve owner spender value true) ;;;
    ret tt.

  (** Transactions of a token with permit: permit itself and every ERC-20 call. *)
  Inductive op :=
  | OPermit (owner spender value deadline v r s : Z)
  | OToken (caller : Z) (o : Erc20.op).
  Definition exec (timestamp : Z) (o : op) : M state error unit :=
    match o with
    | OPermit ow sp va de v r s => permit timestamp ow sp va de v r s
    | OToken c o => on_erc20 (Erc20.exec c o)
    end.
  Definition step (st : state) (to : Z * op) : state := snd (tx (exec (fst to) (snd to)) st).
  Definition run (h : list (Z * op)) (st : state) : state := fold_left step h st.
End permit.
