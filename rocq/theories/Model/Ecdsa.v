(** Model of contracts/src/utils/cryptography/ecdsa.rs. *)
From Verif.Base Require Import Prelude Bytes.
#[global] Open Scope Z_scope.

(** ecdsa.rs:21-23 *)
Definition SIGNATURE_S_UPPER_BOUND : Z :=
  0x7FFFFFFFFFFFFFFFFFFFFFFFFFFFFFFF5D576E7357A4501DDFE92F46681B20A0.
(** ecdsa.rs:60-66 *)
Inductive error := InvalidSignature | InvalidSignatureS (s : Z).

(** The [ecrecover] precompile (ecdsa.rs:17-18): input bytes to the call's outcome, [None]
    when the call itself fails. An arbitrary function. *)
Definition precompile := list Z -> option (list Z).

(** ecdsa.rs:167-170: ABI encoding of the static struct (bytes32, uint8, bytes32, bytes32). *)
Definition encode_calldata (hash v r s : Z) : list Z := word hash ++ word v ++ word r ++ word s.

(** ecdsa.rs:199-205 *)
Definition check_if_malleable (s : Z) : res error unit :=
  if SIGNATURE_S_UPPER_BOUND <? s then Err (InvalidSignatureS s) else Ok tt.

(** ecdsa.rs:127-154. A failing call panics ([expect], 143-145); [&recovered[12..]] panics when
    fewer than 12 bytes are returned and [Address::from_slice] when the rest is not 20
    bytes long (147). *)
Definition _recover (ecrecover : precompile) (hash v r s : Z) : res error Z :=
  if (v =? 0) || (v =? 1) then Err InvalidSignature
  else
    match ecrecover (encode_calldata hash v r s) with
    | None => Panic
    | Some out =>
        if Nat.eqb (length out) 32 then
          let recovered := of_be (skipn 12 out) in
          if recovered =? 0 then Err InvalidSignature else Ok recovered
        else Panic
    end.

(** ecdsa.rs:94-104 *)
Definition recover (ecrecover : precompile) (hash v r s : Z) : res error Z :=
  match check_if_malleable s with
  | Ok _ => _recover ecrecover hash v r s
  | Err e => Err e
  | Panic => Panic
  end.
