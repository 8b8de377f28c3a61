(** Model of examples/poseidon/src/lib.rs:16-35. *)
From Coq Require Import ZArith List Bool.
From Verif Require Import Model.Uint Model.Fp Model.Curve Model.Poseidon Spec.Uint_spec Proofs.Fp_field.
Import ListNotations.
Open Scope Z_scope.

Section example.
  (** The field [FpBN256] and the parameters [BN256Params]. *)
  Context (p : uint) (Hp : limbs (length p) p) (Hodd : Z.odd (val p) = true) (Hgt : 1 < val p).
  Notation K := (fp_ops p Hp Hodd Hgt).
  Context (P : params K).
  Definition obind {A B} (o : option A) (f : A -> option B) : option B := match o with Some a => f a | None => None end.
  (** A field element is a value of the type [elt p]; the case [None] does not occur
      ([c60_convert]). *)
  Definition fp_from_bigint (u : uint) : option (elt p) :=
    let x := from_bigint p u in
    match bool_dec (elementb p x) true with left H => Some (exist _ x H) | right _ => None end.
  (** lib.rs:23-28: the loop over the inputs *)
  Fixpoint absorb_inputs (h : sponge K) (inputs : list Z) : option (sponge K) :=
    match inputs with
    | [] => Some h
    | input :: inputs' =>
        obind (ct_from_le_slice (length p) (to_le_bytes 32 input)) (fun u =>
        obind (fp_from_bigint u) (fun fp =>
        obind (absorb K P h fp) (fun h => absorb_inputs h inputs')))
    end.
  (** lib.rs:19-34; [None] is a panic. [U256::from_le_slice] of at most 32 bytes is exact. *)
  Definition hash (a b : Z) : option Z :=
    obind (absorb_inputs (new K P) [a; b]) (fun h =>
    obind (squeeze K P h) (fun '(e, _) =>
    let bytes := into_bytes_le (into_bigint p (proj1_sig e)) in
    if Nat.leb (length bytes) 32 then Some (from_le_bytes bytes) else None)).
End example.
