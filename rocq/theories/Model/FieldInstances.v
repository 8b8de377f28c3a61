(** Model of lib/crypto/src/field/instance.rs: the shipped prime fields.

    The constants are written as decimal literals and parsed at compile time by
    [from_num!] (arithmetic/uint.rs:802-806) and [fp_from_num!] (field/fp.rs:979-985). *)
From Coq Require Import Ascii String ZArith List.
From Verif Require Import Model.Uint Model.Fp.
Import ListNotations.
Open Scope string_scope.
Open Scope Z_scope.

Definition chars (s : string) : list Z := map (fun c => Z.of_N (N_of_ascii c)) (list_ascii_of_string s).
Definition from_num (N : nat) (s : string) : option uint := from_str_radix N (chars s) 10.
(** [Fp::new]: field/fp.rs:344-351 *)
Definition fp_from_num (p : uint) (s : string) : option uint :=
  match from_num (length p) s with Some u => Some (from_bigint p u) | None => None end.

(** What a parameter type declares: number of limbs, [MODULUS], [GENERATOR]. *)
Record params := { p_limbs : nat; p_modulus : string; p_generator : string }.
(** instance.rs:11-57 *)
Definition VestaParam := {| p_limbs := 4;
  p_modulus := "28948022309329048855892746252171976963363056481941647379679742748393362948097"; p_generator := "5" |}.
Definition BabyBearParam := {| p_limbs := 1; p_modulus := "2013265921"; p_generator := "31" |}.
Definition BLS12Param := {| p_limbs := 4;
  p_modulus := "52435875175126190479447740508185965837690552500527637822603658699938581184513"; p_generator := "7" |}.
Definition BN256Param := {| p_limbs := 4;
  p_modulus := "21888242871839275222246405745257275088548364400416034343698204186575808495617"; p_generator := "7" |}.
Definition GoldiLocksParam := {| p_limbs := 1; p_modulus := "18446744069414584321"; p_generator := "7" |}.
Definition PallasParam := {| p_limbs := 4;
  p_modulus := "28948022309329048855892746252171976963363056481941560715954676764349967630337"; p_generator := "5" |}.
Definition instances : list params :=
  [VestaParam; BabyBearParam; BLS12Param; BN256Param; GoldiLocksParam; PallasParam].
Definition MODULUS (c : params) : option uint := from_num (p_limbs c) (p_modulus c).
Definition GENERATOR (c : params) : option uint :=
  match MODULUS c with Some p => fp_from_num p (p_generator c) | None => None end.
