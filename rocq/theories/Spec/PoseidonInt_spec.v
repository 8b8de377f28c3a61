(** The shipped Poseidon2 hashes in plain modular arithmetic: executable, with the constants
    read off the text of the parameter sets. *)
From Coq Require Import Ascii String ZArith List.
From Verif Require Import Model.FieldInstances Model.Curve Model.PoseidonInstances Spec.Poseidon_spec.
Import ListNotations.
Open Scope Z_scope.

(** Integers modulo [p]; the hash uses sums and products only. *)
Definition Zp (p : Z) : field_ops := {|
  F := Z; f0 := 0; f1 := 1; fadd a b := (a + b) mod p; fsub a b := (a - b) mod p; fmul a b := (a * b) mod p;
  fneg a := (- a) mod p; fdouble a := (2 * a) mod p; fsquare a := (a * a) mod p;
  finv := fun _ => None; feqb := Z.eqb; fsop := fun _ _ => 0; small_extension := true |}.

Definition digit (c : ascii) : Z := 
  let n := Z.of_N (N_of_ascii c) in if n <=? 57 then n - 48 else if n <=? 90 then n - 55 else n - 87.
Definition number (base : Z) (s : string) : Z :=
  fold_left (fun v c => base * v + digit c) (list_ascii_of_string s) 0.

(** Blocks of [r] elements, the last possibly shorter. *)
Fixpoint blocks_of (fuel r : nat) (l : list Z) : list (list Z) :=
  match fuel, l with S fuel, _ :: _ => firstn r l :: blocks_of fuel r (skipn r l) | _, _ => [] end.

Section hash.
  Context (i : instance).
  Definition modulus_of : Z := number 10 (p_modulus (i_field i)).
  Notation K := (Zp modulus_of). Notation t := (i_T i). Notation cap := (i_capacity i).
  Definition constant (s : string) : Z := number 16 s mod modulus_of.
  Definition permutation (x : list Z) : list Z :=
    poseidon2 K t (Z.to_nat (i_D i)) (i_rounds_f i) (i_rounds_p i)
      (diagonal K t (map constant (i_diag i))) (map (map constant) (i_rc i)) x.
  Definition absorbed_state (l : list Z) : list Z :=
    match blocks_of (length l) (t - cap) l with
    | [] => repeat 0 t
    | b :: bs => fold_left (fun s b => inject K cap (permutation s) b) bs (inject K cap (repeat 0 t) b)
    end.
  (** [n] elements squeezed after the integers [l] have been absorbed. *)
  Definition hash_of (l : list Z) (n : nat) : list Z :=
    map (output K permutation t cap (absorbed_state (map (fun x => x mod modulus_of) l))) (seq 0 n).
End hash.
