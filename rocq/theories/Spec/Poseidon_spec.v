(** Specification: the Poseidon2 permutation in terms of matrices and the power map, and
    the sponge over an arbitrary permutation. *)
From Coq Require Import ZArith List Bool.
From Verif Require Import Model.Curve Model.Poseidon.
Import ListNotations.

Section spec.
  Context (K : field_ops).
  Notation F := (F K). Notation "0" := (f0 K). Notation "1" := (f1 K).
  Notation "x + y" := (fadd K x y). Notation "x * y" := (fmul K x y).

  Fixpoint of_nat (n : nat) : F := match n with O => 0 | S n => of_nat n + 1 end.
  Fixpoint power (x : F) (n : nat) : F := match n with O => 1 | S n => power x n * x end.
  Definition sum_list (l : list F) : F := fold_right (fadd K) 0 l.
  (** The product of the [t] by [t] matrix [M] and the vector [x]. *)
  Definition mat_vec (t : nat) (M : nat -> nat -> F) (x : list F) : list F :=
    map (fun i => sum_list (map (fun j => M i j * nth j x 0) (seq 0 t))) (seq 0 t).

  (** The matrices of the Poseidon2 paper, sections 5.1 and 5.2. *)
  Definition M4 (i j : nat) : F :=
    of_nat (nth j (nth i [[5; 7; 1; 3]; [4; 6; 1; 1]; [1; 3; 5; 7]; [1; 1; 4; 6]]%nat []) O).
  Definition M_E (t i j : nat) : F :=
    if Nat.ltb t 4 then of_nat (if Nat.eqb i j then 2 else 1)%nat
    else if Nat.eqb t 4 then M4 i j
    else of_nat (if Nat.eqb (Nat.div i 4) (Nat.div j 4) then 2 else 1)%nat * M4 (Nat.modulo i 4) (Nat.modulo j 4).
  Definition M_I (diag : list F) (i j : nat) : F := if Nat.eqb i j then 1 + nth i diag 0 else 1.
  (** The diagonal of [M_I - 1] for a width: for 2 and 3 it is fixed. *)
  Definition diagonal (t : nat) (diag : list F) : list F :=
    match t with 2%nat => [1; 1 + 1] | 3%nat => [1; 1; 1 + 1] | _ => diag end.
  Definition supported (t : nat) : Prop := In t [2; 3; 4; 8; 12; 16; 20; 24]%nat.

  (** The rounds: round constants, the power map, a matrix. *)
  Definition first (f : F -> F) (x : list F) : list F := match x with [] => [] | a :: x' => f a :: x' end.
  Definition full_round (t d : nat) (c x : list F) : list F :=
    mat_vec t (M_E t) (map (fun p => power (fst p + snd p) d) (combine x c)).
  Definition partial_round (t d : nat) (diag c x : list F) : list F :=
    mat_vec t (M_I diag) (first (fun a => power (a + hd 0 c) d) x).
  (** [rf] full and [rp] partial rounds, the full ones half before and half after. *)
  Definition poseidon2 (t d rf rp : nat) (diag : list F) (rc : list (list F)) (x : list F) : list F :=
    let half := Nat.div rf 2 in
    let x := mat_vec t (M_E t) x in
    let x := fold_left (fun x c => full_round t d c x) (firstn half rc) x in
    let x := fold_left (fun x c => partial_round t d diag c x) (firstn rp (skipn half rc)) x in
    fold_left (fun x c => full_round t d c x) (firstn (rf - half)%nat (skipn (half + rp)%nat rc)) x.

  (** A total bijection on the states of width [t]; [None] is a panic. *)
  Definition bijective_on (t : nat) (f : list F -> option (list F)) : Prop :=
    (forall s, length s = t -> exists s', f s = Some s' /\ length s' = t) /\
    (forall s s', length s = t -> length s' = t -> f s = f s' -> s = s') /\
    (forall s', length s' = t -> exists s, length s = t /\ f s = Some s').

  (** ** The sponge with permutation [pi], width [t] and capacity [cap] *)
  Context (pi : list F -> list F) (t cap : nat).
  (** Adding a block of at most [t - cap] elements onto the rate part. *)
  Fixpoint add_block (s b : list F) : list F :=
    match s, b with x :: s', y :: b' => (x + y) :: add_block s' b' | _, _ => s end.
  Definition inject (s b : list F) : list F := firstn cap s ++ add_block (skipn cap s) b.
  (** Blocks of [t - cap] elements (the last may be shorter), a permutation between blocks. *)
  Inductive absorbs : list F -> list F -> Prop :=
  | absorbs_first b : (length b <= t - cap)%nat -> absorbs b (inject (repeat 0 t) b)
  | absorbs_block l s b : absorbs l s -> length l <> O -> Nat.modulo (length l) (t - cap)%nat = O ->
      b <> [] -> (length b <= t - cap)%nat -> absorbs (l ++ b) (inject (pi s) b).
  (** The [n]-th output element: the rate part of the permuted state, permuted again for
      every further [t - cap] elements. *)
  Fixpoint iterate (n : nat) (s : list F) : list F := match n with O => s | S n => pi (iterate n s) end.
  Definition output (s : list F) (n : nat) : F :=
    nth (cap + Nat.modulo n (t - cap))%nat (iterate (S (Nat.div n (t - cap)%nat)) s) 0.
End spec.

(** ** Sequences of calls on a sponge *)
Section calls.
  Context (K : field_ops) (P : params K).
  Notation F := (F K).
  Inductive call := Absorb (e : F) | AbsorbBatch (l : list F) | Squeeze | SqueezeBatch (n : nat).
  (** The outputs of a call; [None] is a panic. *)
  Definition perform (h : sponge K) (c : call) : option (list F * sponge K) :=
    match c with
    | Absorb e => option_map (pair []) (absorb K P h e)
    | AbsorbBatch l => option_map (pair []) (absorb_batch K P h l)
    | Squeeze => option_map (fun '(e, h) => ([e], h)) (squeeze K P h)
    | SqueezeBatch n => squeeze_batch K P h n
    end.
  Fixpoint run (h : sponge K) (cs : list call) : option (list F * sponge K) :=
    match cs with
    | [] => Some ([], h)
    | c :: cs => match perform h c with
                 | None => None
                 | Some (o, h) => match run h cs with None => None | Some (o', h) => Some (o ++ o', h) end
                 end
    end.
  Definition absorbed (cs : list call) : list F :=
    flat_map (fun c => match c with Absorb e => [e] | AbsorbBatch l => l | _ => [] end) cs.
  Definition squeezed (cs : list call) : nat :=
    list_sum (map (fun c => match c with Squeeze => 1 | SqueezeBatch n => n | _ => 0 end)%nat cs).
  (** No element is absorbed after an element has been squeezed. *)
  Definition ordered (cs : list call) : Prop :=
    forall before after, cs = before ++ after -> squeezed before = O \/ absorbed after = [].
End calls.
