(** Common vocabulary: results, the state/error monad, fixed-width integers. *)
From Coq Require Export ZArith Lia List Bool.
From Coq Require Export ZifyBool.
Export ListNotations.
#[global] Open Scope Z_scope.

(** ** Results *)

(** Outcome of a Rust function returning [Result<A, E>]: [Panic] is a Rust panic. *)
Inductive res (E A : Type) : Type :=
| Ok (a : A)
| Err (e : E)
| Panic.
Arguments Ok {E A} a.
Arguments Err {E A} e.
Arguments Panic {E A}.

Definition is_ok {E A} (r : res E A) : bool :=
  match r with Ok _ => true | _ => false end.

(** ** State and error monad

    [&mut self] methods: the new state is returned also on [Err]/[Panic] because
    Rust does not undo storage writes; see [tx] for the transaction boundary. *)
Definition M (S E A : Type) : Type := S -> res E A * S.

Definition ret {S E A} (a : A) : M S E A := fun s => (Ok a, s).
Definition fail {S E A} (e : E) : M S E A := fun s => (Err e, s).
Definition panic {S E A} : M S E A := fun s => (Panic, s).
Definition bind {S E A B} (m : M S E A) (k : A -> M S E B) : M S E B :=
  fun s => match m s with
           | (Ok a, s') => k a s'
           | (Err e, s') => (Err e, s')
           | (Panic, s') => (Panic, s')
           end.
Definition gets {S E A} (f : S -> A) : M S E A := fun s => (Ok (f s), s).
Definition modify {S E} (f : S -> S) : M S E unit := fun s => (Ok tt, f s).
Definition lift_res {S E A} (r : res E A) : M S E A := fun s => (r, s).
(** [if c { return Err(e) }] *)
Definition fail_if {S E} (c : bool) (e : E) : M S E unit :=
  fun s => if c then (Err e, s) else (Ok tt, s).
(** [assert!(!c)], [expect] *)
Definition panic_if {S E} (c : bool) : M S E unit :=
  fun s => if c then (Panic, s) else (Ok tt, s).
(** [.map_err(..)] / [?] with error conversion *)
Definition map_err {S E E' A} (f : E -> E') (m : M S E A) : M S E' A :=
  fun s => match m s with
           | (Ok a, s') => (Ok a, s')
           | (Err e, s') => (Err (f e), s')
           | (Panic, s') => (Panic, s')
           end.

Declare Scope monad_scope.
Delimit Scope monad_scope with monad.
Notation "x <~ m ;; k" := (bind m (fun x => k))
  (at level 100, m at next level, right associativity) : monad_scope.
Notation "m ;;; k" := (bind m (fun _ => k))
  (at level 100, right associativity) : monad_scope.
Open Scope monad_scope.

(** Transaction boundary: the VM restores the storage when the call fails. *)
Definition tx {S E A} (m : M S E A) (s : S) : res E A * S :=
  match m s with
  | (Ok a, s') => (Ok a, s')
  | (Err e, _) => (Err e, s)
  | (Panic, _) => (Panic, s)
  end.

(** ** Fixed width unsigned integers, as [Z] with explicit wrap-around *)

Definition two256 : Z := 2 ^ 256.
Definition U256_MAX : Z := two256 - 1.
Definition two64 : Z := 2 ^ 64.
Definition two96 : Z := 2 ^ 96.
Definition two160 : Z := 2 ^ 160.
Definition is_uint (bits x : Z) : Prop := 0 <= x < 2 ^ bits.
Definition is_u256 (x : Z) : Prop := 0 <= x < two256.
Definition is_u64 (x : Z) : Prop := 0 <= x < two64.

(** [a + b] on alloy's [U256]: wraps. *)
Definition wadd (a b : Z) : Z := (a + b) mod two256.
(** [a - b] on alloy's [U256]: wraps. *)
Definition wsub (a b : Z) : Z := (a - b) mod two256.
(** [a * b] on alloy's [U256]: wraps. *)
Definition wmul (a b : Z) : Z := (a * b) mod two256.
(** [a << n] on alloy's [U256]: bits shifted out are lost. *)
Definition wshl (a n : Z) : Z := (a * 2 ^ n) mod two256.
(** [a.checked_add(b).expect(..)] *)
Definition cadd {S E} (a b : Z) : M S E Z :=
  fun s => if a + b <? two256 then (Ok (a + b), s) else (Panic, s).
(** [a.checked_mul(b).expect(..)] *)
Definition cmul {S E} (a b : Z) : M S E Z :=
  fun s => if a * b <? two256 then (Ok (a * b), s) else (Panic, s).
(** [a.checked_sub(b).expect(..)] *)
Definition csub {S E} (a b : Z) : M S E Z :=
  fun s => if b <=? a then (Ok (a - b), s) else (Panic, s).

Lemma two256_pos : 0 < two256. Proof. reflexivity. Qed.
Lemma two64_pos : 0 < two64. Proof. reflexivity. Qed.
Lemma two96_pos : 0 < two96. Proof. reflexivity. Qed.

Lemma wadd_small a b : 0 <= a + b < two256 -> wadd a b = a + b.
Proof. intros. unfold wadd. apply Z.mod_small. assumption. Qed.
Lemma wsub_small a b : 0 <= a - b < two256 -> wsub a b = a - b.
Proof. intros. unfold wsub. apply Z.mod_small. assumption. Qed.
Lemma wmul_small a b : 0 <= a * b < two256 -> wmul a b = a * b.
Proof. intros. unfold wmul. apply Z.mod_small. assumption. Qed.
Lemma wshl_small a n : 0 <= a * 2 ^ n < two256 -> wshl a n = a * 2 ^ n.
Proof. intros. unfold wshl. apply Z.mod_small. assumption. Qed.
Lemma wadd_range a b : is_u256 (wadd a b).
Proof. unfold is_u256, wadd. apply Z.mod_pos_bound. reflexivity. Qed.
Lemma wsub_range a b : is_u256 (wsub a b).
Proof. unfold is_u256, wsub. apply Z.mod_pos_bound. reflexivity. Qed.

(** [tx] keeps the outcome and undoes failing calls. *)
Lemma tx_ok {S E A} (m : M S E A) s a s' :
  tx m s = (Ok a, s') <-> m s = (Ok a, s').
Proof. unfold tx. destruct (m s) as [[x|e|] s1]; split; intros H; inversion H; subst; auto. Qed.
Lemma tx_not_ok {S E A} (m : M S E A) s r s' :
  tx m s = (r, s') -> is_ok r = false -> s' = s.
Proof. unfold tx. destruct (m s) as [[x|e|] s1]; intros H Hr; inversion H; subst; auto; discriminate. Qed.

Lemma bind_ok {S E A B} (m : M S E A) (k : A -> M S E B) s b s' :
  bind m k s = (Ok b, s') <-> exists a s1, m s = (Ok a, s1) /\ k a s1 = (Ok b, s').
Proof.
  unfold bind. destruct (m s) as [[x|e|] s1]; split.
  - intros H; eauto.
  - intros (a & s2 & H1 & H2). inversion H1; subst; auto.
  - intros H; inversion H.
  - intros (a & s2 & H1 & H2). inversion H1.
  - intros H; inversion H.
  - intros (a & s2 & H1 & H2). inversion H1.
Qed.

(** Run a computation on a component of the state (a nested storage struct). *)
Definition zoom {S T E A} (g : S -> T) (p : T -> S -> S) (m : M T E A) : M S E A :=
  fun s => let '(r, t) := m (g s) in (r, p t s).

(** Unfold the monad plumbing (only), leaving the primitives of the model alone. *)
Ltac mred :=
  cbv beta iota zeta delta
    [bind ret gets modify fail_if fail panic panic_if lift_res map_err zoom cadd csub cmul].
Ltac mred_in H :=
  cbv beta iota zeta delta
    [bind ret gets modify fail_if fail panic panic_if lift_res map_err zoom cadd csub cmul] in H.

(** Split every [if] / [match] on booleans, options and results in the goal or in [H]. *)
Ltac case_all :=
  repeat match goal with
  | |- context [if ?b then _ else _] => destruct b eqn:?; cbn [fst snd]
  | |- context [match ?x with _ => _ end] => destruct x eqn:?; cbn [fst snd]
  end.
Ltac case_all_in H :=
  repeat match type of H with
  | context [if ?b then _ else _] => destruct b eqn:?; cbn [fst snd] in H
  | context [match ?x with _ => _ end] => destruct x eqn:?; cbn [fst snd] in H
  end.
