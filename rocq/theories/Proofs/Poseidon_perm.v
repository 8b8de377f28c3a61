(** The permutation as a composition of rounds, its injectivity, and the sponge. *)
From Coq Require Import ZArith List Bool Ring_theory Ring Field Lia.
From Verif Require Import Model.Uint Model.Curve Model.Poseidon Spec.Curve_spec Spec.Poseidon_spec.
From Verif Require Import Proofs.Curve_lemmas Proofs.Poseidon_lemmas.
Import ListNotations.
Open Scope nat_scope.

(** An injective map on the lists of a length over a finite type is onto. *)
Fixpoint all_lists {A} (all : list A) (n : nat) : list (list A) :=
  match n with O => [[]] | S n => flat_map (fun x => map (cons x) (all_lists all n)) all end.
Lemma all_lists_in {A} (all : list A) n s : (forall x, In x all) -> length s = n -> In s (all_lists all n).
Proof.
  intros Ha. revert s. induction n as [|n IH]; intros [|x s] Hs; try discriminate; [cbn; auto|].
  cbn [all_lists]. apply in_flat_map. exists x. split; [apply Ha|]. apply in_map, IH. cbn in Hs. lia.
Qed.
Lemma all_lists_length {A} (all : list A) n s : In s (all_lists all n) -> length s = n.
Proof.
  revert s. induction n as [|n IH]; intros s Hs; cbn in Hs; [destruct Hs as [<-|[]]; reflexivity|].
  apply in_flat_map in Hs as (x & _ & Hs). apply in_map_iff in Hs as (s' & <- & Hs). cbn. rewrite (IH _ Hs). reflexivity.
Qed.
Lemma nodup_map_in {A B} (f : A -> B) l : (forall x y, In x l -> In y l -> f x = f y -> x = y) -> NoDup l -> NoDup (map f l).
Proof.
  intros H. induction 1 as [|x l Hx Hl IH]; cbn; constructor.
  - intros Hi. apply in_map_iff in Hi as (y & E & Hy). apply Hx. rewrite (H x y); cbn; auto.
  - apply IH. intros. apply H; cbn; auto.
Qed.
Lemma inj_surj {A} (dec : forall x y : A, {x = y} + {x <> y}) (all : list A) n (f : list A -> list A) :
  (forall x, In x all) -> (forall s, length s = n -> length (f s) = n) ->
  (forall s s', length s = n -> length s' = n -> f s = f s' -> s = s') ->
  forall y, length y = n -> exists x, length x = n /\ f x = y.
Proof.
  intros Ha Hf Hi y Hy. set (l := nodup (list_eq_dec dec) (all_lists all n)).
  assert (Hl : forall s, In s l <-> length s = n).
  { intros s. unfold l. rewrite nodup_In. split; [apply all_lists_length|apply all_lists_in, Ha]. }
  assert (Hincl : incl l (map f l)).
  { apply NoDup_length_incl.
    - apply nodup_map_in; [|apply NoDup_nodup]. intros a b Ha' Hb'. apply Hi; apply Hl; assumption.
    - rewrite map_length. reflexivity.
    - intros s Hs. apply in_map_iff in Hs as (a & <- & Ha'). apply Hl, Hf, Hl, Ha'. }
  specialize (Hincl y (proj2 (Hl y) Hy)). apply in_map_iff in Hincl as (x & Ex & Hx). exists x. split; [apply Hl, Hx|exact Ex].
Qed.

Section perm.
  Context (K : field_ops) (L : field_laws K) (P : params K).
  Notation F := (F K). Notation "0" := (f0 K). Notation "1" := (f1 K).
  Notation "x + y" := (fadd K x y). Notation "x * y" := (fmul K x y).
  Notation "x - y" := (fsub K x y). Notation "- x" := (fneg K x).
  Add Field Kfield2 : (field_th K L).
  Notation t := (T K P). Notation d := (Z.to_nat (D K P)).
  Notation diag := (diagonal K t (MAT_INTERNAL_DIAG_M_1 K P)).
  Notation rc := (ROUND_CONSTANTS K P).
  Hypothesis Ht : supported t.
  Hypothesis Hd : (0 <= D K P < 256)%Z.
  Hypothesis Hdiag : length diag = t.
  Hypothesis Hrc : length rc = (ROUNDS_F K P + ROUNDS_P K P)%nat.
  Hypothesis Hrow : Forall (fun c => length c = t) rc.
  Notation pi := (poseidon2 K t d (ROUNDS_F K P) (ROUNDS_P K P) diag rc).

  Lemma t_pos : t <> 0%nat.
  Proof. unfold supported in Ht. intros E. rewrite E in Ht. cbn in Ht. lia. Qed.
  Lemma sbox_zip s c : length s = length c ->
    apply_sbox_external K P (add_zip K s c) = map (fun p => power K (fst p + snd p) d) (combine s c).
  Proof.
    revert c. induction s as [|x s IH]; intros [|y c] H; cbn in H; try discriminate; [reflexivity|].
    cbn [add_zip combine map apply_sbox_external]. f_equal; [apply fpow_ok; [exact L|exact Hd]|].
    apply IH. lia.
  Qed.
  Lemma external_round_ok r c s : nth_error rc r = Some c -> length c = t -> length s = t ->
    external_round K P r s = Some (full_round K t d c s).
  Proof.
    intros Hc Hl Hs. unfold external_round, add_rc_external. rewrite Hc. cbn [option_map bind].
    rewrite sbox_zip by congruence. apply matmul_external_ok; [exact L|exact Ht|].
    rewrite map_length, combine_length. lia.
  Qed.
  Lemma internal_round_ok r c s : nth_error rc r = Some c -> length c = t -> length s = t ->
    internal_round K P r s = Some (partial_round K t d diag c s).
  Proof.
    intros Hc Hl Hs. unfold internal_round, add_rc_internal. rewrite Hc. pose proof t_pos as Hp.
    destruct c as [|y c]; [cbn in Hl; lia|]. destruct s as [|x s]; [cbn in Hs; lia|].
    cbn [bind apply_sbox_internal]. unfold partial_round. cbn [first hd].
    rewrite fpow_ok by (exact L || exact Hd). apply matmul_internal_ok; [exact L|exact Ht|exact Hs|exact Hdiag].
  Qed.
  Lemma full_length c s : length (full_round K t d c s) = t.
  Proof. apply mat_vec_length. Qed.
  Lemma partial_length c s : length (partial_round K t d diag c s) = t.
  Proof. apply mat_vec_length. Qed.

  Lemma for_rounds_ok (body : nat -> list F -> option (list F)) (g : list F -> list F -> list F) :
    (forall r c s, nth_error rc r = Some c -> length c = t -> length s = t -> body r s = Some (g c s)) ->
    (forall c s, length (g c s) = t) ->
    forall n a s, (a + n <= length rc)%nat -> length s = t ->
    for_rounds K body a (a + n)%nat (Some s) = Some (fold_left (fun x c => g c x) (firstn n (skipn a rc)) s) /\
    length (fold_left (fun x c => g c x) (firstn n (skipn a rc)) s) = t.
  Proof.
    intros Hb Hg n. unfold for_rounds. induction n as [|n IH]; intros a s Ha Hs.
    - rewrite Nat.add_0_r, Nat.sub_diag. cbn. auto.
    - replace (a + S n - a)%nat with (S n) by lia. cbn [seq fold_left bind].
      destruct (nth_error rc a) as [c|] eqn:Ec; [|apply nth_error_None in Ec; lia].
      assert (Hc : length c = t) by (apply nth_error_In in Ec; rewrite Forall_forall in Hrow; apply Hrow, Ec).
      rewrite (Hb a c s Ec Hc Hs).
      assert (Es : skipn a rc = c :: skipn (S a) rc).
      { clear - Ec. revert a Ec. generalize rc. intros l. induction l as [|x l IHl]; intros [|a] E; cbn in E; try discriminate.
        - injection E as ->. reflexivity.
        - cbn [skipn]. rewrite (IHl a E). reflexivity. }
      rewrite Es. cbn [firstn fold_left].
      specialize (IH (S a) (g c s) ltac:(lia) (Hg c s)).
      replace (S a + n - S a)%nat with n in IH by lia. exact IH.
  Qed.
  Lemma permute_ok s : length s = t -> permute K P s = Some (pi s) /\ length (pi s) = t.
  Proof.
    intros Hs. unfold permute, poseidon2, partial_round_end, partial_round_start, rounds. cbv zeta.
    set (half := Nat.div (ROUNDS_F K P) 2).
    assert (Hh : half <= ROUNDS_F K P) by (apply Nat.div_le_upper_bound; lia).
    rewrite (matmul_external_ok K L P s Ht Hs). 
    set (s0 := mat_vec K t (M_E K t) s). assert (L0 : length s0 = t) by apply mat_vec_length.
    destruct (for_rounds_ok _ _ external_round_ok full_length half 0 s0 ltac:(lia) L0) as [E1 L1].
    rewrite Nat.add_0_l in E1. rewrite E1. change (skipn 0 rc) with rc in *.
    set (s1 := fold_left _ (firstn half rc) s0) in *.
    destruct (for_rounds_ok _ _ internal_round_ok partial_length (ROUNDS_P K P) half s1 ltac:(lia) L1) as [E2 L2].
    rewrite E2. set (s2 := fold_left _ (firstn (ROUNDS_P K P) (skipn half rc)) s1) in *.
    destruct (for_rounds_ok _ _ external_round_ok full_length (ROUNDS_F K P - half)%nat (half + ROUNDS_P K P)%nat s2 ltac:(lia) L2) as [E3 L3].
    replace (half + ROUNDS_P K P + (ROUNDS_F K P - half))%nat with (ROUNDS_F K P + ROUNDS_P K P)%nat in E3 by lia.
    rewrite E3. split; [reflexivity|exact L3].
  Qed.

  (** ** Injectivity *)
  Section injective.
    Hypothesis Hpow : forall x y, power K x d = power K y d -> x = y.
    Hypothesis Hreg : external_regular K t.
    Hypothesis Hdnz : Forall (fun x => x <> 0) diag.
    Hypothesis Hsum : 1 + sum_list K (map (inv0 K) diag) <> 0.

    Lemma sbox_inj c x y : power K (x + c) d = power K (y + c) d -> x = y.
    Proof.
      intros H. apply Hpow in H. transitivity (x + c - c); [ring|rewrite H; ring].
    Qed.
    Lemma full_inj c x y : length c = t -> length x = t -> length y = t -> full_round K t d c x = full_round K t d c y -> x = y.
    Proof.
      intros Hc Hx Hy H. apply M_E_inj in H; [|exact L|exact Ht|exact Hreg|rewrite map_length, combine_length; lia..].
      rewrite <- Hc in Hx, Hy. clear - Hx Hy H Hpow L. revert x y Hx Hy H.
      induction c as [|z c IH]; intros [|a x] [|b y] Hx Hy H; try discriminate; [reflexivity|].
      cbn in H. injection H as H1 H2. f_equal; [apply (sbox_inj z), H1|]. cbn in Hx, Hy. apply IH; [lia|lia|exact H2].
    Qed.
    Lemma M_I_inj_t n dg x y : length dg = n -> length x = n -> length y = n -> Forall (fun z => z <> 0) dg ->
      1 + sum_list K (map (inv0 K) dg) <> 0 -> mat_vec K n (M_I K dg) x = mat_vec K n (M_I K dg) y -> x = y.
    Proof. intros <-. apply M_I_inj, L. Qed.
    Lemma partial_inj c x y : length x = t -> length y = t -> partial_round K t d diag c x = partial_round K t d diag c y -> x = y.
    Proof.
      intros Hx Hy H. unfold partial_round in H.
      apply M_I_inj_t in H; [|exact Hdiag| | |exact Hdnz|exact Hsum].
      - destruct x as [|a x], y as [|b y]; cbn [first] in H; try discriminate; [reflexivity|].
        injection H as H1 H2. apply sbox_inj in H1. congruence.
      - rewrite <- Hx. destruct x; reflexivity.
      - rewrite <- Hy. destruct y; reflexivity.
    Qed.
    Lemma fold_inj (g : list F -> list F -> list F) cs :
      (forall c x y, In c cs -> length x = t -> length y = t -> g c x = g c y -> x = y) -> (forall c s, length (g c s) = t) ->
      forall x y, length x = t -> length y = t -> fold_left (fun x c => g c x) cs x = fold_left (fun x c => g c x) cs y -> x = y.
    Proof.
      intros Hg Hl. induction cs as [|c cs IH]; intros x y Hx Hy H; [exact H|]. cbn [fold_left] in H.
      apply IH in H; [|intros c' x' y' Hc'; apply Hg; cbn; auto|apply Hl|apply Hl].
      apply Hg in H; cbn; auto.
    Qed.
    Lemma in_firstn_rc n l c : incl l rc -> In c (firstn n l) -> length c = t.
    Proof. intros Hi Hc. rewrite Forall_forall in Hrow. apply Hrow, Hi. rewrite <- (firstn_skipn n l). apply in_or_app. auto. Qed.
    Lemma incl_skipn n : incl (skipn n rc) rc.
    Proof. intros x Hx. rewrite <- (firstn_skipn n rc). apply in_or_app. auto. Qed.
    Lemma fold_length (g : list F -> list F -> list F) cs s : (forall c s, length (g c s) = t) -> length s = t ->
      length (fold_left (fun x c => g c x) cs s) = t.
    Proof. intros Hl. revert s. induction cs as [|c cs IH]; intros s Hs; [exact Hs|]. cbn [fold_left]. apply IH, Hl. Qed.
    Lemma pi_inj x y : length x = t -> length y = t -> pi x = pi y -> x = y.
    Proof.
      intros Hx Hy H. unfold poseidon2 in H. cbv zeta in H. set (half := Nat.div (ROUNDS_F K P) 2) in *.
      assert (Hf : forall cs, incl cs rc -> forall n c x y, In c (firstn n cs) -> length x = t -> length y = t ->
                  full_round K t d c x = full_round K t d c y -> x = y).
      { intros cs Hi n c a b Hc. apply full_inj. eapply in_firstn_rc; eassumption. }
      apply fold_inj in H; [|apply Hf, incl_skipn|exact full_length|repeat apply fold_length; auto using full_length, partial_length, mat_vec_length..].
      apply fold_inj in H; [|intros c a b _; apply partial_inj|exact partial_length|repeat apply fold_length; auto using full_length, partial_length, mat_vec_length..].
      apply fold_inj in H; [|apply Hf; intros a Ha; exact Ha|exact full_length|auto using mat_vec_length..].
      apply M_E_inj in H; auto.
    Qed.
  End injective.
End perm.
