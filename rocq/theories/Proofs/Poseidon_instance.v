(** Loading the shipped parameter sets; conditions for the permutation to be one. *)
From Coq Require Import Ascii String ZArith List Bool Lia Znumtheory Zpow_facts Ring_theory.
From Verif Require Import Model.Uint Model.Fp Model.FieldInstances Model.Curve Model.Poseidon Model.PoseidonInstances.
From Verif Require Import Spec.Uint_spec Spec.Fp_spec Spec.Curve_spec Spec.Poseidon_spec.
From Verif Require Import Proofs.Uint_lemmas Proofs.Fp_lemmas Proofs.Fp_field Proofs.Lucas Proofs.Fermat Proofs.Instance_lemmas
  Proofs.Curve_lemmas Proofs.Poseidon_lemmas Proofs.Poseidon_perm Props.Uint_props.
Import ListNotations.
Open Scope Z_scope.

Fixpoint traverse {A B} (f : A -> option B) (l : list A) : option (list B) :=
  match l with
  | [] => Some []
  | x :: l' => match f x, traverse f l' with Some y, Some ys => Some (y :: ys) | _, _ => None end
  end.
Definition load (p : uint) (s : string) : option (elt p) :=
  match fp_from_hex p s with
  | Some u => match bool_dec (elementb p u) true with left H => Some (exist _ u H) | right _ => None end
  | None => None
  end.
Definition load_params (p : uint) Hp Hodd Hgt (i : instance) : option (params (fp_ops p Hp Hodd Hgt)) :=
  match traverse (load p) (i_diag i), traverse (traverse (load p)) (i_rc i) with
  | Some diag, Some rc => Some {| T := i_T i; D := i_D i; CAPACITY := i_capacity i; ROUNDS_F := i_rounds_f i;
      ROUNDS_P := i_rounds_p i; MAT_INTERNAL_DIAG_M_1 := diag : list (F (fp_ops p Hp Hodd Hgt)); ROUND_CONSTANTS := rc |}
  | _, _ => None
  end.

Definition hex_digit (c : Z) : Z := if c <=? 57 then c - 48 else if c <=? 90 then c - 55 else c - 87.
Definition hex_char (c : Z) : bool := ((48 <=? c) && (c <=? 57)) || ((97 <=? c) && (c <=? 102)) || ((65 <=? c) && (c <=? 70)).
Definition hex_value (s : list Z) : Z := fold_left (fun v c => 16 * v + hex_digit c) s 0.
Lemma hex_digit_ok c : hex_char c = true -> digit_value c = Some (hex_digit c) /\ hex_digit c < 16.
Proof.
  unfold hex_char, digit_value, hex_digit. intros H.
  destruct (Z.leb_spec 48 c), (Z.leb_spec c 57), (Z.leb_spec 97 c), (Z.leb_spec c 122), (Z.leb_spec c 102),
    (Z.leb_spec 65 c), (Z.leb_spec c 90), (Z.leb_spec c 70); cbn in H |- *; try discriminate; split; try reflexivity; lia.
Qed.
Lemma hex_denotes s : forallb hex_char s = true -> denotes 16 s (hex_value s).
Proof.
  unfold hex_value. induction s as [|c s IH] using rev_ind; intros H; [constructor|].
  rewrite forallb_app in H. apply andb_prop in H as [H1 H2]. cbn [forallb] in H2. rewrite andb_true_r in H2.
  rewrite fold_left_app. cbn [fold_left]. destruct (hex_digit_ok c H2). constructor; auto.
Qed.
Definition hex_ok (N : nat) (s : string) : bool :=
  forallb hex_char (chars s) && negb (Nat.eqb (length (chars s)) 0) && Nat.leb (length (chars s)) (16 * N).

(** Inverses of the diagonal [ds], and their sum. *)
Fixpoint inverses (P : Z) (ds es : list Z) : bool :=
  match ds, es with
  | [], [] => true
  | d :: ds', e :: es' => (0 <=? e) && (e <? P) && ((d * e) mod P =? 1) && inverses P ds' es'
  | _, _ => false
  end.
Definition zsum (l : list Z) : Z := fold_right Z.add 0 l.
Definition shape (i : instance) : bool :=
  (existsb (Nat.eqb (i_T i)) [2; 3; 4; 8; 12; 16; 20; 24])%nat && (0 <? i_D i) && (i_D i <? 256) &&
  Nat.ltb (i_capacity i) (i_T i) &&
  Nat.eqb (length (i_diag i)) (i_T i) && Nat.eqb (length (i_rc i)) (i_rounds_f i + i_rounds_p i) &&
  forallb (fun c => Nat.eqb (length c) (i_T i)) (i_rc i) &&
  forallb (hex_ok (p_limbs (i_field i))) (i_diag i) && forallb (forallb (hex_ok (p_limbs (i_field i)))) (i_rc i).
Definition diag_ok (i : instance) (P : Z) (es : list Z) : bool :=
  Nat.leb (i_T i) 3 || (inverses P (map (fun s => hex_value (chars s)) (i_diag i)) es && negb ((1 + zsum es) mod P =? 0)).
Definition sbox_ok (i : instance) (P e k : Z) : bool := (0 <=? e) && (0 <=? k) && (i_D i * e =? 1 + k * (P - 1)).

Lemma traverse_length {A B} (f : A -> option B) l l' : traverse f l = Some l' -> length l' = length l.
Proof.
  revert l'. induction l as [|x l IH]; intros l' H; cbn in H; [injection H as <-; reflexivity|].
  destruct (f x); [|discriminate]. destruct (traverse f l); [|discriminate]. injection H as <-. cbn. rewrite (IH _ eq_refl). reflexivity.
Qed.
Lemma traverse_all {A B} (f : A -> option B) l : (forall x, In x l -> exists y, f x = Some y) -> exists l', traverse f l = Some l'.
Proof.
  induction l as [|x l IH]; intros H; cbn; [eauto|]. destruct (H x ltac:(cbn; auto)) as [y ->].
  destruct IH as [l' ->]; [intros; apply H; cbn; auto|]. eauto.
Qed.
Lemma traverse_in {A B} (f : A -> option B) l l' y : traverse f l = Some l' -> In y l' -> exists x, In x l /\ f x = Some y.
Proof.
  revert l'. induction l as [|x l IH]; intros l' H Hy; cbn in H; [injection H as <-; contradiction|].
  destruct (f x) eqn:E; [|discriminate]. destruct (traverse f l); [|discriminate]. injection H as <-.
  destruct Hy as [<-|Hy]; [exists x; cbn; auto|]. destruct (IH _ eq_refl Hy) as (z & Hz & Ez). exists z. cbn. auto.
Qed.

Section instance.
  Context (p : uint) (Hp : limbs (length p) p) (Hodd : Z.odd (val p) = true) (Hgt : 1 < val p) (Hpr : prime (val p)).
  Notation K := (fp_ops p Hp Hodd Hgt). Notation P := (val p).
  Notation L := (fp_laws p Hp Hodd Hgt Hpr).
  Notation num := (num p).

  Lemma load_ok s : hex_ok (length p) s = true -> exists x, load p s = Some x /\ num x = hex_value (chars s) mod P.
  Proof.
    unfold hex_ok. intros H. apply andb_prop in H as [H H3]. apply andb_prop in H as [H1 H2].
    apply Nat.leb_le in H3. apply negb_true_iff, Nat.eqb_neq in H2. pose proof (hex_denotes _ H1) as Hd.
    unfold load, fp_from_hex.
    assert (exists u, from_str_hex (length p) (chars s) = Some u /\ limbs (length p) u /\ val u = hex_value (chars s)) as (u & -> & Lu & Vu).
    { assert (Hv : 0 <= hex_value (chars s) < 2 ^ (64 * Z.of_nat (length p))).
      { assert (G : forall s v, denotes 16 s v -> 0 <= v < 16 ^ Z.of_nat (length s)).
        { induction 1 as [|l v c dg Hl IH Hc Hlt]; [cbn; lia|]. rewrite app_length. cbn [length].
          replace (Z.of_nat (length l + 1)) with (Z.succ (Z.of_nat (length l))) by lia. rewrite Z.pow_succ_r by lia.
          pose proof (digit_value_bound _ _ Hc). lia. }
        destruct (G _ _ Hd) as [G1 G2]. split; [exact G1|]. eapply Z.lt_le_trans; [exact G2|].
        change 16 with (2 ^ 4). rewrite <- Z.pow_mul_r by lia. apply Z.pow_le_mono_r; lia. }
      destruct (limbs_exist (length p) (hex_value (chars s))) as (u & Lu & Vu); [rewrite Bp_pow2; exact Hv|].
      exists u. split; [|auto]. apply c59_from_str_hex_partial. split; [intros E; apply H2; rewrite E; reflexivity|].
      split; [exact H3|]. split; [exact Lu|]. rewrite Vu. exact Hd. }
    cbn [option_map]. destruct (from_ok p Hp Hodd Hgt u Lu) as [F1 F2].
    destruct (bool_dec _ _) as [E|N]; [|exfalso; apply N, elementb_iff, F1].
    eexists. split; [reflexivity|]. unfold Fp_field.num. cbn [proj1_sig]. rewrite F2, Vu. reflexivity.
  Qed.

  (** Numbers of field expressions *)
  Lemma num_power (x : elt p) n : num (power K x n) = num x ^ Z.of_nat n mod P.
  Proof.
    induction n as [|n IH]; cbn [power].
    - change (f1 K) with (e_one p Hp Hodd Hgt). rewrite num_one. rewrite Z.mod_small; [reflexivity|cbn; lia].
    - change (fmul K) with (e_mul p Hp Hodd Hgt). rewrite num_mul, IH, Z.mul_mod_idemp_l by lia.
      rewrite Nat2Z.inj_succ, Z.pow_succ_r by lia. f_equal. ring.
  Qed.
  Lemma num_of_nat n : num (of_nat K n) = Z.of_nat n mod P.
  Proof.
    induction n as [|n IH]; cbn [of_nat].
    - change (f0 K) with (e_zero p Hgt). rewrite (num_zero p Hp Hodd Hgt). symmetry. apply Z.mod_0_l. lia.
    - change (fadd K) with (e_add p Hp Hodd Hgt). change (f1 K) with (e_one p Hp Hodd Hgt).
      rewrite num_add, num_one, IH, Z.add_mod_idemp_l by lia. f_equal. lia.
  Qed.
  Lemma num_sum_list (l : list (elt p)) : num (sum_list K l) = zsum (map num l) mod P.
  Proof.
    induction l as [|x l IH]; cbn [map zsum fold_right sum_list].
    - change (f0 K) with (e_zero p Hgt). rewrite (num_zero p Hp Hodd Hgt). symmetry. apply Z.mod_0_l. lia.
    - change (fold_right (fadd K) (f0 K) l) with (sum_list K l). change (fadd K) with (e_add p Hp Hodd Hgt).
      rewrite num_add, IH, Z.add_mod_idemp_r by lia. reflexivity.
  Qed.
  Lemma num_nz (x : elt p) : num x <> 0 -> x <> f0 K.
  Proof. intros H E. apply H. rewrite E. apply (num_zero p Hp Hodd Hgt). Qed.
  Lemma small_nz n : 0 < Z.of_nat n < P -> of_nat K n <> f0 K.
  Proof. intros H. apply num_nz. rewrite num_of_nat, Z.mod_small; lia. Qed.

  Lemma diag_inverses ss es diag :
    forallb (hex_ok (length p)) ss = true -> traverse (load p) ss = Some diag ->
    inverses P (map (fun s => hex_value (chars s)) ss) es = true ->
    Forall (fun x => x <> f0 K) diag /\ map num (map (inv0 K) diag) = es.
  Proof.
    revert es diag. induction ss as [|s ss IH]; intros es diag Hs Ht Hi; cbn in Ht, Hi.
    - injection Ht as <-. destruct es; [|discriminate]. split; [constructor|reflexivity].
    - destruct es as [|e es]; [discriminate|]. cbn [forallb] in Hs. apply andb_prop in Hs as [Hs1 Hs2].
      destruct (load_ok s Hs1) as (x & Ex & Nx). rewrite Ex in Ht.
      destruct (traverse (load p) ss) as [l|] eqn:El; [|discriminate]. injection Ht as <-.
      apply andb_prop in Hi as [Hi Hi4]. apply andb_prop in Hi as [Hi Hi3]. apply andb_prop in Hi as [Hi1 Hi2].
      apply Z.leb_le in Hi1. apply Z.ltb_lt in Hi2. apply Z.eqb_eq in Hi3.
      destruct (IH es l Hs2 eq_refl Hi4) as [I1 I2].
      assert (Hx : num x <> 0).
      { intros E. rewrite Nx in E. rewrite Z.mul_mod, E, Z.mul_0_l, Z.mod_0_l in Hi3 by lia. discriminate. }
      split; [constructor; [apply num_nz, Hx|exact I1]|]. cbn [map]. f_equal; [|exact I2].
      unfold inv0. destruct (finv K x) as [y|] eqn:Ey; [|exfalso; apply (law_inv_zero K L) in Ey; revert Ey; apply num_nz, Hx].
      apply (law_inv K L) in Ey. apply (f_equal num) in Ey.
      change (fmul K x y) with (e_mul p Hp Hodd Hgt x y) in Ey. change (f1 K) with (e_one p Hp Hodd Hgt) in Ey.
      rewrite num_mul, num_one in Ey.
      assert (E2 : num x * num y mod P = num x * e mod P) by (rewrite Ey, Nx, Z.mul_mod_idemp_l by lia; congruence).
      apply cancel_mod in E2; [|exact Hpr|].
      + rewrite !Z.mod_small in E2; [exact E2|lia|apply (num_bound p Hp Hodd Hgt)].
      + intros D. apply Z.divide_pos_le in D; pose proof (num_bound p Hp Hodd Hgt x); lia.
  Qed.

  Lemma finite_below n : exists all : list (elt p), forall x, num x < Z.of_nat n -> In x all.
  Proof.
    induction n as [|n [all IH]].
    - exists []. intros x Hx. pose proof (num_bound p Hp Hodd Hgt x). lia.
    - destruct (bool_dec (Z.of_nat n <? P) true) as [Hn|Hn].
      + apply Z.ltb_lt in Hn. pose proof (val_bound _ _ Hp) as Hb.
        destruct (limbs_exist (length p) (Z.of_nat n) ltac:(lia)) as (u & Lu & Vu).
        destruct (from_ok p Hp Hodd Hgt u Lu) as [F1 F2]. exists (mk p _ F1 :: all). intros x Hx.
        destruct (Z.eq_dec (num x) (Z.of_nat n)) as [E|E]; [left|right; apply IH; lia].
        apply (num_inj p Hp Hodd Hgt). unfold Fp_field.num at 1, mk. cbn [proj1_sig].
        rewrite F2, Vu, Z.mod_small by lia. symmetry. exact E.
      + exists all. intros x Hx. apply IH. pose proof (num_bound p Hp Hodd Hgt x).
        apply not_true_is_false, Z.ltb_ge in Hn. lia.
  Qed.
  Lemma finite_elt : exists all : list (elt p), forall x, In x all.
  Proof.
    destruct (finite_below (Z.to_nat P)) as [all H]. exists all. intros x. apply H.
    pose proof (num_bound p Hp Hodd Hgt x). lia.
  Qed.

  Context (i : instance) (es : list Z) (e k : Z).
  Hypothesis Hlen : length p = p_limbs (i_field i).
  Hypothesis Hbig : 7 < P.
  Hypothesis Hshape : shape i = true.
  Hypothesis Hdiag : diag_ok i P es = true.
  Hypothesis Hsbox : sbox_ok i P e k = true.

  Lemma loads : exists PP, load_params p Hp Hodd Hgt i = Some PP /\
    T K PP = i_T i /\ D K PP = i_D i /\ CAPACITY K PP = i_capacity i /\ ROUNDS_F K PP = i_rounds_f i /\ ROUNDS_P K PP = i_rounds_p i /\
    length (MAT_INTERNAL_DIAG_M_1 K PP) = i_T i /\ length (ROUND_CONSTANTS K PP) = (i_rounds_f i + i_rounds_p i)%nat /\
    Forall (fun c => length c = i_T i) (ROUND_CONSTANTS K PP) /\
    ((i_T i <= 3)%nat \/ Forall (fun x => x <> f0 K) (MAT_INTERNAL_DIAG_M_1 K PP) /\
      fadd K (f1 K) (sum_list K (map (inv0 K) (MAT_INTERNAL_DIAG_M_1 K PP))) <> f0 K).
  Proof.
    unfold shape in Hshape. rewrite !andb_true_iff in Hshape. rewrite <- Hlen in Hshape.
    destruct Hshape as [[[[[[[[S1 S2] S3] S4] S5] S6] S7] S8] S9].
    apply Nat.eqb_eq in S5, S6. rewrite forallb_forall in S7, S9.
    destruct (traverse_all (load p) (i_diag i)) as [diag Ed].
    { intros x Hx. destruct (load_ok x) as (y & -> & _); [|eauto]. rewrite forallb_forall in S8. apply S8, Hx. }
    destruct (traverse_all (traverse (load p)) (i_rc i)) as [rc Er].
    { intros x Hx. apply traverse_all. intros z Hz. destruct (load_ok z) as (y & -> & _); [|eauto].
      specialize (S9 x Hx). rewrite forallb_forall in S9. apply S9, Hz. }
    unfold load_params. rewrite Ed, Er. eexists. split; [reflexivity|].
    cbn [T D CAPACITY ROUNDS_F ROUNDS_P MAT_INTERNAL_DIAG_M_1 ROUND_CONSTANTS]. do 5 (split; [reflexivity|]).
    split; [exact (eq_trans (traverse_length _ _ _ Ed) S5)|]. split; [exact (eq_trans (traverse_length _ _ _ Er) S6)|].
    split.
    { apply Forall_forall. intros c Hc. destruct (traverse_in _ _ _ _ Er Hc) as (x & Hx & Ex).
      refine (eq_trans (traverse_length _ _ _ Ex) _). apply Nat.eqb_eq, S7, Hx. }
    unfold diag_ok in Hdiag. apply orb_prop in Hdiag as [H|H]; [left; apply Nat.leb_le, H|right].
    apply andb_prop in H as [H1 H2]. destruct (diag_inverses _ _ _ S8 Ed H1) as [D1 D2]. split; [exact D1|].
    apply num_nz. change (fadd K) with (e_add p Hp Hodd Hgt). rewrite num_add. change (f1 K) with (e_one p Hp Hodd Hgt).
    rewrite num_one. rewrite num_sum_list, D2, Z.add_mod_idemp_r by lia. apply negb_true_iff, Z.eqb_neq in H2. exact H2.
  Qed.

  (** The conditions of [Proofs/Poseidon_perm.v]. *)
  Lemma conditions PP : load_params p Hp Hodd Hgt i = Some PP ->
    supported (T K PP) /\ (0 <= D K PP < 256) /\ (CAPACITY K PP < T K PP)%nat /\
    length (diagonal K (T K PP) (MAT_INTERNAL_DIAG_M_1 K PP)) = T K PP /\
    length (ROUND_CONSTANTS K PP) = (ROUNDS_F K PP + ROUNDS_P K PP)%nat /\
    Forall (fun c => length c = T K PP) (ROUND_CONSTANTS K PP) /\
    (forall x y, power K x (Z.to_nat (D K PP)) = power K y (Z.to_nat (D K PP)) -> x = y) /\
    external_regular K (T K PP) /\
    Forall (fun x => x <> f0 K) (diagonal K (T K PP) (MAT_INTERNAL_DIAG_M_1 K PP)) /\
    fadd K (f1 K) (sum_list K (map (inv0 K) (diagonal K (T K PP) (MAT_INTERNAL_DIAG_M_1 K PP)))) <> f0 K.
  Proof.
    intros E. destruct loads as (PP' & E' & H1 & H2 & H3 & H4 & H5 & H6 & H7 & H8 & H9).
    rewrite E in E'. injection E' as <-. rewrite H1, H2, H3, H4, H5.
    unfold shape in Hshape. rewrite !andb_true_iff in Hshape.
    destruct Hshape as [[[[[[[[S1 S2] S3] S4] _] _] _] _] _].
    apply Z.ltb_lt in S2, S3. apply Nat.ltb_lt in S4.
    assert (Hs : supported (i_T i)).
    { unfold supported. apply existsb_exists in S1 as (x & Hx & Ex). apply Nat.eqb_eq in Ex. rewrite Ex. exact Hx. }
    split; [exact Hs|]. split; [lia|]. split; [exact S4|].
    assert (small : forall n, 0 < Z.of_nat n <= 7 -> of_nat K n <> f0 K) by (intros n Hn; apply small_nz; lia).
    assert (R2 : fadd K (f1 K) (f1 K) <> f0 K) by apply (law_two K L).
    assert (HL := L).
    assert (Hdl : length (diagonal K (i_T i) (MAT_INTERNAL_DIAG_M_1 K PP)) = i_T i).
    { destruct (i_T i) as [|[|[|[|?]]]]; try reflexivity; exact H6. }
    split; [exact Hdl|]. split; [exact H7|]. split; [exact H8|]. split.
    { unfold sbox_ok in Hsbox. rewrite !andb_true_iff in Hsbox. destruct Hsbox as [[B1 B2] B3].
      apply Z.leb_le in B1, B2. apply Z.eqb_eq in B3. intros x y Exy. apply (f_equal num) in Exy.
      rewrite !num_power, Z2Nat.id in Exy by lia. apply (num_inj p Hp Hodd Hgt).
      apply (power_inj P (i_D i) e k); auto; apply (num_bound p Hp Hodd Hgt). }
    split.
    { unfold external_regular. unfold supported in Hs. cbn in Hs.
      destruct Hs as [<-|[<-|[<-|[<-|[<-|[<-|[<-|[<-|[]]]]]]]]]; apply small; cbn; lia. }
    destruct (Nat.eq_dec (i_T i) 2) as [E2|E2]; [|destruct (Nat.eq_dec (i_T i) 3) as [E3|E3]].
    - rewrite E2. cbn [diagonal]. split; [|apply (diag2_ok K HL), small; lia].
      repeat apply Forall_cons; [apply (law_one_zero K HL)|exact R2|apply Forall_nil].
    - rewrite E3. cbn [diagonal]. split; [|apply (diag3_ok K HL), small; lia].
      repeat apply Forall_cons; [apply (law_one_zero K HL)..|exact R2|apply Forall_nil].
    - assert (diagonal K (i_T i) (MAT_INTERNAL_DIAG_M_1 K PP) = MAT_INTERNAL_DIAG_M_1 K PP) as ->.
      { destruct (i_T i) as [|[|[|[|?]]]]; try reflexivity; lia. }
      destruct H9 as [H9|H9]; [|exact H9]. unfold supported in Hs. cbn in Hs. lia.
  Qed.
End instance.
