(** Poseidon2 over the model's field is Poseidon2 over the integers. *)
From Coq Require Import Ascii String ZArith List Bool Lia Znumtheory Arith.
From Verif Require Import Model.Uint Model.Fp Model.FieldInstances Model.Curve Model.Poseidon Model.PoseidonInstances.
From Verif Require Import Spec.Uint_spec Spec.Fp_spec Spec.Curve_spec Spec.Poseidon_spec Spec.PoseidonInt_spec.
From Verif Require Import Proofs.Uint_lemmas Proofs.Fp_lemmas Proofs.Fp_field Proofs.Instance_lemmas Proofs.Curve_lemmas
  Proofs.Poseidon_lemmas Proofs.Poseidon_perm Proofs.Poseidon_sponge Proofs.Poseidon_instance Props.Uint_props.
Import Model.Poseidon Spec.Poseidon_spec ListNotations.
Open Scope list_scope.
Open Scope nat_scope.

Section hom.
  Context (K K' : field_ops) (f : F K -> F K').
  Hypothesis H0 : f (f0 K) = f0 K'.
  Hypothesis H1 : f (f1 K) = f1 K'.
  Hypothesis Hadd : forall x y, f (fadd K x y) = fadd K' (f x) (f y).
  Hypothesis Hmul : forall x y, f (fmul K x y) = fmul K' (f x) (f y).
  Lemma hom_of_nat n : f (of_nat K n) = of_nat K' n.
  Proof. induction n; cbn [of_nat]; [exact H0|]. rewrite Hadd, IHn, H1. reflexivity. Qed.
  Lemma hom_power x n : f (power K x n) = power K' (f x) n.
  Proof. induction n; cbn [power]; [exact H1|]. rewrite Hmul, IHn. reflexivity. Qed.
  Lemma hom_sum l : f (sum_list K l) = sum_list K' (map f l).
  Proof. induction l; cbn [sum_list fold_right map]; [exact H0|]. fold (sum_list K l). rewrite Hadd, IHl. reflexivity. Qed.
  Lemma hom_nth j x : nth j (map f x) (f0 K') = f (nth j x (f0 K)).
  Proof. rewrite <- H0. apply map_nth. Qed.
  Lemma hom_mat_vec t M M' x : (forall i j, f (M i j) = M' i j) -> map f (mat_vec K t M x) = mat_vec K' t M' (map f x).
  Proof.
    intros HM. unfold mat_vec. rewrite map_map. apply map_ext. intros i. rewrite hom_sum, map_map. f_equal.
    apply map_ext. intros j. rewrite Hmul, HM, hom_nth. reflexivity.
  Qed.
  Lemma hom_M_E t i j : f (M_E K t i j) = M_E K' t i j.
  Proof.
    unfold M_E, M4. destruct (t <? 4); [apply hom_of_nat|]. destruct (t =? 4); [apply hom_of_nat|].
    rewrite Hmul, !hom_of_nat. reflexivity.
  Qed.
  Lemma hom_M_I diag i j : f (M_I K diag i j) = M_I K' (map f diag) i j.
  Proof. unfold M_I. destruct (i =? j); [|exact H1]. rewrite Hadd, H1, hom_nth. reflexivity. Qed.
  Lemma hom_diagonal t diag : map f (diagonal K t diag) = diagonal K' t (map f diag).
  Proof. unfold diagonal. destruct t as [|[|[|[|t]]]]; cbn [map]; rewrite ?Hadd, ?H1; reflexivity. Qed.
  Lemma hom_full t d c x : map f (full_round K t d c x) = full_round K' t d (map f c) (map f x).
  Proof.
    unfold full_round. rewrite (hom_mat_vec t _ (M_E K' t)) by apply hom_M_E. f_equal. rewrite map_map.
    revert c. induction x as [|a x IH]; intros [|b c]; cbn [combine map fst snd]; auto. rewrite hom_power, Hadd, IH. reflexivity.
  Qed.
  Lemma hom_partial t d diag c x : map f (partial_round K t d diag c x) = partial_round K' t d (map f diag) (map f c) (map f x).
  Proof.
    unfold partial_round. rewrite (hom_mat_vec t _ (M_I K' (map f diag))) by apply hom_M_I. f_equal.
    destruct x as [|a x]; cbn [first map]; auto. rewrite hom_power, Hadd. destruct c; cbn [hd map]; rewrite ?H0; reflexivity.
  Qed.
  Lemma hom_fold (A B : Type) (g : list (F K) -> A -> list (F K)) (g' : list (F K') -> B -> list (F K')) (h : A -> B) :
    (forall x c, map f (g x c) = g' (map f x) (h c)) ->
    forall l x, map f (fold_left g l x) = fold_left g' (map h l) (map f x).
  Proof. intros H l. induction l as [|c l IH]; intros x; cbn; auto. rewrite IH, H. reflexivity. Qed.
  Lemma hom_poseidon2 t d rf rp diag rc x :
    map f (poseidon2 K t d rf rp diag rc x) = poseidon2 K' t d rf rp (map f diag) (map (map f) rc) (map f x).
  Proof.
    assert (A := fun l x => hom_fold _ _ _ (fun x c => full_round K' t d c x) (map f) (fun x c => hom_full t d c x) l x).
    assert (B := fun l x => hom_fold _ _ _ (fun x c => partial_round K' t d (map f diag) c x) (map f) (fun x c => hom_partial t d diag c x) l x).
    unfold poseidon2. rewrite A, B, A.
    rewrite (hom_mat_vec t _ (M_E K' t)) by apply hom_M_E. rewrite !skipn_map, !firstn_map. reflexivity.
  Qed.

  Context (pi : list (F K) -> list (F K)) (pi' : list (F K') -> list (F K')) (t cap : nat).
  Hypothesis Hpi : forall s, map f (pi s) = pi' (map f s).
  Lemma hom_add_block s : forall b, map f (add_block K s b) = add_block K' (map f s) (map f b).
  Proof. induction s as [|x s IH]; intros [|y b]; cbn; auto. rewrite Hadd, IH. reflexivity. Qed.
  Lemma hom_inject s b : map f (inject K cap s b) = inject K' cap (map f s) (map f b).
  Proof. unfold inject. rewrite map_app, firstn_map, hom_add_block, skipn_map. reflexivity. Qed.
  Lemma map_repeat x n : map f (repeat x n) = repeat (f x) n.
  Proof. induction n; cbn; congruence. Qed.
  Lemma hom_absorbs l s : absorbs K pi t cap l s -> absorbs K' pi' t cap (map f l) (map f s).
  Proof.
    induction 1 as [b Hb|l s b Hl IH Hn Hm Hne Hb].
    - rewrite hom_inject, map_repeat, H0. apply absorbs_first. rewrite map_length. exact Hb.
    - rewrite map_app, hom_inject, Hpi. apply absorbs_block; rewrite ?map_length; auto. destruct b; [contradiction|discriminate].
  Qed.
  Lemma hom_output s n : f (output K pi t cap s n) = output K' pi' t cap (map f s) n.
  Proof.
    unfold output. rewrite <- hom_nth. f_equal. generalize (S (n / (t - cap))). intros k. induction k as [|k IH]; cbn [iterate]; auto.
    rewrite Hpi, IH. reflexivity.
  Qed.
End hom.

Lemma blocks_fuel r l : 0 < r -> forall fuel, length l <= fuel -> blocks_of fuel r l = blocks_of (length l) r l.
Proof.
  intros Hr. remember (length l) as n eqn:E. revert l E. induction n as [n IH] using (well_founded_induction lt_wf).
  intros l -> fuel Hf. destruct l as [|x l]; [destruct fuel; reflexivity|]. destruct fuel as [|fuel]; [cbn in Hf; lia|].
  cbn [length blocks_of]. f_equal. set (m := skipn r (x :: l)).
  assert (Hm : length m <= length l) by (unfold m; rewrite skipn_length; cbn [length]; lia).
  rewrite (IH (length m) ltac:(cbn [length]; lia) m eq_refl fuel) by (cbn [length] in Hf; lia).
  symmetry. apply (IH (length m)); cbn [length]; auto; lia.
Qed.
Lemma blocks_app r l b : 0 < r -> length l mod r = 0 -> b <> [] -> length b <= r ->
  blocks_of (length (l ++ b)) r (l ++ b) = blocks_of (length l) r l ++ [b].
Proof.
  intros Hr Hl Hb Hlen. apply Nat.mod_divides in Hl; [|lia]. destruct Hl as [k Hk]. revert l Hk.
  induction k as [|k IH]; intros l Hk.
  - rewrite Nat.mul_0_r in Hk. destruct l; [|discriminate]. cbn [app length blocks_of]. destruct b as [|y b]; [contradiction|].
    cbn [length blocks_of]. rewrite firstn_all2 by exact Hlen. rewrite skipn_all2 by exact Hlen. destruct (length b); reflexivity.
  - destruct l as [|x l]; [cbn in Hk; nia|]. cbn [app length blocks_of].
    assert (Hr' : r <= length (x :: l)) by nia.
    change (x :: l ++ b) with ((x :: l) ++ b). rewrite firstn_app, skipn_app.
    replace (r - length (x :: l)) with 0 by lia. cbn [firstn]. rewrite app_nil_r, skipn_O. f_equal.
    set (m := skipn r (x :: l)). assert (Hm : length m = r * k) by (unfold m; rewrite skipn_length; nia).
    rewrite blocks_fuel by (auto; rewrite !app_length; cbn [length] in Hk; nia). rewrite (IH m Hm). f_equal.
    symmetry. apply blocks_fuel; auto. cbn [length] in Hk; nia.
Qed.

Lemma blocks_nil n r : blocks_of n r [] = [].
Proof. destruct n; reflexivity. Qed.
Section int.
  Context (i : instance).
  Notation P := (modulus_of i). Notation K' := (Zp P). Notation t := (i_T i). Notation cap := (i_capacity i).
  Hypothesis Hcap : cap < t.
  Lemma absorbs_state l s : absorbs K' (permutation i) t cap l s -> s = absorbed_state i l.
  Proof.
    induction 1 as [b Hb|l s b Hl IH Hn Hm Hne Hb]; unfold absorbed_state in *.
    - destruct b as [|x b]; [cbn [length blocks_of]; unfold inject; replace (add_block K' (skipn cap (repeat (f0 K') t)) []) with (skipn cap (repeat (f0 K') t)) by (destruct (skipn cap (repeat (f0 K') t)); reflexivity); apply firstn_skipn|].
      cbn [length blocks_of]. rewrite firstn_all2, skipn_all2 by exact Hb. rewrite blocks_nil. reflexivity.
    - change (F K') with Z in *. rewrite blocks_app by (auto; lia). rewrite IH. destruct (blocks_of (length l) (t - cap) l) as [|c bs] eqn:E.
      + destruct l; [cbn in Hn; lia|discriminate].
      + cbn [app]. rewrite fold_left_app. reflexivity.
  Qed.
End int.

(** The texts of a parameter set are read as the numbers they denote. *)
Lemma denotes_number radix s v : denotes radix (chars s) v -> number radix s = v.
Proof.
  unfold chars, number. intros H.
  remember (map (fun c => Z.of_N (N_of_ascii c)) (list_ascii_of_string s)) as l eqn:E. revert E.
  generalize (list_ascii_of_string s). clear s.
  induction H as [|l v c d Hl IH Hd Hlt]; intros m E.
  - destruct m; [reflexivity|discriminate].
  - destruct m as [|x m _] using rev_ind; [destruct l; discriminate|]. rewrite map_app in E. cbn [map] in E.
    apply app_inj_tail in E as [E1 E2]. rewrite fold_left_app. cbn [fold_left]. rewrite (IH m E1). f_equal.
    unfold digit. rewrite <- E2. unfold digit_value in Hd.
    destruct (Z.leb_spec 48 c), (Z.leb_spec c 57), (Z.leb_spec 97 c), (Z.leb_spec c 122), (Z.leb_spec 65 c), (Z.leb_spec c 90);
      cbn in Hd; try discriminate; injection Hd as <-; lia.
Qed.
Lemma modulus_number i p : (0 < p_limbs (i_field i))%nat -> MODULUS (i_field i) = Some p ->
  length p = p_limbs (i_field i) /\ val p = modulus_of i.
Proof.
  intros HN E. unfold MODULUS, from_num in E. apply c59_from_str_radix_partial in E; [|exact HN|lia].
  destruct E as (_ & _ & L & Hd). split; [apply (limbs_len _ _ L)|]. symmetry. apply denotes_number. exact Hd.
Qed.

Section load.
  Context (p : uint) (Hp : limbs (length p) p) (Hodd : Z.odd (val p) = true) (Hgt : (1 < val p)%Z).
  Context (i : instance) (HP : val p = modulus_of i).
  Lemma load_num s x : load p s = Some x -> num p x = constant i s.
  Proof.
    unfold load, fp_from_hex, constant. intros E. destruct (from_str_hex (length p) (chars s)) as [u|] eqn:Eu; [|discriminate].
    apply c59_from_str_hex_partial in Eu as (_ & _ & Lu & Hd). cbn [option_map] in E.
    destruct (from_ok p Hp Hodd Hgt u Lu) as [_ F2]. destruct (bool_dec _ _); [|discriminate]. injection E as <-.
    unfold Fp_field.num. cbn [proj1_sig]. rewrite F2, <- HP, (denotes_number _ _ _ Hd). reflexivity.
  Qed.
  Lemma traverse_num ss l : traverse (load p) ss = Some l -> map (num p) l = map (constant i) ss.
  Proof.
    revert l. induction ss as [|s ss IH]; intros l E; cbn in E; [injection E as <-; reflexivity|].
    destruct (load p s) as [x|] eqn:Ex; [|discriminate].
    destruct (traverse (load p) ss) as [l'|]; [|discriminate]. injection E as <-. cbn.
    rewrite (load_num s x Ex), (IH l' eq_refl). reflexivity.
  Qed.
  Lemma traverse_nums sss l : traverse (traverse (load p)) sss = Some l ->
    map (map (num p)) l = map (map (constant i)) sss.
  Proof.
    revert l. induction sss as [|ss sss IH]; intros l E; cbn in E; [injection E as <-; reflexivity|].
    destruct (traverse (load p) ss) as [x|] eqn:Ex; [|discriminate].
    destruct (traverse (traverse (load p)) sss) as [l'|]; [|discriminate]. injection E as <-. cbn.
    rewrite (traverse_num ss x Ex), (IH l' eq_refl). reflexivity.
  Qed.
  Notation K := (fp_ops p Hp Hodd Hgt).
  Lemma load_permutation PP s : load_params p Hp Hodd Hgt i = Some PP ->
    map (num p) (poseidon2 K (i_T i) (Z.to_nat (i_D i)) (i_rounds_f i) (i_rounds_p i)
                (diagonal K (i_T i) (MAT_INTERNAL_DIAG_M_1 K PP)) (ROUND_CONSTANTS K PP) s) = permutation i (map (num p) s).
  Proof.
    intros E. unfold load_params in E. destruct (traverse (load p) (i_diag i)) as [diag|] eqn:Ed; [|discriminate].
    destruct (traverse (traverse (load p)) (i_rc i)) as [rc|] eqn:Er; [|discriminate]. injection E as <-.
    cbn [MAT_INTERNAL_DIAG_M_1 ROUND_CONSTANTS]. unfold permutation. rewrite <- (traverse_num _ _ Ed), <- (traverse_nums _ _ Er), <- HP.
    rewrite (hom_poseidon2 K (Zp (val p)) (num p)).
    - rewrite (hom_diagonal K (Zp (val p)) (num p)); [reflexivity|apply num_one|].
      intros x y. cbn. apply num_add.
    - apply (num_zero p Hp Hodd Hgt).
    - apply (num_one p Hp Hodd Hgt).
    - apply (num_add p Hp Hodd Hgt).
    - apply (num_mul p Hp Hodd Hgt).
  Qed.
End load.
