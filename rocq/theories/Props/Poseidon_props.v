(** C65, C66: the Poseidon2 permutation and sponge. *)
From Coq Require Import Ascii String ZArith List Bool Lia Znumtheory Ring_theory Ring Field.
From Verif Require Import Model.Uint Model.Fp Model.FieldInstances Model.Curve Model.Poseidon Model.PoseidonInstances.
From Verif Require Import Spec.Uint_spec Spec.Fp_spec Spec.Curve_spec Spec.Poseidon_spec.
From Verif Require Import Proofs.Uint_lemmas Proofs.Fp_lemmas Proofs.Fp_field Proofs.Instance_lemmas Proofs.Curve_lemmas
  Proofs.Poseidon_lemmas Proofs.Poseidon_perm Proofs.Poseidon_sponge Proofs.Poseidon_instance
  Proofs.Root_vesta Proofs.Root_baby_bear Proofs.Root_bls12 Proofs.Root_bn256 Proofs.Root_goldilocks Proofs.Root_pallas.
Import Model.Poseidon Spec.Poseidon_spec ListNotations.
Open Scope list_scope.
Open Scope nat_scope.

(** ** C65: linear layers, rounds *)
Theorem c65_external_layer K (L : field_laws K) P s : supported (T K P) -> length s = T K P ->
  matmul_external K P s = Some (mat_vec K (T K P) (M_E K (T K P)) s).
Proof. exact (matmul_external_ok K L P s). Qed.
Print Assumptions c65_external_layer.
Theorem c65_internal_layer K (L : field_laws K) P s :
  let t := T K P in let diag := diagonal K t (MAT_INTERNAL_DIAG_M_1 K P) in
  supported t -> length s = t -> length diag = t ->
  matmul_internal K P s = Some (mat_vec K t (M_I K diag) s).
Proof. exact (matmul_internal_ok K L P s). Qed.
Print Assumptions c65_internal_layer.
Theorem c65_permute K (L : field_laws K) P s :
  let t := T K P in let diag := diagonal K t (MAT_INTERNAL_DIAG_M_1 K P) in
  supported t -> (0 <= D K P < 256)%Z -> length diag = t ->
  length (ROUND_CONSTANTS K P) = ROUNDS_F K P + ROUNDS_P K P -> Forall (fun c => length c = t) (ROUND_CONSTANTS K P) ->
  length s = t ->
  permute K P s = Some (poseidon2 K t (Z.to_nat (D K P)) (ROUNDS_F K P) (ROUNDS_P K P) diag (ROUND_CONSTANTS K P) s).
Proof. intros t diag H1 H2 H3 H4 H5 H6. apply (permute_ok K L P H1 H2 H3 H4 H5 s H6). Qed.
Print Assumptions c65_permute.
(** Any other width panics. *)
Theorem c65_unsupported K P s : ~ supported (T K P) -> permute K P s = None.
Proof.
  intros H. unfold permute.
  assert (E : matmul_external K P s = None).
  { unfold matmul_external, supported in *. set (t := T K P) in *. clearbody t. cbn [In] in H.
    do 25 (destruct t as [|t]; [first [reflexivity|exfalso; apply H; tauto]|]). reflexivity. }
  rewrite E. cbv zeta. unfold for_rounds.
  assert (N : forall (body : nat -> list (F K) -> option (list (F K))) l, fold_left (fun s round => bind s (body round)) l None = (None : option (list (F K)))).
  { intros body l. induction l; auto. }
  rewrite !N. reflexivity.
Qed.
Print Assumptions c65_unsupported.

(** ** C65: bijectivity *)
(** Over a finite field in which [x -> x^d] is injective, the external matrix is regular
    and the internal one is. *)
Theorem c65_bijective K (L : field_laws K) P :
  let t := T K P in let diag := diagonal K t (MAT_INTERNAL_DIAG_M_1 K P) in
  supported t -> (0 <= D K P < 256)%Z -> length diag = t ->
  length (ROUND_CONSTANTS K P) = ROUNDS_F K P + ROUNDS_P K P -> Forall (fun c => length c = t) (ROUND_CONSTANTS K P) ->
  (exists all : list (F K), forall x, In x all) ->
  (forall x y, power K x (Z.to_nat (D K P)) = power K y (Z.to_nat (D K P)) -> x = y) ->
  of_nat K (if Nat.leb t 3 then S t else S (Nat.div t 4)) <> f0 K ->
  Forall (fun x => x <> f0 K) diag ->
  fadd K (f1 K) (sum_list K (map (inv0 K) diag)) <> f0 K ->
  bijective_on K t (permute K P).
Proof.
  intros t diag H1 H2 H3 H4 H5 [all Hall] H6 H7 H8 H9.
  pose proof (permute_ok K L P H1 H2 H3 H4 H5) as Hok.
  pose proof (pi_inj K L P H1 H3 H4 H5 H6 H7 H8 H9) as Hinj.
  fold t diag in Hok, Hinj. set (pi := poseidon2 _ _ _ _ _ _ _) in *.
  split; [|split].
  - intros s Hs. exists (pi s). apply Hok, Hs.
  - intros s s' Hs Hs' E. rewrite (proj1 (Hok s Hs)), (proj1 (Hok s' Hs')) in E. injection E as E. apply Hinj; assumption.
  - intros y Hy.
    assert (dec : forall x y : F K, {x = y} + {x <> y}).
    { intros a b. destruct (feqb K a b) eqn:E; [left; apply (law_eqb K L), E|right; intros Eq; apply (law_eqb K L) in Eq; congruence]. }
    destruct (inj_surj dec all t pi Hall (fun s Hs => proj2 (Hok s Hs)) Hinj y Hy) as (x & Hx & <-).
    exists x. split; [exact Hx|apply Hok, Hx].
Qed.
Print Assumptions c65_bijective.

(** The properties of a shipped parameter set. *)
Definition shipped (i : instance) : Prop :=
  exists p Hp Hodd Hgt PP, MODULUS (i_field i) = Some p /\ prime (val p) /\
    load_params p Hp Hodd Hgt i = Some PP /\
    let K := fp_ops p Hp Hodd Hgt in
    let t := i_T i in
    let pi := poseidon2 K t (Z.to_nat (i_D i)) (i_rounds_f i) (i_rounds_p i)
                (diagonal K t (MAT_INTERNAL_DIAG_M_1 K PP)) (ROUND_CONSTANTS K PP) in
    T K PP = t /\ CAPACITY K PP = i_capacity i /\ i_capacity i < t /\
    (forall s, length s = t -> permute K PP s = Some (pi s)) /\
    bijective_on K t (permute K PP).
Lemma shipped_ok i P g : primitive_root P g -> forall es e k,
  ((0 <? p_limbs (i_field i))%nat && (7 <? P)%Z &&
   (match chars (p_modulus (i_field i)) with [] => false | c :: _ => 48 <? c end &&
    is_dec (chars (p_modulus (i_field i))) && (dec_value (chars (p_modulus (i_field i))) =? P) &&
    (P <? modulus (p_limbs (i_field i))))%Z &&
   shape i && diag_ok i P es && sbox_ok i P e k) = true -> shipped i.
Proof.
  intros [Hpr _] es e k H. rewrite !andb_true_iff in H.
  destruct H as [[[[[H1 H2] H3] H4] H5] H6]. apply Nat.ltb_lt in H1. apply Z.ltb_lt in H2.
  assert (H3' : ((match chars (p_modulus (i_field i)) with [] => false | c :: _ => 48 <? c end &&
    is_dec (chars (p_modulus (i_field i))) && (dec_value (chars (p_modulus (i_field i))) =? P) &&
    (P <? modulus (p_limbs (i_field i))))%Z = true)) by (rewrite !andb_true_iff; exact H3).
  destruct (from_num_ok _ _ _ H1 H3') as (p & E1 & L1 & V1). clear H3 H3'.
  pose proof (limbs_len _ _ L1) as Len. rewrite <- Len in L1. subst P.
  assert (Hodd : Z.odd (val p) = true).
  { rewrite <- Z.negb_even. destruct (Z.even (val p)) eqn:E; [|auto]. apply Z.even_spec in E as [j Hj].
    assert (Dv : (2 | val p)%Z) by (exists j; lia). destruct (prime_divisors _ Hpr 2 Dv) as [?|[?|[?|?]]]; lia. }
  assert (Hgt : (1 < val p)%Z) by lia.
  destruct (loads p L1 Hodd Hgt Hpr i es Len H4 H5) as (PP & EP & Q1 & Q2 & Q3 & Q4 & Q5 & _).
  exists p, L1, Hodd, Hgt, PP. split; [exact E1|]. split; [exact Hpr|]. split; [exact EP|].
  set (K := fp_ops p L1 Hodd Hgt) in *.
  destruct (conditions p L1 Hodd Hgt Hpr i es e k Len H2 H4 H5 H6 PP EP) as (C1 & C2 & C3 & C4 & C5 & C6 & C7 & C8 & C9 & C10).
  fold K in C1, C2, C3, C4, C5, C6, C7, C8, C9, C10. cbv zeta.
  split; [exact Q1|]. split; [exact Q3|]. rewrite <- Q1, <- Q2, <- Q3, <- Q4, <- Q5. split; [exact C3|].
  pose proof (fp_laws p L1 Hodd Hgt Hpr) as HL.
  split; [intros s Hs; apply (c65_permute K HL PP s C1 C2 C4 C5 C6 Hs)|].
  apply (c65_bijective K HL PP C1 C2 C4 C5 C6 (finite_elt p L1 Hodd Hgt) C7 C8 C9 C10).
Qed.
Theorem c65_shipped : Forall shipped PoseidonInstances.instances.
Proof.
  unfold PoseidonInstances.instances. repeat apply Forall_cons; [..|apply Forall_nil].
  - apply (shipped_ok BabyBear24Params _ _ baby_bear_root [43705162; 924797003; 990482726; 1694794586; 23444731; 1886478229; 1081791061; 563932331; 414848917; 11468505; 494775741; 1605169737; 171321002; 837375491; 1366335515; 103669254; 1737042853; 928767156; 1505013840; 269273777; 1505843032; 100101; 1973520354; 317103186]%Z 1725656503%Z 6%Z); vm_compute; reflexivity.
  - apply (shipped_ok BLS2Params _ _ bls12_root []%Z 20974350070050476191779096203274386335076221000211055129041463479975432473805%Z 2%Z); vm_compute; reflexivity.
  - apply (shipped_ok BLS3Params _ _ bls12_root []%Z 20974350070050476191779096203274386335076221000211055129041463479975432473805%Z 2%Z); vm_compute; reflexivity.
  - apply (shipped_ok BLS4Params _ _ bls12_root [2775184910905990994954344856334665518174628856903536343462985828209083422091; 39091169846270621916196599906595163321369504513023672393424461493775295319010; 43390098294545457155586474910835873170133724024870262700388700210136029484295; 28169499126562512601980043243573075445370936472686725043469404598295824774326]%Z 20974350070050476191779096203274386335076221000211055129041463479975432473805%Z 2%Z); vm_compute; reflexivity.
  - apply (shipped_ok BN256Params _ _ bn256_root []%Z 17510594297471420177797124596205820070838691520332827474958563349260646796493%Z 4%Z); vm_compute; reflexivity.
  - apply (shipped_ok Goldilocks12Params _ _ goldilocks_root [13806053890864727292; 16039304555552744694; 18000805539296046064; 1120712292707969966; 18151938884699337764; 16223473244271871235; 7784472447174841387; 11935060317972544447; 12400051796508006841; 5848187894058753806; 1664410347336977730; 1496632066239311320]%Z 10540996611094048183%Z 4%Z); vm_compute; reflexivity.
  - apply (shipped_ok PallasParams _ _ pallas_root []%Z 23158417847463239084714197001737581570690445185553248572763741411479974104269%Z 4%Z); vm_compute; reflexivity.
  - apply (shipped_ok VestaParams _ _ vesta_root []%Z 23158417847463239084714197001737581570690445185553317903743794198714690358477%Z 4%Z); vm_compute; reflexivity.
Qed.
Print Assumptions c65_shipped.

(** ** C66: the sponge *)
(** Over any field, parameters and permutation: any sequence of calls. *)
Section sponge.
  Context (K : field_ops) (P : params K) (pi : list (F K) -> list (F K)).
  Notation t := (T K P). Notation cap := (CAPACITY K P).
  Hypothesis Hpi : forall s, length s = t -> permute K P s = Some (pi s) /\ length (pi s) = t.
  Hypothesis Hcap : cap < t.
  Lemma ordered_from_0 cs : ordered K cs <-> ordered_from K 0 cs.
  Proof. reflexivity. Qed.
  (** The outputs are the first elements of the stream determined by the absorbed
      sequence alone. *)
  Lemma c66_outputs_lemma cs : ordered K cs -> exists s h,
    absorbs K pi t cap (absorbed K cs) s /\ (forall s', absorbs K pi t cap (absorbed K cs) s' -> s' = s) /\
    run K P (new K P) cs = Some (map (output K pi t cap s) (seq 0 (squeezed K cs)), h) /\
    cap <= index K h <= t /\ length (state K h) = t.
  Proof.
    intros H. destruct (run_ordered K P pi Hpi Hcap cs [] 0 _ (inv_new K P pi Hcap) H) as (s & h & H1 & H2 & H3).
    exists s, h. split; [exact H1|]. split; [intros s' H'; symmetry; exact (absorbs_functional K P pi Hcap _ _ H1 s' H')|].
    split; [exact H2|]. exact (inv_index K P pi Hpi Hcap _ _ _ H3).
  Qed.
  Lemma c66_panics_lemma cs : run K P (new K P) cs = None <-> ~ ordered K cs.
  Proof.
    split.
    - intros H Ho. destruct (c66_outputs_lemma cs Ho) as (s & h & _ & _ & E & _). congruence.
    - intros H. exact (run_unordered K P pi Hpi Hcap cs [] 0 _ (inv_new K P pi Hcap) H).
  Qed.
End sponge.

Theorem c66_outputs K P pi :
  (forall s, length s = T K P -> permute K P s = Some (pi s) /\ length (pi s) = T K P) -> CAPACITY K P < T K P ->
  forall cs, ordered K cs -> exists s h,
    absorbs K pi (T K P) (CAPACITY K P) (absorbed K cs) s /\
    (forall s', absorbs K pi (T K P) (CAPACITY K P) (absorbed K cs) s' -> s' = s) /\
    run K P (new K P) cs = Some (map (output K pi (T K P) (CAPACITY K P) s) (seq 0 (squeezed K cs)), h) /\
    CAPACITY K P <= index K h <= T K P /\ length (state K h) = T K P.
Proof. exact (c66_outputs_lemma K P pi). Qed.
Print Assumptions c66_outputs.
(** Panics are exactly the absorptions after a squeeze. *)
Theorem c66_panics K P pi :
  (forall s, length s = T K P -> permute K P s = Some (pi s) /\ length (pi s) = T K P) -> CAPACITY K P < T K P ->
  forall cs, run K P (new K P) cs = None <-> ~ ordered K cs.
Proof. exact (c66_panics_lemma K P pi). Qed.
Print Assumptions c66_panics.
(** Batches are element-wise, in any state. *)
Theorem c66_batch K P : forall l h cs,
  run K P h (AbsorbBatch K l :: cs) = run K P h (map (Absorb K) l ++ cs).
Proof.
  induction l as [|e l IH]; intros h cs; [cbn; destruct (run K P h cs) as [[? ?]|]; reflexivity|].
  cbn [map app run perform absorb_batch]. destruct (absorb K P h e) as [h1|]; [|reflexivity]. cbn [bind option_map].
  rewrite <- IH. cbn [run perform]. destruct (absorb_batch K P h1 l) as [h2|]; [|reflexivity]. cbn [option_map].
  destruct (run K P h2 cs) as [[? ?]|]; reflexivity.
Qed.
Print Assumptions c66_batch.
Theorem c66_squeeze_batch K P : forall n h cs,
  run K P h (SqueezeBatch K n :: cs) = run K P h (repeat (Squeeze K) n ++ cs).
Proof.
  induction n as [|n IH]; intros h cs; [cbn; destruct (run K P h cs) as [[? ?]|]; reflexivity|].
  cbn [repeat app run perform squeeze_batch]. destruct (squeeze K P h) as [[e h1]|]; [|reflexivity]. cbn [bind option_map].
  rewrite <- IH. cbn [run perform]. destruct (squeeze_batch K P h1 n) as [[l h2]|]; [|reflexivity]. cbn [option_map].
  destruct (run K P h2 cs) as [[? ?]|]; reflexivity.
Qed.
Print Assumptions c66_squeeze_batch.
(** Only the permutation touches the capacity; squeezing changes nothing else at all. *)
Theorem c66_capacity K P h : CAPACITY K P <= index K h ->
  (forall e h', absorb K P h e = Some h' -> exists s, (s = state K h \/ permute K P (state K h) = Some s) /\
     firstn (CAPACITY K P) (state K h') = firstn (CAPACITY K P) s /\ length (state K h') = length s /\
     (s = state K h -> index K h = T K P -> permute K P (state K h) = Some s)) /\
  (forall e h', squeeze K P h = Some (e, h') -> state K h' = state K h \/ permute K P (state K h) = Some (state K h')).
Proof.
  intros Hi.
  assert (A : forall s i e s', CAPACITY K P <= i -> add_at K s i e = Some s' ->
            firstn (CAPACITY K P) s' = firstn (CAPACITY K P) s /\ length s' = length s).
  { generalize (CAPACITY K P). intros c s. revert c. induction s as [|x s IH]; intros c i e s' Hc E; [discriminate|].
    destruct i as [|i]; cbn in E.
    - injection E as <-. replace c with 0 by lia. split; reflexivity.
    - destruct (add_at K s i e) as [s1|] eqn:E1; [|discriminate]. injection E as <-.
      destruct c as [|c]; [destruct (IH 0 i e s1 ltac:(lia) E1); cbn; split; congruence|].
      destruct (IH c i e s1 ltac:(lia) E1). cbn. split; congruence. }
  split.
  - intros e h' E. unfold absorb in E. destruct (squeezing K h); [discriminate|].
    destruct (Nat.eqb_spec (index K h) (T K P)) as [Et|Et].
    + destruct (permute K P (state K h)) as [s|] eqn:Ep; [|discriminate]. cbn in E.
      destruct (add_at K s (CAPACITY K P) e) as [s'|] eqn:Ea; [|discriminate]. injection E as <-. cbn [state].
      exists s. destruct (A _ _ _ _ (le_n _) Ea). split; [right; reflexivity|]. split; [assumption|].
      split; [assumption|reflexivity].
    + cbn in E. destruct (add_at K (state K h) (index K h) e) as [s'|] eqn:Ea; [|discriminate]. injection E as <-.
      cbn [state]. exists (state K h). destruct (A _ _ _ _ Hi Ea). split; [left; reflexivity|]. split; [assumption|].
      split; [assumption|]. intros _ Q. contradiction.
  - intros e h' E. unfold squeeze in E. destruct (negb (squeezing K h) || Nat.eqb (index K h) (T K P)).
    + destruct (permute K P (state K h)) as [s|] eqn:Ep; [|discriminate]. cbn in E.
      destruct (nth_error s (CAPACITY K P)); [|discriminate]. cbn in E. injection E as _ <-. right. reflexivity.
    + cbn in E. destruct (nth_error (state K h) (index K h)); [|discriminate]. cbn in E. injection E as _ <-. left. reflexivity.
Qed.
Print Assumptions c66_capacity.
(** The shipped sponges. *)
Definition shipped_sponge (i : instance) : Prop :=
  exists p Hp Hodd Hgt PP, MODULUS (i_field i) = Some p /\ load_params p Hp Hodd Hgt i = Some PP /\
    let K := fp_ops p Hp Hodd Hgt in
    let t := i_T i in let cap := i_capacity i in
    let pi := poseidon2 K t (Z.to_nat (i_D i)) (i_rounds_f i) (i_rounds_p i)
                (diagonal K t (MAT_INTERNAL_DIAG_M_1 K PP)) (ROUND_CONSTANTS K PP) in
    forall cs,
      (run K PP (new K PP) cs = None <-> ~ ordered K cs) /\
      (ordered K cs -> exists s h, absorbs K pi t cap (absorbed K cs) s /\
        (forall s', absorbs K pi t cap (absorbed K cs) s' -> s' = s) /\
        run K PP (new K PP) cs = Some (map (output K pi t cap s) (seq 0 (squeezed K cs)), h)).
Theorem c66_shipped : Forall shipped_sponge PoseidonInstances.instances.
Proof.
  apply Forall_forall. intros i Hi. pose proof c65_shipped as H. rewrite Forall_forall in H.
  destruct (H i Hi) as (p & Hp & Hodd & Hgt & PP & E1 & Hpr & E2 & Q1 & Q2 & Q3 & Q4 & Q5). clear H Hi.
  exists p, Hp, Hodd, Hgt, PP. split; [exact E1|]. split; [exact E2|]. cbv zeta in *.
  set (K := fp_ops p Hp Hodd Hgt) in *. set (pi := poseidon2 _ _ _ _ _ _ _) in *. rewrite <- Q1, <- Q2 in *.
  assert (Hpi : forall s, length s = T K PP -> permute K PP s = Some (pi s) /\ length (pi s) = T K PP).
  { intros s Hs. split; [apply Q4, Hs|]. destruct Q5 as [Q5 _]. destruct (Q5 s Hs) as (s' & Es & Hl).
    rewrite (Q4 s Hs) in Es. injection Es as ->. exact Hl. }
  intros cs. split; [apply (c66_panics K PP pi Hpi Q3)|].
  intros Ho. destruct (c66_outputs K PP pi Hpi Q3 cs Ho) as (s & h & H1 & H2 & H3 & _). eauto.
Qed.
Print Assumptions c66_shipped.
(** There is no padding: within a block, a trailing zero changes nothing. *)
Theorem c66_trailing_zero K (L : field_laws K) P pi :
  (forall s, length s = T K P -> permute K P s = Some (pi s) /\ length (pi s) = T K P) -> CAPACITY K P < T K P ->
  forall l n, l = [] \/ Nat.modulo (length l) (T K P - CAPACITY K P) <> 0 ->
  option_map fst (run K P (new K P) [AbsorbBatch K (l ++ [f0 K]); SqueezeBatch K n]) =
  option_map fst (run K P (new K P) [AbsorbBatch K l; SqueezeBatch K n]).
Proof.
  intros Hpi Hcap l n Hl. set (t := T K P) in *. set (cap := CAPACITY K P) in *.
  assert (Ho : forall l, ordered K [AbsorbBatch K l; SqueezeBatch K n]).
  { intros l' [|a [|b [|c before]]] after E; cbn in E.
    - left. reflexivity.
    - injection E as <- _. left. reflexivity.
    - injection E as <- <- <-. right. reflexivity.
    - discriminate. }
  destruct (c66_outputs K P pi Hpi Hcap _ (Ho l)) as (s & h & A1 & _ & E1 & _).
  destruct (c66_outputs K P pi Hpi Hcap _ (Ho (l ++ [f0 K]))) as (s' & h' & A2 & U2 & E2 & _).
  rewrite E1, E2. cbn [option_map fst]. do 2 f_equal. f_equal. symmetry. apply U2. clear - L Hl A1 Hcap.
  cbn [absorbed flat_map] in *. rewrite app_nil_r in *. fold t cap in A1 |- *.
  assert (add0 : forall x b, add_block K x (b ++ [f0 K]) = add_block K x b).
  { induction x as [|a x IH]; intros [|y b]; cbn; try reflexivity; [|rewrite IH; reflexivity].
    rewrite (Radd_comm (law_ring K L)), (Radd_0_l (law_ring K L)).
    destruct x; reflexivity. }
  inversion A1 as [b Hb Eb Es|l0 s0 b Ha Hn Hm Hbn Hb El Es].
  - subst b. unfold inject in *. rewrite <- add0. apply (absorbs_first K pi t cap). rewrite app_length. cbn [length].
    destruct (Nat.eq_dec (length l) (t - cap)) as [E|E]; [|lia]. exfalso. destruct Hl as [->|Hl]; [cbn in E; lia|].
    apply Hl. rewrite E. apply Nat.mod_same. lia.
  - subst l. rewrite <- app_assoc. unfold inject. rewrite <- add0. apply (absorbs_block K pi t cap); auto.
    + intros E. apply app_eq_nil in E as [_ E]. discriminate.
    + rewrite app_length. cbn [length]. destruct (Nat.eq_dec (length b) (t - cap)) as [E|E]; [|lia]. exfalso.
      destruct Hl as [Hl|Hl]; [apply app_eq_nil in Hl as [_ Hl]; contradiction|].
      apply Hl. rewrite app_length, Nat.add_mod, Hm, E, Nat.mod_same by lia. apply Nat.mod_0_l. lia.
Qed.
Print Assumptions c66_trailing_zero.

(** ** Non-vacuity: arithmetic modulo a number, with the shipped constants *)
Definition zfield (p : Z) : field_ops := {|
  F := Z; f0 := 0%Z; f1 := 1%Z; fadd := fun x y => ((x + y) mod p)%Z; fsub := fun x y => ((x - y) mod p)%Z;
  fmul := fun x y => ((x * y) mod p)%Z; fneg := fun x => ((- x) mod p)%Z; fdouble := fun x => ((2 * x) mod p)%Z;
  fsquare := fun x => ((x * x) mod p)%Z; finv := fun _ => None; feqb := Z.eqb; fsop := fun _ _ => 0%Z; small_extension := true |}.
Definition zparams (p : Z) (i : instance) : params (zfield p) :=
  {| T := i_T i; D := i_D i; CAPACITY := i_capacity i; ROUNDS_F := i_rounds_f i; ROUNDS_P := i_rounds_p i;
     MAT_INTERNAL_DIAG_M_1 := map (fun s => hex_value (chars s)) (i_diag i) : list (F (zfield p));
     ROUND_CONSTANTS := map (map (fun s => hex_value (chars s))) (i_rc i) |}.
(** The repository's own test (mod.rs, smoke_goldilocks). *)
Example c66_goldilocks : let K := zfield 18446744069414584321 in let P := zparams 18446744069414584321 Goldilocks12Params in
  option_map fst (run K P (new K P) [AbsorbBatch K [1; 2; 3; 4; 5; 6; 7; 8; 9; 10; 11]%Z; SqueezeBatch K 8]) =
  Some [0x919ad117c013584c; 0xda52e5769cff16e3; 0x61018d9476a8588e; 0xeded3197110731fb;
        0x57224df1bb91d294; 0x655c1fb6ef455b96; 0xaff582f1574c02b1; 0x5fde11bb5be4f4f9]%Z.
Proof. vm_compute. reflexivity. Qed.
Example c66_absorb_after_squeeze : let K := zfield 2013265921 in let P := zparams 2013265921 BabyBear24Params in
  ~ ordered K [Absorb K 1%Z; Squeeze K; Absorb K 2%Z].
Proof. intros K P H. destruct (H [Absorb K 1%Z; Squeeze K] [Absorb K 2%Z] eq_refl); discriminate. Qed.
