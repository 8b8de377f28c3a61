From Coq Require Import Ascii String ZArith List Bool Lia Znumtheory Zpow_facts.
From Verif Require Import Model.Uint Model.Fp Model.FieldInstances Spec.Uint_spec Spec.Fp_spec Proofs.Uint_lemmas Proofs.Fp_lemmas
  Proofs.Root_vesta Proofs.Root_baby_bear Proofs.Root_bls12 Proofs.Root_bn256 Proofs.Root_goldilocks Proofs.Root_pallas
  Props.Uint_props.
Import ListNotations.
Open Scope Z_scope.

Definition dec_value (s : list Z) : Z := fold_left (fun v c => 10 * v + (c - 48)) s 0.
Definition is_dec (s : list Z) : bool := forallb (fun c => (48 <=? c) && (c <=? 57)) s.
Lemma denotes_dec s : is_dec s = true -> denotes 10 s (dec_value s).
Proof.
  unfold is_dec, dec_value. induction s as [|c s IH] using rev_ind; intros H; [constructor|].
  rewrite forallb_app in H. apply andb_prop in H as [H1 H2]. cbn [forallb] in H2. rewrite andb_true_r in H2.
  rewrite fold_left_app. cbn [fold_left]. apply andb_prop in H2 as [H2 H3].
  constructor; [auto| |].
  - unfold digit_value. rewrite H2, H3. reflexivity.
  - apply Z.leb_le in H3. lia.
Qed.
Lemma from_num_ok N s v : (0 < N)%nat -> 
  (match chars s with [] => false | c :: _ => 48 <? c end && is_dec (chars s) && (dec_value (chars s) =? v) && (v <? modulus N)) = true ->
  exists u, from_num N s = Some u /\ limbs N u /\ val u = v.
Proof.
  intros HN H. apply andb_prop in H as [H H4]. apply andb_prop in H as [H H3]. apply andb_prop in H as [H1 H2].
  apply Z.eqb_eq in H3. apply Z.ltb_lt in H4. unfold from_num. pose proof (denotes_dec _ H2) as Hd. rewrite H3 in Hd.
  destruct (chars s) as [|c l]; [discriminate|]. apply Z.ltb_lt in H1.
  apply (c59_from_str_radix_canonical_partial N l 10 v (c - 48) c); auto; try lia.
  unfold is_dec in H2. cbn [forallb] in H2. apply andb_prop in H2 as [H2 _]. apply andb_prop in H2 as [H2 H2'].
  unfold digit_value. rewrite H2, H2'. reflexivity.
Qed.

Definition primitive_root (n g : Z) := prime n /\ forall x, 1 <= x < n -> exists e, 0 <= e < n - 1 /\ g ^ e mod n = x.
Lemma instance_ok c P g : 
  primitive_root P g -> (0 < p_limbs c)%nat -> 2 < P -> 
  (match chars (p_modulus c) with [] => false | d :: _ => 48 <? d end && is_dec (chars (p_modulus c)) && (dec_value (chars (p_modulus c)) =? P) && (P <? modulus (p_limbs c))) = true ->
  (match chars (p_generator c) with [] => false | d :: _ => 48 <? d end && is_dec (chars (p_generator c)) && (dec_value (chars (p_generator c)) =? g) && (g <? modulus (p_limbs c))) = true ->
  exists p G, MODULUS c = Some p /\ GENERATOR c = Some G /\ limbs (p_limbs c) p /\ val p = P /\ prime (val p) /\ element p G /\
    val (into_bigint p G) = g mod P /\
    forall x, element p x -> val (into_bigint p x) <> 0 ->
      exists e, limbs (p_limbs c) e /\ val e < val p - 1 /\ pow p G (bit_be_trimmed_iter e) = x.
Proof.
  intros [Hpr Hroot] HN H2 Hm Hg. destruct (from_num_ok _ _ _ HN Hm) as (p & E1 & L1 & V1).
  destruct (from_num_ok _ _ _ HN Hg) as (u & E2 & L2 & V2).
  pose proof (limbs_len _ _ L1) as Len. rewrite <- Len in L1, L2.
  assert (Hodd : Z.odd (val p) = true).
  { rewrite V1. rewrite <- Z.negb_even. destruct (Z.even P) eqn:E; [|auto]. apply Z.even_spec in E as [k Hk].
    assert (D : (2 | P)) by (exists k; lia). destruct (prime_divisors _ Hpr 2 D) as [?|[?|[?|?]]]; lia. }
  assert (Hgt : 1 < val p) by lia.
  destruct (from_ok p L1 Hodd Hgt u L2) as [F1 F2].
  exists p, (from_bigint p u). split; [exact E1|]. split.
  { unfold GENERATOR, MODULUS. rewrite E1. unfold fp_from_num. rewrite Len, E2. auto. }
  rewrite <- Len. split; [auto|]. split; [auto|]. split; [congruence|]. split; [auto|].
  split; [unfold as_Z in F2; rewrite F2; congruence|]. intros x Hx Hx0.
  destruct (into_ok p L1 Hodd Hgt x Hx) as (_ & Ix & _). unfold as_Z in Ix. 
  destruct (Hroot (val (into_bigint p x)) ltac:(lia)) as (e & He & Ee).
  pose proof (val_bound _ _ L1) as Hb.
  destruct (limbs_exist (length p) e ltac:(lia)) as (el & Le & Ve).
  exists el. split; [auto|]. split; [lia|].
  destruct (pow_ok p L1 Hodd Hgt (from_bigint p u) (bit_be_trimmed_iter el) F1) as [P1 P2].
  apply (as_Z_inj p L1 Hodd Hgt); auto. rewrite P2, F2, (bits_value_trimmed (length p)), Ve by auto.
  unfold as_Z. rewrite <- Ee, V2, V1. symmetry. rewrite Zpower_mod by lia. auto.
Qed.
