(** C81: the shipped hashes are Poseidon2 over the integers modulo the primes; the Poseidon
    example. *)
From Coq Require Import Ascii String ZArith List Bool Lia Znumtheory.
From Verif Require Import Model.Uint Model.Fp Model.FieldInstances Model.Curve Model.Poseidon Model.PoseidonInstances Model.PoseidonExample.
From Verif Require Import Spec.Uint_spec Spec.Fp_spec Spec.Curve_spec Spec.Poseidon_spec Spec.PoseidonInt_spec.
From Verif Require Import Proofs.Uint_lemmas Proofs.Fp_lemmas Proofs.Fp_field Proofs.Poseidon_sponge Proofs.Poseidon_instance Proofs.PoseidonInt_lemmas.
From Verif Require Import Props.Uint_props Props.Poseidon_props.
Import Model.Poseidon Spec.Poseidon_spec ListNotations.
Open Scope list_scope.
Open Scope Z_scope.

(** The integer an element stands for is the one [into_bigint] reports. *)
Notation value p x := (val (into_bigint p (proj1_sig x))).

(** Any sequence of calls on a sponge in which nothing is absorbed after a squeeze. *)
Definition hashes_integers (i : instance) : Prop :=
  exists p Hp Hodd Hgt PP, MODULUS (i_field i) = Some p /\ val p = modulus_of i /\ load_params p Hp Hodd Hgt i = Some PP /\
    let K := fp_ops p Hp Hodd Hgt in
    forall cs, ordered K cs -> exists out h, run K PP (new K PP) cs = Some (out, h) /\
      map (fun x : elt p => value p x) out = hash_of i (map (fun x : elt p => value p x) (absorbed K cs)) (squeezed K cs).
Theorem c81_integers : Forall hashes_integers PoseidonInstances.instances.
Proof.
  apply Forall_forall. intros i Hi.
  pose proof c65_shipped as H. rewrite Forall_forall in H.
  destruct (H i Hi) as (p & Hp & Hodd & Hgt & PP & E1 & Hpr & E2 & Q1 & Q2 & Q3 & Q4 & Q5).
  assert (HN : (0 < p_limbs (i_field i))%nat).
  { clear -Hi. cbn in Hi. repeat (destruct Hi as [<-|Hi]; [cbn; lia|]). contradiction. }
  clear H Hi.
  destruct (modulus_number i p HN E1) as [_ Tv].
  exists p, Hp, Hodd, Hgt, PP. split; [exact E1|]. split; [exact Tv|]. split; [exact E2|]. cbv zeta.
  set (K := fp_ops p Hp Hodd Hgt) in *.
  pose proof (load_permutation p Hp Hodd Hgt i Tv PP) as Hperm. fold K in Hperm.
  set (pi := poseidon2 K _ _ _ _ _ _) in *.
  assert (Hpi : forall s, length s = T K PP -> permute K PP s = Some (pi s) /\ length (pi s) = T K PP).
  { rewrite Q1. intros s Hs. split; [apply Q4, Hs|]. destruct Q5 as [Q5 _]. destruct (Q5 s Hs) as (s' & Es & Hl).
    rewrite (Q4 s Hs) in Es. injection Es as ->. exact Hl. }
  intros cs Ho. destruct (c66_outputs K PP pi Hpi ltac:(rewrite Q1, Q2; exact Q3) cs Ho) as (s & h & A1 & _ & A3 & _).
  rewrite Q1, Q2 in A1, A3. eexists _, h. split; [exact A3|].
  assert (H0 : num p (f0 K) = f0 (Zp (modulus_of i))) by (apply (num_zero p Hp Hodd Hgt)).
  assert (Ha : forall x y, num p (fadd K x y) = fadd (Zp (modulus_of i)) (num p x) (num p y)).
  { intros x y. cbn. rewrite <- Tv. apply (num_add p Hp Hodd Hgt). }
  assert (Hpi' : forall s, map (num p) (pi s) = permutation i (map (num p) s)) by (intros s'; apply Hperm; assumption).
  apply (hom_absorbs K (Zp (modulus_of i)) (num p) H0 Ha pi (permutation i) _ _ Hpi') in A1.
  apply absorbs_state in A1; [|exact Q3]. rewrite map_map. unfold hash_of.
  assert (Em : map (fun x => x mod modulus_of i) (map (fun x : elt p => value p x) (absorbed K cs)) = map (num p) (absorbed K cs)).
  { rewrite map_map. apply map_ext. intros x. rewrite <- Tv. apply Z.mod_small. apply (num_bound p Hp Hodd Hgt). }
  rewrite Em.
  etransitivity; [|exact (f_equal (fun s' => map (output (Zp (modulus_of i)) (permutation i) (i_T i) (i_capacity i) s') (seq 0 (squeezed K cs))) A1)].
  apply map_ext. intros n.
  exact (hom_output K (Zp (modulus_of i)) (num p) H0 pi (permutation i) _ _ Hpi' s n).
Qed.
Print Assumptions c81_integers.

(** The shipped sponges, unfolded for two inputs and one output. *)
Lemma two_inputs i p Hp Hodd Hgt PP :
  let K := fp_ops p Hp Hodd Hgt in
  (forall cs, ordered K cs -> exists out h, run K PP (new K PP) cs = Some (out, h) /\
      map (fun x : elt p => value p x) out = hash_of i (map (fun x : elt p => value p x) (absorbed K cs)) (squeezed K cs)) ->
  forall x y : elt p, exists h1 h2 e h3, absorb K PP (new K PP) x = Some h1 /\ absorb K PP h1 y = Some h2 /\
    squeeze K PP h2 = Some (e, h3) /\ value p e = hd 0 (hash_of i [value p x; value p y] 1).
Proof.
  intros K H x y.
  assert (Ho : ordered K [Absorb K x; Absorb K y; Squeeze K]).
  { intros before after E. destruct before as [|c1 [|c2 [|c3 before]]]; [left; reflexivity| | |].
    - injection E as <- _. left. reflexivity.
    - injection E as <- <- _. left. reflexivity.
    - injection E as <- <- <- E. destruct before; [|discriminate]. right. cbn in E. subst after. reflexivity. }
  destruct (H _ Ho) as (out & h & E & Em). cbn [run perform] in E.
  destruct (absorb K PP (new K PP) x) as [h1|]; [|discriminate]. cbn [option_map] in E.
  destruct (absorb K PP h1 y) as [h2|] eqn:E2; [|discriminate]. cbn [option_map] in E.
  destruct (squeeze K PP h2) as [[e h3]|] eqn:E3; [|discriminate]. cbn [option_map app] in E. injection E as <- _.
  exists h1, h2, e, h3. split; [reflexivity|]. split; [exact E2|]. split; [exact E3|].
  exact (f_equal (hd 0) Em).
Qed.

(** The example: never reverts, and returns the Poseidon2 hash of its two inputs, read as
    integers modulo the prime. *)
Definition computes (f : Z -> Z -> option Z) : Prop :=
  forall a b, 0 <= a < 2 ^ 256 -> 0 <= b < 2 ^ 256 ->
    f a b = Some (hd 0 (hash_of BN256Params [a; b] 1)) /\ 0 <= hd 0 (hash_of BN256Params [a; b] 1) < modulus_of BN256Params.
Theorem c81_example : exists p Hp Hodd Hgt PP,
  MODULUS BN256Param = Some p /\ load_params p Hp Hodd Hgt BN256Params = Some PP /\ computes (hash p Hp Hodd Hgt PP).
Proof.
  pose proof c81_integers as H. rewrite Forall_forall in H.
  destruct (H BN256Params) as (p & Hp & Hodd & Hgt & PP & E1 & Ev & E2 & E3); [cbn; tauto|]. clear H.
  exists p, Hp, Hodd, Hgt, PP. split; [exact E1|]. split; [exact E2|]. cbv zeta in E3.
  assert (Len : length p = 4%nat) by (change (i_field BN256Params) with BN256Param in E1; vm_compute in E1; injection E1 as <-; reflexivity).
  clear E1 E2. intros a b Ha Hb.
  assert (Hin : forall a, 0 <= a < 2 ^ 256 -> exists u x, ct_from_le_slice (length p) (to_le_bytes 32 a) = Some u /\
            fp_from_bigint p u = Some x /\ value p x = a mod modulus_of BN256Params).
  { clear a b Ha Hb. intros a Ha. destruct (proj1 (c59_bytes_back (length p) (to_le_bytes 32 a) (to_le_bytes_byte _ _)))
      as (u & Eu & Lu & Bu); [rewrite to_le_bytes_length, Len; reflexivity|].
    destruct (from_ok p Hp Hodd Hgt u Lu) as [F1 F2]. exists u. unfold fp_from_bigint.
    destruct (bool_dec _ _) as [Hb|N]; [|exfalso; apply N, elementb_iff, F1]. eexists. split; [exact Eu|]. split; [reflexivity|].
    cbn [proj1_sig]. unfold as_Z in F2. rewrite F2, <- Ev. f_equal.
    rewrite <- (into_bytes_le_value _ _ Lu), Bu, <- from_le_bytes_value. apply from_to_le. exact Ha. }
  destruct (Hin a Ha) as (ua & xa & A1 & A2 & A3). destruct (Hin b Hb) as (ub & xb & B1 & B2 & B3).
  destruct (two_inputs BN256Params p Hp Hodd Hgt PP E3 xa xb) as (h1 & h2 & e & h3 & C1 & C2 & C3 & C4).
  assert (Er : hash_of BN256Params [value p xa; value p xb] 1 = hash_of BN256Params [a; b] 1).
  { rewrite A3, B3. unfold hash_of. cbn [map]. rewrite !Z.mod_mod by (rewrite <- Ev; lia). reflexivity. }
  rewrite Er in C4. destruct (into_ok p Hp Hodd Hgt (proj1_sig e) (elt_ok p e)) as (I1 & I2 & _). unfold as_Z in I2.
  split; [|rewrite <- C4, <- Ev; exact I2].
  unfold hash. cbn [absorb_inputs]. rewrite A1. cbn [obind]. rewrite A2. cbn [obind]. rewrite C1. cbn [obind].
  rewrite B1. cbn [obind]. rewrite B2. cbn [obind]. rewrite C2. cbn [obind]. rewrite C3. cbn [obind].
  rewrite into_bytes_le_length, (limbs_len _ _ I1), Len. cbn [Nat.mul Nat.add Nat.leb].
  rewrite from_le_bytes_value, (into_bytes_le_value _ _ I1), C4. reflexivity.
Qed.
Print Assumptions c81_example.
(** Inputs count modulo the prime only, hence it is not collision resistant on the type of
    its arguments: anybody can write down collisions. *)
Theorem c81_inputs_modulo_prime f a b a' b' : computes f ->
  0 <= a < 2 ^ 256 -> 0 <= b < 2 ^ 256 -> 0 <= a' < 2 ^ 256 -> 0 <= b' < 2 ^ 256 ->
  a mod modulus_of BN256Params = a' mod modulus_of BN256Params ->
  b mod modulus_of BN256Params = b' mod modulus_of BN256Params -> f a b = f a' b'.
Proof.
  intros H Ha Hb Ha' Hb' Ea Eb. rewrite (proj1 (H a b Ha Hb)), (proj1 (H a' b' Ha' Hb')). do 2 f_equal.
  unfold hash_of. cbn [map]. rewrite Ea, Eb. reflexivity.
Qed.
Print Assumptions c81_inputs_modulo_prime.
Theorem c81_no_trivial_collisions_refuted : forall f, computes f ->
  exists a b a' b', (a, b) <> (a', b') /\ 0 <= a < 2 ^ 256 /\ 0 <= b < 2 ^ 256 /\ 0 <= a' < 2 ^ 256 /\ 0 <= b' < 2 ^ 256 /\
    f a b = f a' b'.
Proof.
  intros f H. exists 0, 0, (modulus_of BN256Params), 0.
  assert (Hm : 0 <= modulus_of BN256Params < 2 ^ 256) by (split; vm_compute; [discriminate|reflexivity]).
  assert (Hn : modulus_of BN256Params <> 0) by (vm_compute; discriminate).
  split; [intros E; apply Hn; congruence|]. repeat split; try lia; try apply Hm.
  apply c81_inputs_modulo_prime; try lia; auto.
Qed.
Print Assumptions c81_no_trivial_collisions_refuted.

(** Non-vacuity, and the reference itself against a vector of the repository's tests
    (instance/goldilocks.rs; the other vectors agree too but take long to check). *)
Example c81_vector_goldilocks : hash_of Goldilocks12Params (map Z.of_nat (seq 1 11)) 1 = [10491928181849937996].
Proof. vm_compute. reflexivity. Qed.
