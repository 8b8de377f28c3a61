(** C104: bytes in, bytes out for the poseidon example. *)
From Verif.Base Require Import Prelude Bytes Keccak.
From Coq Require Import String List.
From Verif.Model Require Import Introspection Router Entry EntryPoseidon.
From Verif.Model Require SolAbi FieldInstances PoseidonInstances PoseidonExample.
From Verif.Spec Require Import Router_spec Entry_spec EntryPoseidon_spec.
From Verif.Proofs Require Import Router_lemmas Entry_lemmas EntryNft_lemmas.
From Verif.Proofs Require SolAbi_lemmas Poseidon_instance.
From Verif.Props Require Crypto_props PoseidonInt_props.
Import SolAbi.
#[global] Open Scope Z_scope.
Local Open Scope list_scope.
Local Open Scope Z_scope.
Lemma prime_fits : 0 < prime < two256.
Proof. split; vm_compute; reflexivity. Qed.
Lemma prime_small : prime <= 2 ^ 256 - 1.
Proof. vm_compute. discriminate. Qed.
Opaque keccak256 PoseidonInt_spec.hash_of PoseidonInt_spec.modulus_of.
Lemma digest_of f : PoseidonInt_props.computes f ->
  forall a b, is_u256 a -> is_u256 b -> f a b = Some (digest a b) /\ 0 <= digest a b < prime.
Proof. intros H a b Ha Hb. unfold PoseidonInt_props.computes in H. change (2 ^ 256) with two256 in H. exact (H a b Ha Hb). Qed.
Lemma digest_mod f : PoseidonInt_props.computes f ->
  forall a b, is_u256 a -> is_u256 b -> f a b = f (a mod prime) (b mod prime).
Proof.
  pose proof prime_fits as P. intros H a b Ha Hb.
  assert (M : forall x, is_u256 x -> is_u256 (x mod prime)).
  { intros x [Hx _]. unfold is_u256. pose proof (Z.mod_pos_bound x prime (proj1 P)). lia. }
  assert (N : prime <> 0) by lia. pose proof (M a Ha) as Ma. pose proof (M b Hb) as Mb.
  refine (PoseidonInt_props.c81_inputs_modulo_prime f a b _ _ H Ha Hb Ma Mb _ _); symmetry; exact (Z.mod_mod _ _ N).
Qed.
Opaque digest prime.

(** The function of the contract: the shipped field and the shipped parameters. *)
Definition shipped (f : Z -> Z -> option Z) : Prop :=
  exists p Hp Hodd Hgt PP, FieldInstances.MODULUS FieldInstances.BN256Param = Some p /\
    Poseidon_instance.load_params p Hp Hodd Hgt PoseidonInstances.BN256Params = Some PP /\
    f = PoseidonExample.hash p Hp Hodd Hgt PP.

Lemma known_poseidon : all_known Pub.PoseidonExample = true.
Proof. vm_compute. reflexivity. Qed.
Lemma exposed_poseidon : exposed Pub.PoseidonExample = [("PoseidonExample"%string, fn "hash" [U256x2])].
Proof. vm_compute. reflexivity. Qed.
Lemma found : find_fn_k Pub.PoseidonExample (k "hash(uint256[2])") = Some ("PoseidonExample"%string, fn "hash" [U256x2]).
Proof. vm_compute. reflexivity. Qed.
Lemma k_hash : k_fits "hash(uint256[2])" = true.
Proof. vm_compute. reflexivity. Qed.
Lemma two_words a b : word a ++ word b = abi_params [Word a; Word b].
Proof. change [Word a; Word b] with (map Word [a; b]). rewrite SolAbi_lemmas.abi_static. unfold SolAbi_lemmas.words. cbn [flat_map]. rewrite app_nil_r. reflexivity. Qed.
Lemma question_calldata a b : question a b = calldata "hash(uint256[2])" [Word a; Word b].
Proof. unfold question, calldata. rewrite <- two_words. reflexivity. Qed.
Lemma answers f a b : is_u256 a -> is_u256 b ->
  entry_poseidon f 0 (question a b) = match f a b with Some h => Returned (word h) | None => Reverted [] end.
Proof.
  intros Ha Hb. unfold entry_poseidon, question. pose proof k_hash as Hk. unfold k_fits in Hk.
  apply andb_true_iff in Hk. destruct Hk as [Hk H2]. apply andb_true_iff in Hk. destruct Hk as [Hk H1]. rewrite (k_ok _ Hk).
  replace (length (be_bytes 4 (k "hash(uint256[2])") ++ word a ++ word b) <? 4)%nat with false
    by (symmetry; apply Nat.ltb_ge; rewrite app_length, be_bytes_length; lia).
  rewrite SolAbi_lemmas.take_app by apply be_bytes_length.
  rewrite of_be_be_bytes, Z.mod_small by (change (256 ^ Z.of_nat 4) with (2 ^ 32); lia).
  rewrite find_fn_k_ok by exact known_poseidon. rewrite found. cbn [Z.eqb negb arg_types fn flat_map elements app].
  rewrite SolAbi_lemmas.drop_app by apply be_bytes_length. rewrite two_words.
  assert (D : decode_params [U256; U256] (abi_params [Word a; Word b]) = Some [Word a; Word b]).
  { change [Word a; Word b] with (map Word [a; b]). apply decode_params_iff; [apply abi_words_bytes|rewrite abi_words_size; reflexivity|].
    split; [|reflexivity]. repeat (apply List.Forall2_cons || apply List.Forall2_nil); assumption. }
  rewrite D. destruct (f a b); [rewrite <- one_word|]; reflexivity.
Qed.
Lemma only_questions f v d : List.Forall is_byte d -> size d < two256 ->
  entry_poseidon f v d = Reverted [] \/ exists a b, v = 0 /\ is_u256 a /\ is_u256 b /\ d = question a b.
Proof.
  intros Hb Hsz. unfold entry_poseidon. destruct (length d <? 4)%nat eqn:El; [left; reflexivity|]. apply Nat.ltb_ge in El.
  destruct (find_fn Pub.PoseidonExample (of_be (firstn 4 d))) as [[t g]|] eqn:Ef; [|left; reflexivity].
  destruct (find_fn_exposed _ _ _ known_poseidon Ef) as [Hin Hsel]. cbn [snd] in Hsel. rewrite exposed_poseidon in Hin.
  destruct Hin as [Hin|[]]. injection Hin as <- <-.
  destruct (v =? 0) eqn:Ev; cbn [negb]; [|left; reflexivity]. apply Z.eqb_eq in Ev.
  cbn [arg_types fn flat_map elements app].
  destruct (decode_params [U256; U256] (skipn 4 d)) as [args|] eqn:Ed; [|left; reflexivity]. right.
  apply decode_params_iff in Ed; [|apply Forall_skipn, Hb|unfold size in *; rewrite skipn_length; lia]. destruct Ed as [Ht Ei].
  inversion Ht as [|? x ? ? Hx Ht1]; subst. inversion Ht1 as [|? y ? ? Hy Ht2]; subst. inversion Ht2; subst.
  destruct x as [a|l|l]; cbn [has_type] in Hx; [|destruct Hx as (? & Hx & _); discriminate Hx|destruct Hx as [[Hx|Hx] _]; discriminate Hx].
  destruct y as [b|l|l]; cbn [has_type] in Hy; [|destruct Hy as (? & Hy & _); discriminate Hy|destruct Hy as [[Hy|Hy] _]; discriminate Hy].
  exists a, b. split; [reflexivity|]. split; [exact Hx|]. split; [exact Hy|].
  rewrite question_calldata. unfold calldata. rewrite <- Ei.
  change "hash(uint256[2])"%string with (fn_sig (fn "hash" [U256x2])). rewrite <- Hsel.
  assert (L : length (firstn 4 d) = 4%nat) by (rewrite firstn_length; lia).
  rewrite <- L at 1. rewrite be_bytes_of_be by (apply Forall_firstn, Hb). symmetry. apply firstn_skipn.
Qed.

(** Every pair of words gets its Poseidon2 digest, an integer below the prime; everything else
    that anybody can send fails without data. *)
Theorem c104_poseidon_by_bytes :
  exists f, shipped f /\
  (forall a b, is_u256 a -> is_u256 b ->
     entry_poseidon f 0 (question a b) = Returned (word (digest a b)) /\ 0 <= digest a b < prime) /\
  (forall v d, List.Forall is_byte d -> size d < two256 ->
     (forall out, entry_poseidon f v d = Returned out <->
        exists a b, v = 0 /\ is_u256 a /\ is_u256 b /\ d = question a b /\ out = word (digest a b)) /\
     (forall out, entry_poseidon f v d = Reverted out -> out = [] /\ ~ (v = 0 /\ exists a b, is_u256 a /\ is_u256 b /\ d = question a b))).
Proof.
  destruct PoseidonInt_props.c81_example as (p & Hp & Hodd & Hgt & PP & E1 & E2 & H).
  exists (PoseidonExample.hash p Hp Hodd Hgt PP). split; [exists p, Hp, Hodd, Hgt, PP; auto|].
  set (f := PoseidonExample.hash p Hp Hodd Hgt PP) in *. clearbody f. clear E1 E2.
  assert (A : forall a b, is_u256 a -> is_u256 b -> entry_poseidon f 0 (question a b) = Returned (word (digest a b)) /\ 0 <= digest a b < prime).
  { intros a b Ha Hb. destruct (digest_of f H a b Ha Hb) as [K1 K2]. split; [|exact K2]. rewrite (answers f a b Ha Hb), K1. reflexivity. }
  clear H. split; [exact A|]. intros v d Hb Hsz.
  destruct (only_questions f v d Hb Hsz) as [R|(a & b & -> & Ha & Hb' & ->)]; split; intros out.
  - rewrite R. split; [discriminate|]. intros (a & b & -> & Ha & Hb' & -> & _). rewrite (proj1 (A a b Ha Hb')) in R. discriminate R.
  - rewrite R. intros E. split; [congruence|]. intros (-> & a & b & Ha & Hb' & ->). rewrite (proj1 (A a b Ha Hb')) in R. discriminate R.
  - split.
    + intros E. rewrite (proj1 (A a b Ha Hb')) in E. exists a, b. split; [reflexivity|]. split; [exact Ha|]. split; [exact Hb'|]. split; [reflexivity|congruence].
    + intros (a' & b' & _ & Ha' & Hb2 & E & ->). rewrite E. apply A; assumption.
  - rewrite (proj1 (A a b Ha Hb')). discriminate.
Qed.
Print Assumptions c104_poseidon_by_bytes.

(** The contract does not refuse numbers that are not field elements: it answers as for their
    remainders, which are different bytes. *)
Theorem c104_same_answer :
  exists f, shipped f /\
  forall a b, is_u256 a -> is_u256 b ->
    entry_poseidon f 0 (question a b) = entry_poseidon f 0 (question (a mod prime) (b mod prime)) /\
    (question a b = question (a mod prime) (b mod prime) <-> a < prime /\ b < prime).
Proof.
  destruct PoseidonInt_props.c81_example as (p & Hp & Hodd & Hgt & PP & E1 & E2 & H).
  exists (PoseidonExample.hash p Hp Hodd Hgt PP). split; [exists p, Hp, Hodd, Hgt, PP; auto|].
  set (f := PoseidonExample.hash p Hp Hodd Hgt PP) in *. clearbody f. clear E1 E2.
  pose proof prime_fits as P.
  intros a b Ha Hb.
  assert (M : forall x, is_u256 x -> is_u256 (x mod prime)).
  { intros x [Hx _]. unfold is_u256. pose proof (Z.mod_pos_bound x prime (proj1 P)). lia. }
  split.
  - rewrite (answers f a b Ha Hb), (answers f _ _ (M a Ha) (M b Hb)).
    rewrite (digest_mod f H a b Ha Hb). reflexivity.
  - unfold question. split.
    + intros E. apply app_inv_head in E. apply app_eq_len in E; [|rewrite !word_length; reflexivity].
      destruct E as [Ea Eb]. apply word_inj in Ea; auto. apply word_inj in Eb; auto.
      pose proof (Z.mod_pos_bound a prime (proj1 P)). pose proof (Z.mod_pos_bound b prime (proj1 P)). clear - Ea Eb H0 H1. lia.
    + intros [La Lb]. destruct Ha as [Ha _], Hb as [Hb _]. rewrite !Z.mod_small by (split; assumption). reflexivity.
Qed.
Print Assumptions c104_same_answer.

(** ** The hypotheses hold *)
Example c104_nonvacuous :
  is_u256 1 /\ is_u256 (2 ^ 256 - 1) /\ prime <= 2 ^ 256 - 1 /\ List.Forall is_byte (question 1 2) /\ size (question 1 2) = 68.
Proof.
  split; [split; [discriminate|reflexivity]|]. split; [split; [discriminate|reflexivity]|]. split; [exact prime_small|]. split.
  - unfold question. apply List.Forall_app. split; [apply be_bytes_byte|]. apply List.Forall_app. split; apply be_bytes_byte.
  - unfold question, size. rewrite !app_length, be_bytes_length, !word_length. reflexivity.
Qed.
