(** C91: bytes in, bytes out for the merkle-proofs example. *)
From Verif.Base Require Import Prelude Bytes Keccak.
From stdpp Require Import list.
From Coq Require Import String List.
From Verif.Model Require Import Introspection Router Entry EntryMerkle.
From Verif.Model Require SolAbi Merkle.
From Verif.Spec Require Import Router_spec Entry_spec EntryMerkle_spec.
From Verif.Spec Require Merkle_spec.
From Verif.Proofs Require Import Router_lemmas Entry_lemmas EntryNft_lemmas.
From Verif.Props Require Crypto_props Merkle_props.
Import SolAbi.
#[global] Open Scope Z_scope.
Local Open Scope list_scope.
Local Open Scope Z_scope.
Opaque keccak256.

(** ** Numbers and byte strings *)
Lemma blt_be n x y : Merkle.blt (be_bytes n x) (be_bytes n y) = (x mod 256 ^ Z.of_nat n <? y mod 256 ^ Z.of_nat n).
Proof.
  induction n as [|n IH]; [cbn; rewrite !Z.mod_1_r; reflexivity|]. cbn [be_bytes Merkle.blt]. rewrite IH.
  replace (256 ^ Z.of_nat (S n)) with (256 ^ Z.of_nat n * 256) by (rewrite Nat2Z.inj_succ, Z.pow_succ_r by lia; lia).
  pose proof (pow256_pos n) as P. set (m := 256 ^ Z.of_nat n) in *. rewrite !(Z.rem_mul_r _ m 256) by lia.
  pose proof (Z.mod_pos_bound x m P). pose proof (Z.mod_pos_bound y m P).
  set (a := (x / m) mod 256). set (b := (y / m) mod 256). set (c := x mod m) in *. set (d := y mod m) in *.
  destruct (a <? b) eqn:E1; cbn [orb]; [symmetry; apply Z.ltb_lt; nia|].
  destruct (a =? b) eqn:E2; cbn [andb].
  - replace b with a by lia. apply eq_true_iff_eq. rewrite !Z.ltb_lt. lia.
  - symmetry. apply Z.ltb_ge. nia.
Qed.
Lemma blt_word x y : is_u256 x -> is_u256 y -> Merkle.blt (word x) (word y) = (x <? y).
Proof. intros Hx Hy. unfold word. rewrite blt_be. rewrite !Z.mod_small by assumption. reflexivity. Qed.
Lemma beq_word x y : is_u256 x -> is_u256 y -> Merkle.beq (word x) (word y) = (x =? y).
Proof.
  intros Hx Hy. apply eq_true_iff_eq. rewrite Merkle_props.beq_eq, Z.eqb_eq. split; [apply word_inj; assumption|congruence].
Qed.
Lemma parent_fits a b : is_u256 (parent a b).
Proof. apply Crypto_props.keccak256_range. Qed.
Lemma parent_word a b : is_u256 a -> is_u256 b -> Merkle.commutative_hash_pair Merkle.keccak_hasher (word a) (word b) = word (parent a b).
Proof.
  intros Ha Hb. unfold Merkle.commutative_hash_pair, Merkle.hash_pair, Merkle.keccak_hasher. rewrite (blt_word b a Hb Ha). cbn [concat].
  rewrite !app_nil_r. unfold parent. destruct (Z.ltb_spec b a); [rewrite Z.min_r, Z.max_l by lia|rewrite Z.min_l, Z.max_r by lia]; reflexivity.
Qed.
Lemma process_cons H s proof leaf : Merkle.process H (s :: proof) leaf = Merkle.process H proof (Merkle.commutative_hash_pair H leaf s).
Proof. reflexivity. Qed.
Lemma climb_cons leaf s proof : climb leaf (s :: proof) = climb (parent leaf s) proof.
Proof. reflexivity. Qed.
Opaque parent climb Merkle.commutative_hash_pair Merkle.process.
Lemma climb_word proof : List.Forall is_u256 proof -> forall leaf, is_u256 leaf ->
  Merkle.process Merkle.keccak_hasher (map word proof) (word leaf) = word (climb leaf proof) /\ is_u256 (climb leaf proof).
Proof.
  induction 1 as [|s proof Hs _ IH]; intros leaf Hl; [split; [reflexivity|exact Hl]|].
  cbn [map]. rewrite process_cons, climb_cons, (parent_word leaf s Hl Hs). apply IH, parent_fits.
Qed.
Lemma verify_word proof root leaf : List.Forall is_u256 proof -> is_u256 root -> is_u256 leaf ->
  Merkle.verify Merkle.keccak_hasher (map word proof) (word root) (word leaf) = (climb leaf proof =? root).
Proof.
  intros Hp Hr Hl. unfold Merkle.verify. destruct (climb_word proof Hp leaf Hl) as [-> Hc]. apply beq_word; assumption.
Qed.

(** ** Multi proofs *)
Definition hits (flags : list bool) : nat := length (List.filter (fun b => b) flags).
Lemma hits_misses flags : (hits flags + misses flags = length flags)%nat.
Proof. unfold hits, misses. induction flags as [|[] l IH]; cbn in *; lia. Qed.
Lemma nth_skipn {A} j (l : list A) k : List.nth_error l (k + j) = List.nth_error (skipn k l) j.
Proof. revert l. induction k as [|k IHk]; intros [|x l]; cbn; auto. destruct j; reflexivity. Qed.
Lemma skipn_add {A} n m (l : list A) : skipn (n + m) l = skipn n (skipn m l).
Proof.
  revert l. induction m as [|m IH]; intros [|x l]; [rewrite Nat.add_0_r; reflexivity|rewrite Nat.add_0_r; reflexivity| |].
  - rewrite !skipn_nil. reflexivity.
  - rewrite Nat.add_succ_r. cbn [skipn]. apply IH.
Qed.
Section loop.
  Context (H : list (list Z) -> list Z) (par : Z -> Z -> Z).
  Context (par_fits : forall a b, is_u256 (par a b)).
  Context (par_word : forall a b, is_u256 a -> is_u256 b -> Merkle.commutative_hash_pair H (word a) (word b) = word (par a b)).
  Fixpoint rebuild_with (queue proof : list Z) (flags : list bool) {struct flags} : Z :=
    match flags, queue, proof with
    | true :: flags', a :: b :: queue', _ => rebuild_with (queue' ++ [par a b]) proof flags'
    | false :: flags', a :: queue', s :: proof' => rebuild_with (queue' ++ [par a s]) proof' flags'
    | _, _, _ => hd 0 queue
    end.
  Lemma loop_true proof flags hashes hp pp a b : List.nth_error hashes hp = Some a -> List.nth_error hashes (S hp) = Some b ->
    Merkle.multi_loop H proof (true :: flags) hashes hp pp =
    Merkle.multi_loop H proof flags (hashes ++ [Merkle.commutative_hash_pair H a b]) (S (S hp)) pp.
  Proof. intros E1 E2. cbn [Merkle.multi_loop]. rewrite E1, E2. reflexivity. Qed.
  Lemma loop_false proof flags hashes hp pp a b : List.nth_error hashes hp = Some a -> List.nth_error proof pp = Some b ->
    Merkle.multi_loop H proof (false :: flags) hashes hp pp =
    Merkle.multi_loop H proof flags (hashes ++ [Merkle.commutative_hash_pair H a b]) (S hp) (S pp).
  Proof. intros E1 E2. cbn [Merkle.multi_loop]. rewrite E1, E2. reflexivity. Qed.
  Lemma queue_step n x hashes hp q q' : (n <= length q)%nat -> skipn hp hashes = map word q -> q' = skipn n q -> (hp <= length hashes)%nat ->
    skipn (n + hp) (hashes ++ [word x]) = map word (q' ++ [x]).
  Proof.
    intros Hn Eq -> Hl.
    assert (K : length (skipn hp hashes) = length q) by (rewrite Eq, map_length; reflexivity). rewrite skipn_length in K.
    rewrite skipn_app. replace (n + hp - length hashes)%nat with 0%nat by lia. rewrite skipn_O, skipn_add, Eq, map_app, skipn_map. reflexivity.
  Qed.
  Lemma loop_word proof flags : List.Forall is_u256 proof -> forall hashes hp pp q p,
    skipn hp hashes = map word q -> skipn pp (map word proof) = map word p -> List.Forall is_u256 q -> List.Forall is_u256 p ->
    length q = S (hits flags) -> length p = misses flags ->
    exists new, Merkle.multi_loop H (map word proof) flags hashes hp pp = Ok (hashes ++ new) /\ length new = length flags /\
      is_u256 (rebuild_with q p flags) /\ List.nth_error (hashes ++ new) (length (hashes ++ new) - 1) = Some (word (rebuild_with q p flags)).
  Proof.
    intros HP. induction flags as [|f flags IH]; intros hashes hp pp q p Eq Ep Fq Fp Lq Lp.
    - destruct q as [|r [|]]; try discriminate Lq. exists []. cbn [Merkle.multi_loop rebuild_with hd]. rewrite app_nil_r.
      replace (rebuild_with [r] p []) with r by (destruct p; reflexivity).
      split; [reflexivity|]. split; [reflexivity|]. inversion Fq; subst. split; [assumption|].
      assert (L : length (skipn hp hashes) = 1%nat) by (rewrite Eq; reflexivity). rewrite skipn_length in L.
      replace (length hashes - 1)%nat with (hp + 0)%nat by lia. rewrite nth_skipn, Eq. reflexivity.
    - assert (Hl : (hp <= length hashes)%nat).
      { assert (K : length (skipn hp hashes) = length q) by (rewrite Eq, map_length; reflexivity). rewrite skipn_length in K. lia. }
      destruct q as [|a q]; [discriminate Lq|]. inversion Fq as [|? ? Ha Fq']; subst.
      assert (Na : List.nth_error hashes hp = Some (word a)) by (rewrite <- (Nat.add_0_r hp) at 1; rewrite nth_skipn, Eq; reflexivity).
      destruct f.
      + unfold hits in Lq. cbn [List.filter length] in Lq. fold (hits flags) in Lq. destruct q as [|b q]; [discriminate Lq|]. inversion Fq' as [|? ? Hb Fq'']; subst.
        assert (Nb : List.nth_error hashes (S hp) = Some (word b)) by (rewrite <- (Nat.add_1_r hp) at 1; rewrite nth_skipn, Eq; reflexivity).
        rewrite (loop_true _ _ _ _ _ _ _ Na Nb), (par_word a b Ha Hb).
        destruct (IH (hashes ++ [word (par a b)]) (S (S hp)) pp (q ++ [par a b]) p) as (new & E & Ln & Fr & En).
        * apply (queue_step 2 (par a b) hashes hp (a :: b :: q) q); [cbn; lia|exact Eq|reflexivity|exact Hl].
        * exact Ep.
        * apply List.Forall_app. split; [exact Fq''|]. apply List.Forall_cons; [apply par_fits|apply List.Forall_nil].
        * exact Fp.
        * rewrite app_length. cbn [length] in Lq |- *. clear - Lq. lia.
        * unfold misses in *. cbn [List.filter negb] in Lp. exact Lp.
        * exists (word (par a b) :: new). rewrite <- app_assoc in E, En. cbn [app] in E, En. cbn [rebuild_with]. split; [exact E|].
          split; [cbn [length]; clear - Ln; lia|]. split; [exact Fr|exact En].
      + unfold misses in Lp. cbn [List.filter negb length] in Lp. fold (misses flags) in Lp. destruct p as [|s p]; [discriminate Lp|]. inversion Fp as [|? ? Hs Fp']; subst.
        assert (Nb : List.nth_error (map word proof) pp = Some (word s)) by (rewrite <- (Nat.add_0_r pp) at 1; rewrite nth_skipn, Ep; reflexivity).
        rewrite (loop_false _ _ _ _ _ _ _ Na Nb), (par_word a s Ha Hs).
        destruct (IH (hashes ++ [word (par a s)]) (S hp) (S pp) (q ++ [par a s]) p) as (new & E & Ln & Fr & En).
        * apply (queue_step 1 (par a s) hashes hp (a :: q) q); [cbn; lia|exact Eq|reflexivity|exact Hl].
        * change (S pp) with (1 + pp)%nat. rewrite skipn_add, Ep. reflexivity.
        * apply List.Forall_app. split; [exact Fq'|]. apply List.Forall_cons; [apply par_fits|apply List.Forall_nil].
        * exact Fp'.
        * rewrite app_length. change (hits (false :: flags)) with (hits flags) in Lq. cbn [length] in Lq |- *. clear - Lq. lia.
        * clear - Lp. cbn [length] in Lp. lia.
        * exists (word (par a s) :: new). rewrite <- app_assoc in E, En. cbn [app] in E, En. cbn [rebuild_with]. split; [exact E|].
          split; [cbn [length]; clear - Ln; lia|]. split; [exact Fr|exact En].
  Qed.
  (** What the function answers. *)
  Definition judge_with (proof : list Z) (flags : list bool) (root : Z) (leaves : list Z) : bool + Merkle.error :=
    if negb (length leaves + length proof =? length flags + 1)%nat then inr Merkle.InvalidTotalHashes
    else match flags, leaves with
         | [], _ => inl (root =? hd 0 (leaves ++ proof))
         | _, [] => inr Merkle.NoLeaves
         | _, _ =>
             if (misses flags <? length proof)%nat then inr Merkle.InvalidRootChild
             else if (length proof <? misses flags)%nat then inr Merkle.InvalidProofLength
             else inl (root =? rebuild_with leaves proof flags)
         end.
  Lemma misses_count flags : Merkle_spec.count false flags = misses flags.
  Proof.
    induction flags as [|[] l IH]; [reflexivity| |]; rewrite Merkle_props.count_cons, IH; unfold misses; cbn [List.filter negb length]; reflexivity.
  Qed.
  Lemma run_multi proof f flags root l leaves hs r : (S (length leaves) + length proof = S (length flags) + 1)%nat ->
    Merkle.multi_loop H proof (f :: flags) (l :: leaves) 0 0 = Ok hs -> List.nth_error hs (S (length flags) + S (length leaves) - 1) = Some r ->
    Merkle.verify_multi_proof H proof (f :: flags) root (l :: leaves) = Ok (Merkle.beq root r).
  Proof.
    intros El E En. unfold Merkle.verify_multi_proof. cbn [length]. rewrite (proj2 (Nat.eqb_eq _ _) El). cbn [negb Nat.eqb]. rewrite E, En. reflexivity.
  Qed.
  Lemma multi_word proof flags root leaves : List.Forall is_u256 proof -> is_u256 root -> List.Forall is_u256 leaves ->
    Merkle.verify_multi_proof H (map word proof) flags (word root) (map word leaves) =
    match judge_with proof flags root leaves with inl b => Ok b | inr e => Err e end.
  Proof.
    intros Hp Hr Hl. destruct (Merkle_props.c56_error_kinds H (map word proof) flags (word root) (map word leaves)) as [K1 K2].
    rewrite !map_length in K1, K2. unfold judge_with.
    destruct (Nat.eqb_spec (length leaves + length proof) (length flags + 1)) as [El|El]; cbn [negb]; [|exact (K1 El)].
    specialize (K2 El). destruct flags as [|f flags].
    { unfold Merkle.verify_multi_proof. rewrite !map_length. cbn [length]. cbn [length] in El. rewrite (proj2 (Nat.eqb_eq _ _) El). cbn [negb Nat.eqb].
      destruct leaves as [|l leaves]; [destruct proof as [|x proof]; [discriminate El|]|]; cbn [map app hd]; (rewrite beq_word; [reflexivity|exact Hr|]).
      - inversion Hp; assumption.
      - inversion Hl; assumption. }
    destruct (K2 ltac:(discriminate)) as (K3 & K4 & K5). rewrite misses_count in K4, K5. destruct leaves as [|l leaves]; [apply K3; reflexivity|].
    destruct (Nat.ltb_spec (misses (f :: flags)) (length proof)) as [L1|L1]; [apply K4; [discriminate|exact L1]|].
    destruct (Nat.ltb_spec (length proof) (misses (f :: flags))) as [L2|L2]; [apply K5; [discriminate|exact L2]|].
    pose proof (hits_misses (f :: flags)) as Hm.
    destruct (loop_word proof (f :: flags) Hp (map word (l :: leaves)) 0 0 (l :: leaves) proof eq_refl eq_refl Hl Hp ltac:(lia) ltac:(lia)) as (new & E & Ln & Fr & En).
    refine (eq_trans (run_multi (map word proof) f flags (word root) (word l) (map word leaves) (map word (l :: leaves) ++ new) (word (rebuild_with (l :: leaves) proof (f :: flags))) _ E _) _).
    - rewrite !map_length. exact El.
    - refine (eq_trans _ En). f_equal. rewrite app_length, !map_length. cbn [length] in *. lia.
    - rewrite beq_word; [reflexivity|exact Hr|exact Fr].
  Qed.
End loop.
Definition err_sig (e : Merkle.error) : string :=
  match e with
  | Merkle.InvalidProofLength => "MerkleProofInvalidMultiProofLength()"
  | Merkle.InvalidRootChild => "MerkleProofInvalidRootChild()"
  | Merkle.InvalidTotalHashes => "MerkleProofInvalidTotalHashes()"
  | Merkle.NoLeaves => "MerkleProofNoLeaves()"
  end%string.
Lemma err_data e : revert_verifier e = error_data (err_sig e).
Proof. destruct e; unfold revert_verifier, error_data, sol_error; cbn [map flat_map]; rewrite app_nil_r; reflexivity. Qed.
Lemma judge_same proof flags root leaves :
  judge proof flags root leaves = match judge_with parent proof flags root leaves with inl b => inl b | inr e => inr (err_sig e) end.
Proof.
  unfold judge, judge_with. destruct (negb _); [reflexivity|]. destruct flags as [|f flags]; [reflexivity|]. destruct leaves as [|l leaves]; [reflexivity|].
  destruct (misses (f :: flags) <? length proof)%nat; [reflexivity|]. destruct (length proof <? misses (f :: flags))%nat; [reflexivity|].
  reflexivity.
Qed.

(** ** The two functions *)
Lemma known_verifier : all_known (blocks ExampleVerifier) = true.
Proof. vm_compute. reflexivity. Qed.
Lemma calldata_size sig args : size (calldata sig args) = 4 + size (abi_params args).
Proof. unfold calldata. rewrite size_app. reflexivity. Qed.
Lemma one_answer v : abi_params [Word v] = word v.
Proof. unfold abi_params. cbn [heads flat_map tail_of app]. rewrite !app_nil_r. reflexivity. Qed.
Theorem c91_verify_by_bytes :
  forall proof root leaf c, words_fit proof -> is_u256 root -> is_u256 leaf -> size (verify_data proof root leaf) < two256 ->
  entry ExampleVerifier c 0 (verify_data proof root leaf) tt = (Returned (word (flag_word (climb leaf proof =? root))), tt).
Proof.
  intros proof root leaf c Hp Hr Hl Hsz. unfold verify_data in *. rewrite calldata_size in Hsz.
  refine (eq_trans (entry_calldata ExampleVerifier c "verify(bytes32[],bytes32,bytes32)"%string [Words proof; Word root; Word leaf] tt "VerifierContract"%string
      (fn "verify" [Vec B256; B256; B256]) _ known_verifier _ _ _ _) _).
  - vm_compute. reflexivity.
  - vm_compute. reflexivity.
  - apply List.Forall2_cons; [exists B256; split; [reflexivity|exact Hp]|].
    apply List.Forall2_cons; [exact Hr|]. apply List.Forall2_cons; [exact Hl|apply List.Forall2_nil].
  - apply abi_params_bytes. repeat (apply List.Forall_cons || apply List.Forall_nil); exact I.
  - lia.
  - change (body_of (code ExampleVerifier) _ _ _ c tt) with
      (Ok [Word (of_bool (Merkle.verify Merkle.keccak_hasher (map word proof) (word root) (word leaf)))] : res Merkle.error (list val), tt).
    rewrite (verify_word proof root leaf Hp Hr Hl). cbn [finish]. rewrite one_answer. destruct (climb leaf proof =? root); reflexivity.
Qed.
Print Assumptions c91_verify_by_bytes.
Lemma flags_fit flags : List.Forall (word_of_type bool_) (map flag_word flags).
Proof. induction flags as [|[] l IH]; cbn [map]; [apply List.Forall_nil|..]; (apply List.Forall_cons; [cbn; auto|exact IH]). Qed.
Lemma flags_back flags : map (fun f => f =? 1) (map flag_word flags) = flags.
Proof. induction flags as [|[] l IH]; cbn [map]; [reflexivity|..]; rewrite IH; reflexivity. Qed.
Theorem c91_multi_by_bytes :
  forall proof flags root leaves c, words_fit proof -> is_u256 root -> words_fit leaves -> size (multi_data proof flags root leaves) < two256 ->
  entry ExampleVerifier c 0 (multi_data proof flags root leaves) tt =
  (match judge proof flags root leaves with inl b => Returned (word (flag_word b)) | inr sig => Reverted (error_data sig) end, tt).
Proof.
  intros proof flags root leaves c Hp Hr Hl Hsz. unfold multi_data in *. rewrite calldata_size in Hsz.
  refine (eq_trans (entry_calldata ExampleVerifier c "verifyMultiProof(bytes32[],bool[],bytes32,bytes32[])"%string
      [Words proof; Words (map flag_word flags); Word root; Words leaves] tt "VerifierContract"%string
      (fn "verify_multi_proof" [Vec B256; Vec bool_; B256; Vec B256]) _ known_verifier _ _ _ _) _).
  - vm_compute. reflexivity.
  - vm_compute. reflexivity.
  - apply List.Forall2_cons; [exists B256; split; [reflexivity|exact Hp]|]. apply List.Forall2_cons.
    { exists bool_. split; [reflexivity|exact (flags_fit flags)]. }
    apply List.Forall2_cons; [exact Hr|]. apply List.Forall2_cons; [exists B256; split; [reflexivity|exact Hl]|apply List.Forall2_nil].
  - apply abi_params_bytes. repeat (apply List.Forall_cons || apply List.Forall_nil); exact I.
  - lia.
  - change (body_of (code ExampleVerifier) _ _ _ c tt) with
      ((b <~ lift_res (Merkle.verify_multi_proof Merkle.keccak_hasher (map word proof) (map (fun f => f =? 1) (map flag_word flags)) (word root) (map word leaves)) ;;
        ret [Word (of_bool b)]) tt : res Merkle.error (list val) * unit).
    rewrite flags_back, (multi_word Merkle.keccak_hasher parent parent_fits parent_word proof flags root leaves Hp Hr Hl), judge_same.
    destruct (judge_with parent proof flags root leaves) as [b|e]; mred; cbn [finish].
    + rewrite one_answer. destruct b; reflexivity.
    + change (revert_data ExampleVerifier e) with (revert_verifier e). rewrite err_data. reflexivity.
Qed.
Print Assumptions c91_multi_by_bytes.

(** Anything else fails, and the contract has nothing to change. *)
Definition exposed_verifier := Eval vm_compute in exposed Pub.VerifierContract.
Lemma exposed_verifier_ok : exposed (blocks ExampleVerifier) = exposed_verifier.
Proof. vm_compute. reflexivity. Qed.
Lemma flags_of l : List.Forall (word_of_type bool_) l -> exists flags, l = map flag_word flags.
Proof.
  induction 1 as [|v l Hv _ [flags ->]]; [exists []; reflexivity|].
  destruct Hv as [->| ->]; [exists (false :: flags)|exists (true :: flags)]; reflexivity.
Qed.
Theorem c91_nothing_else :
  forall c v d, List.Forall is_byte d -> size d < two256 ->
  snd (entry ExampleVerifier c v d tt) = tt /\
  (~ verifier_call v d -> entry ExampleVerifier c v d tt = (Reverted [], tt)).
Proof.
  intros c v d Hb Hsz. split; [destruct (snd _); reflexivity|]. intros Hn.
  destruct (entry_cases ExampleVerifier c v d tt known_verifier Hb Hsz) as [K|(t & f & args & Hin & Hv & Ht & Hd & _)]; [exact K|].
  contradiction Hn. split; [exact Hv|]. rewrite exposed_verifier_ok in Hin. clear Hn Hb Hsz.
  destruct Hin as [E|[E|[]]]; apply pair_equal_spec in E; destruct E as [_ <-].
  - left. change (fn_sig _) with "verify(bytes32[],bytes32,bytes32)"%string in Hd. cbn [arg_types] in Ht.
    inversion Ht as [|? a1 ? l1 T1 Ht1]; subst. inversion Ht1 as [|? a2 ? l2 T2 Ht2]; subst. inversion Ht2 as [|? a3 ? l3 T3 Ht3]; subst. inversion Ht3; subst.
    destruct a1 as [?|proof|?]; [contradiction T1| |destruct T1 as [[T|T] _]; discriminate T].
    destruct a2 as [root|?|?]; [|destruct T2 as (? & T & _); discriminate T|destruct T2 as [[T|T] _]; discriminate T].
    destruct a3 as [leaf|?|?]; [|destruct T3 as (? & T & _); discriminate T|destruct T3 as [[T|T] _]; discriminate T].
    destruct T1 as (t1 & E1 & T1). injection E1 as <-. exists proof, root, leaf.
    split; [exact T1|]. split; [exact T2|]. split; [exact T3|reflexivity].
  - right. change (fn_sig _) with "verifyMultiProof(bytes32[],bool[],bytes32,bytes32[])"%string in Hd. cbn [arg_types] in Ht.
    inversion Ht as [|? a1 ? l1 T1 Ht1]; subst. inversion Ht1 as [|? a2 ? l2 T2 Ht2]; subst. inversion Ht2 as [|? a3 ? l3 T3 Ht3]; subst. inversion Ht3 as [|? a4 ? l4 T4 Ht4]; subst. inversion Ht4; subst.
    destruct a1 as [?|proof|?]; [contradiction T1| |destruct T1 as [[T|T] _]; discriminate T].
    destruct a2 as [?|fl|?]; [contradiction T2| |destruct T2 as [[T|T] _]; discriminate T].
    destruct a3 as [root|?|?]; [|destruct T3 as (? & T & _); discriminate T|destruct T3 as [[T|T] _]; discriminate T].
    destruct a4 as [?|leaves|?]; [contradiction T4| |destruct T4 as [[T|T] _]; discriminate T].
    destruct T1 as (t1 & E1 & T1). injection E1 as <-. destruct T2 as (t2 & E2 & T2). injection E2 as <-. destruct T4 as (t4 & E4 & T4). injection E4 as <-.
    destruct (flags_of fl T2) as [flags ->]. exists proof, flags, root, leaves.
    split; [exact T1|]. split; [exact T3|]. split; [exact T4|reflexivity].
Qed.
Print Assumptions c91_nothing_else.
(** The four reasons can be told apart. *)
Theorem c91_reasons_differ :
  List.NoDup (map error_data ["MerkleProofInvalidMultiProofLength()"; "MerkleProofInvalidRootChild()"; "MerkleProofInvalidTotalHashes()"; "MerkleProofNoLeaves()"]%string).
Proof.
  apply (List.NoDup_map_inv of_be). vm_compute.
  repeat (apply List.NoDup_cons; [intros H; cbn [In] in H; intuition discriminate|]). apply List.NoDup_nil.
Qed.
Print Assumptions c91_reasons_differ.

(** ** What an accepted proof means *)
Lemma parent_join a b : parent a b = keccak256 (join (pair_of a b)).
Proof. reflexivity. Qed.
Lemma pair_comm a b : pair_of a b = pair_of b a.
Proof. unfold pair_of. rewrite Z.min_comm, Z.max_comm. reflexivity. Qed.
Lemma parent_comm a b : parent a b = parent b a.
Proof. rewrite !parent_join, pair_comm. reflexivity. Qed.
Lemma pair_inj a b c d : pair_of a b = pair_of c d -> (a = c /\ b = d) \/ (a = d /\ b = c).
Proof. unfold pair_of. intros E. apply pair_equal_spec in E. lia. Qed.
Lemma climb_snoc leaf proof s : climb leaf (proof ++ [s]) = parent (climb leaf proof) s.
Proof. revert leaf. induction proof as [|x proof IH]; intros leaf; [reflexivity|]. cbn [app]. rewrite !climb_cons. apply IH. Qed.
Lemma proof_pairs_snoc leaf proof s : proof_pairs leaf (proof ++ [s]) = proof_pairs leaf proof ++ [pair_of (climb leaf proof) s].
Proof. revert leaf. induction proof as [|x proof IH]; intros leaf; [reflexivity|]. cbn [app proof_pairs]. rewrite IH, climb_cons. reflexivity. Qed.
Definition pair_dec (x y : Z * Z) : {x = y} + {x <> y}.
Proof. decide equality; apply BinInt.Z.eq_dec. Defined.
(** The siblings of any part of the tree prove it. *)
Theorem c91_siblings_verify : forall t p u, part_at t p = Some u -> climb (top u) (beside t p) = top t.
Proof.
  intros t p. revert t. induction p as [|b p IH]; intros t u E.
  - destruct t; injection E as <-; reflexivity.
  - destruct t as [|l r]; [discriminate|]. cbn [part_at beside top] in *. rewrite climb_snoc, (IH _ _ E). destruct b; [apply parent_comm|reflexivity].
Qed.
Print Assumptions c91_siblings_verify.
(** An accepted leaf is the root of a part of the tree at that depth, with just these siblings;
    or the verifier and the tree have hashed two different pairs to the same value; or a pair
    the verifier hashed gives a leaf of the tree. *)
Theorem c91_soundness :
  forall t proof leaf, climb leaf proof = top t ->
  (exists p u, length p = length proof /\ part_at t p = Some u /\ top u = leaf /\ beside t p = proof) \/
  (exists x y, In x (proof_pairs leaf proof) /\ In y (tree_pairs t) /\ x <> y /\ keccak256 (join x) = keccak256 (join y)) \/
  (exists x, In x (proof_pairs leaf proof) /\ In (keccak256 (join x)) (leaves_of t)).
Proof.
  intros t proof leaf. revert t. induction proof as [|s proof IH] using rev_ind; intros t E.
  { left. exists [], t. split; [reflexivity|]. destruct t; cbn; auto. }
  rewrite climb_snoc in E. rewrite proof_pairs_snoc.
  assert (Hlast : In (pair_of (climb leaf proof) s) (proof_pairs leaf proof ++ [pair_of (climb leaf proof) s])) by (apply in_or_app; right; left; reflexivity).
  destruct t as [x|l r]; cbn [top] in E.
  { right. right. exists (pair_of (climb leaf proof) s). split; [exact Hlast|]. rewrite <- parent_join, E. left. reflexivity. }
  destruct (pair_dec (pair_of (climb leaf proof) s) (pair_of (top l) (top r))) as [Ep|Ep].
  2: { right. left. exists (pair_of (climb leaf proof) s), (pair_of (top l) (top r)). split; [exact Hlast|]. split; [left; reflexivity|].
       split; [exact Ep|]. rewrite <- !parent_join. exact E. }
  assert (R : exists b : bool, climb leaf proof = top (if b then r else l) /\ s = top (if b then l else r)).
  { destruct (pair_inj _ _ _ _ Ep) as [[E1 E2]|[E1 E2]]; [exists false|exists true]; split; assumption. }
  destruct R as (b & E1 & ->).
  destruct (IH _ E1) as [(p & u & Lp & Pu & Tu & Bp)|[(x & y & Hx & Hy & Hn & He)|(x & Hx & Hl)]].
  - left. exists (b :: p), u. split; [cbn [length]; rewrite app_length, Lp; cbn [length]; lia|]. split; [destruct b; exact Pu|].
    split; [exact Tu|]. cbn [beside]. destruct b; rewrite Bp; reflexivity.
  - right. left. exists x, y. split; [apply in_or_app; left; exact Hx|].
    split; [cbn [tree_pairs]; right; apply in_or_app; destruct b; [right|left]; exact Hy|]. split; assumption.
  - right. right. exists x. split; [apply in_or_app; left; exact Hx|]. cbn [leaves_of]. apply in_or_app. destruct b; [right|left]; exact Hl.
Qed.
Print Assumptions c91_soundness.
(** Lists of hashed data, none of them 64 bytes long: what is accepted is on the list, or two of
    the strings hashed on either side collide. *)
Lemma join_length x : length (join x) = 64%nat.
Proof. unfold join. rewrite app_length, !word_length. reflexivity. Qed.
Lemma part_inner t : forall p l r, part_at t p = Some (MNode l r) -> In (pair_of (top l) (top r)) (tree_pairs t).
Proof.
  induction t as [x|t1 IH1 t2 IH2]; intros [|b p] l r E; cbn [part_at] in E; try discriminate.
  - injection E as -> ->. left. reflexivity.
  - cbn [tree_pairs]. right. apply in_or_app. destruct b; [right; apply (IH2 p)|left; apply (IH1 p)]; exact E.
Qed.
Lemma part_leaf t : forall p x, part_at t p = Some (MLeaf x) -> In x (leaves_of t).
Proof.
  induction t as [y|t1 IH1 t2 IH2]; intros [|b p] x E; cbn [part_at] in E; try discriminate.
  - injection E as ->. left. reflexivity.
  - cbn [leaves_of]. apply in_or_app. destruct b; [right; apply (IH2 p)|left; apply (IH1 p)]; exact E.
Qed.
Definition pair_fits (x : Z * Z) : Prop := is_u256 (fst x) /\ is_u256 (snd x).
Lemma pair_of_fits a b : is_u256 a -> is_u256 b -> pair_fits (pair_of a b).
Proof. intros Ha Hb. unfold pair_fits, pair_of. cbn [fst snd]. destruct (Z.min_spec a b) as [[_ ->]|[_ ->]]; destruct (Z.max_spec a b) as [[_ ->]|[_ ->]]; split; assumption. Qed.
Lemma top_fits t : words_fit (leaves_of t) -> is_u256 (top t).
Proof. destruct t as [x|l r]; intros H; cbn [top]; [inversion H; assumption|apply parent_fits]. Qed.
Lemma tree_pairs_fit t : words_fit (leaves_of t) -> List.Forall pair_fits (tree_pairs t).
Proof.
  induction t as [x|l IHl r IHr]; intros H; [apply List.Forall_nil|]. cbn [leaves_of tree_pairs] in *. apply List.Forall_app in H. destruct H as [H1 H2].
  apply List.Forall_cons; [apply pair_of_fits; apply top_fits; assumption|]. apply List.Forall_app. split; [apply IHl, H1|apply IHr, H2].
Qed.
Lemma proof_pairs_fit proof : words_fit proof -> forall leaf, is_u256 leaf -> List.Forall pair_fits (proof_pairs leaf proof).
Proof.
  induction 1 as [|s proof Hs _ IH]; intros leaf Hl; [apply List.Forall_nil|]. cbn [proof_pairs].
  apply List.Forall_cons; [apply pair_of_fits; assumption|]. apply IH, parent_fits.
Qed.
Lemma join_inj x y : pair_fits x -> pair_fits y -> join x = join y -> x = y.
Proof.
  intros [H1 H2] [H3 H4] E. unfold join in E. apply app_inj_1 in E; [|rewrite !word_length; reflexivity]. destruct E as [E1 E2].
  apply word_inj in E1; [|assumption..]. apply word_inj in E2; [|assumption..]. destruct x, y. cbn [fst snd] in *. congruence.
Qed.
Lemma hashes_fit data : words_fit (map keccak256 data).
Proof. induction data as [|x data IH]; cbn [map]; [apply List.Forall_nil|]. apply List.Forall_cons; [apply Crypto_props.keccak256_range|exact IH]. Qed.
Definition string_dec (x y : list Z) : {x = y} + {x <> y} := list_eq_dec BinInt.Z.eq_dec x y.
Lemma membership t data x proof strings : words_fit proof ->
  leaves_of t = map keccak256 data -> List.Forall (fun y => length y <> 64%nat) (x :: data) -> climb (keccak256 x) proof = top t ->
  (forall y, In y (x :: data ++ map join (proof_pairs (keccak256 x) proof) ++ map join (tree_pairs t)) -> In y strings) ->
  In x data \/ collide strings.
Proof.
  intros Hfit Ht Hf E Hs. inversion Hf as [|? ? Hx Hd]; subst. rewrite List.Forall_forall in Hd.
  assert (Ix : In x strings) by (apply Hs; left; reflexivity).
  assert (Id : forall y, In y data -> In y strings) by (intros y Hy; apply Hs; right; apply in_or_app; left; exact Hy).
  assert (Ip : forall y, In y (proof_pairs (keccak256 x) proof) -> In (join y) strings).
  { intros y Hy. apply Hs. right. apply in_or_app. right. apply in_or_app. left. apply in_map, Hy. }
  assert (It : forall y, In y (tree_pairs t) -> In (join y) strings).
  { intros y Hy. apply Hs. right. apply in_or_app. right. apply in_or_app. right. apply in_map, Hy. }
  clear Hs. destruct (c91_soundness t proof (keccak256 x) E) as [(p & u & _ & Pu & Tu & _)|[(y & z & Hy & Hz & Hn & He)|(y & Hy & Hl)]].
  - destruct u as [v|l r].
    + apply part_leaf in Pu. rewrite Ht in Pu. apply in_map_iff in Pu. destruct Pu as (w & Hw & Iw). cbn [top] in Tu.
      destruct (string_dec w x) as [->|Hn]; [left; exact Iw|]. right. exists w, x. split; [apply Id, Iw|]. split; [exact Ix|]. split; [exact Hn|congruence].
    + apply part_inner in Pu. right. exists (join (pair_of (top l) (top r))), x. split; [apply It, Pu|]. split; [exact Ix|].
      split; [intros K; apply Hx; rewrite <- K; apply join_length|]. rewrite <- parent_join. exact Tu.
  - right. exists (join y), (join z). split; [apply Ip, Hy|]. split; [apply It, Hz|]. split; [|exact He].
    intros K. apply Hn. apply join_inj; [| |exact K].
    + apply (proj1 (List.Forall_forall pair_fits _) (proof_pairs_fit proof Hfit (keccak256 x) (Crypto_props.keccak256_range x)) y Hy).
    + refine (proj1 (List.Forall_forall pair_fits _) (tree_pairs_fit t _) z Hz). rewrite Ht. apply hashes_fit.
  - rewrite Ht in Hl. apply in_map_iff in Hl. destruct Hl as (w & Hw & Iw). right. exists w, (join y). split; [apply Id, Iw|]. split; [apply Ip, Hy|].
    split; [|exact Hw]. intros K. apply (Hd w Iw). rewrite K. apply join_length.
Qed.

Lemma words_differ : word (flag_word false) <> word 1.
Proof. intros W. vm_compute in W. discriminate W. Qed.
Theorem c91_allow_list :
  forall t data x proof c, leaves_of t = map keccak256 data -> List.Forall (fun y => length y <> 64%nat) (x :: data) ->
  words_fit proof -> size (verify_data proof (top t) (keccak256 x)) < two256 ->
  entry ExampleVerifier c 0 (verify_data proof (top t) (keccak256 x)) tt = (Returned (word 1), tt) ->
  In x data \/ collide (x :: data ++ map join (proof_pairs (keccak256 x) proof) ++ map join (tree_pairs t)).
Proof.
  intros t data x proof c Ht Hf Hp Hsz E.
  assert (Hr : is_u256 (top t)) by (apply top_fits; rewrite Ht; apply hashes_fit).
  rewrite (c91_verify_by_bytes proof (top t) (keccak256 x) c Hp Hr (Crypto_props.keccak256_range x) Hsz) in E.
  apply pair_equal_spec in E. destruct E as [E _].
  assert (K : climb (keccak256 x) proof = top t).
  { destruct (climb (keccak256 x) proof =? top t) eqn:Ec; [apply Z.eqb_eq, Ec|]. exfalso.
    apply words_differ. congruence. }
  apply (membership t data x proof _ Hp Ht Hf K). intros y Hy. exact Hy.
Qed.
Print Assumptions c91_allow_list.
(** Everything on the list can be proved, with a proof as long as its place is deep. *)
Lemma leaf_place t : forall x, In x (leaves_of t) -> exists p, part_at t p = Some (MLeaf x).
Proof.
  induction t as [y|l IHl r IHr]; intros x H; cbn [leaves_of] in H.
  - destruct H as [->|[]]. exists []. reflexivity.
  - apply in_app_or in H. destruct H as [H|H]; [destruct (IHl x H) as [p E]; exists (false :: p)|destruct (IHr x H) as [p E]; exists (true :: p)]; exact E.
Qed.
Lemma beside_fits t : words_fit (leaves_of t) -> forall p, words_fit (beside t p).
Proof.
  induction t as [x|l IHl r IHr]; intros H [|b p]; try apply List.Forall_nil. cbn [leaves_of beside] in *. apply List.Forall_app in H. destruct H as [H1 H2].
  apply List.Forall_app. destruct b; (split; [first [exact (IHr H2 p)|exact (IHl H1 p)]|]); (apply List.Forall_cons; [apply top_fits; assumption|apply List.Forall_nil]).
Qed.
Theorem c91_listed_is_provable :
  forall t x, words_fit (leaves_of t) -> In x (leaves_of t) ->
  exists p, part_at t p = Some (MLeaf x) /\ forall c, size (verify_data (beside t p) (top t) x) < two256 ->
  entry ExampleVerifier c 0 (verify_data (beside t p) (top t) x) tt = (Returned (word 1), tt).
Proof.
  intros t x Hf Hx. destruct (leaf_place t x Hx) as [p Hp]. exists p. split; [exact Hp|]. intros c Hsz.
  rewrite (c91_verify_by_bytes (beside t p) (top t) x c (beside_fits t Hf p) (top_fits t Hf) (proj1 (List.Forall_forall _ _) Hf x Hx) Hsz).
  replace (climb x (beside t p) =? top t) with true; [reflexivity|]. symmetry. apply Z.eqb_eq. exact (c91_siblings_verify t p (MLeaf x) Hp).
Qed.
Print Assumptions c91_listed_is_provable.
(** *** Multi proofs: each leaf has a proof of its own, made of pairs hashed on the way. *)
Lemma multi_true a b queue proof flags : multi_pairs (a :: b :: queue) proof (true :: flags) = pair_of a b :: multi_pairs (queue ++ [parent a b]) proof flags.
Proof. reflexivity. Qed.
Lemma multi_false a s queue proof flags : multi_pairs (a :: queue) (s :: proof) (false :: flags) = pair_of a s :: multi_pairs (queue ++ [parent a s]) proof flags.
Proof. reflexivity. Qed.
Lemma rebuild_true a b queue proof flags : rebuild (a :: b :: queue) proof (true :: flags) = rebuild (queue ++ [parent a b]) proof flags.
Proof. reflexivity. Qed.
Lemma rebuild_false a s queue proof flags : rebuild (a :: queue) (s :: proof) (false :: flags) = rebuild (queue ++ [parent a s]) proof flags.
Proof. reflexivity. Qed.
Lemma rebuild_nil r queue proof : rebuild (r :: queue) proof [] = r.
Proof. destruct proof; reflexivity. Qed.
Opaque rebuild multi_pairs.
Lemma single_proofs flags : forall q p, length q = S (hits flags) -> length p = misses flags -> words_fit q -> words_fit p ->
  forall x, In x q -> exists proof, words_fit proof /\ climb x proof = rebuild q p flags /\
    (forall y, In y (proof_pairs x proof) -> In y (multi_pairs q p flags)).
Proof.
  induction flags as [|f flags IH]; intros q p Lq Lp Fq Fp x Hx.
  - destruct q as [|r [|]]; try discriminate Lq. destruct Hx as [->|[]]. exists []. rewrite rebuild_nil. split; [apply List.Forall_nil|]. split; [reflexivity|]. intros y [].
  - assert (Step : forall a s q' p', is_u256 a -> is_u256 s -> length (q' ++ [parent a s]) = S (hits flags) -> length p' = misses flags -> words_fit q' -> words_fit p' ->
      (x = a \/ x = s \/ In x q') -> rebuild q p (f :: flags) = rebuild (q' ++ [parent a s]) p' flags ->
      multi_pairs q p (f :: flags) = pair_of a s :: multi_pairs (q' ++ [parent a s]) p' flags ->
      exists proof, words_fit proof /\ climb x proof = rebuild q p (f :: flags) /\ (forall y, In y (proof_pairs x proof) -> In y (multi_pairs q p (f :: flags)))).
    { intros a s q' p' Ha Hs L1 L2 F1 F2 Hc -> ->.
      assert (F3 : words_fit (q' ++ [parent a s])) by (apply List.Forall_app; split; [exact F1|apply List.Forall_cons; [apply parent_fits|apply List.Forall_nil]]).
      destruct Hc as [->|[->|Hc]].
      - destruct (IH _ _ L1 L2 F3 F2 (parent a s)) as (proof & Fpr & Cl & Sub); [apply in_or_app; right; left; reflexivity|].
        exists (s :: proof). split; [apply List.Forall_cons; assumption|]. split; [rewrite climb_cons; exact Cl|].
        intros y [<-|Hy]; [left; reflexivity|right; apply Sub, Hy].
      - destruct (IH _ _ L1 L2 F3 F2 (parent a s)) as (proof & Fpr & Cl & Sub); [apply in_or_app; right; left; reflexivity|].
        exists (a :: proof). split; [apply List.Forall_cons; assumption|]. split; [rewrite climb_cons, parent_comm; exact Cl|].
        intros y Hy. cbn [proof_pairs] in Hy. rewrite (parent_comm s a), (pair_comm s a) in Hy. destruct Hy as [<-|Hy]; [left; reflexivity|right; apply Sub, Hy].
      - destruct (IH _ _ L1 L2 F3 F2 x) as (proof & Fpr & Cl & Sub); [apply in_or_app; left; exact Hc|].
        exists proof. split; [exact Fpr|]. split; [exact Cl|]. intros y Hy. right. apply Sub, Hy. }
    destruct q as [|a q]; [discriminate Lq|]. inversion Fq as [|? ? Ha Fq']; subst. destruct f.
    + change (hits (true :: flags)) with (S (hits flags)) in Lq. change (misses (true :: flags)) with (misses flags) in Lp.
      destruct q as [|b q]; [discriminate Lq|]. inversion Fq' as [|? ? Hb Fq'']; subst.
      apply (Step a b q p Ha Hb); [rewrite app_length; cbn [length] in *; lia|exact Lp|exact Fq''|exact Fp| |apply rebuild_true|apply multi_true].
      destruct Hx as [<-|[<-|Hx]]; auto.
    + change (hits (false :: flags)) with (hits flags) in Lq. change (misses (false :: flags)) with (S (misses flags)) in Lp.
      destruct p as [|s p]; [discriminate Lp|]. inversion Fp as [|? ? Hs Fp']; subst.
      apply (Step a s q p Ha Hs); [rewrite app_length; cbn [length] in *; lia|cbn [length] in Lp; lia|exact Fq'|exact Fp'| |apply rebuild_false|apply multi_false].
      destruct Hx as [<-|Hx]; auto.
Qed.
(** So the same holds for every leaf of an accepted multi proof. *)
Theorem c91_multi_allow_list :
  forall t data xs proof flags c, leaves_of t = map keccak256 data -> List.Forall (fun y => length y <> 64%nat) (xs ++ data) ->
  words_fit proof -> size (multi_data proof flags (top t) (map keccak256 xs)) < two256 ->
  entry ExampleVerifier c 0 (multi_data proof flags (top t) (map keccak256 xs)) tt = (Returned (word 1), tt) ->
  List.Forall (fun x => In x data) xs \/
  collide (xs ++ data ++ map join (multi_pairs (map keccak256 xs) proof flags) ++ map join (tree_pairs t)).
Proof.
  intros t data xs proof flags c Ht Hf Hp Hsz E.
  assert (Hr : is_u256 (top t)) by (apply top_fits; rewrite Ht; apply hashes_fit).
  rewrite (c91_multi_by_bytes proof flags (top t) (map keccak256 xs) c Hp Hr (hashes_fit xs) Hsz) in E.
  apply pair_equal_spec in E. destruct E as [E _].
  set (strings := xs ++ data ++ map join (multi_pairs (map keccak256 xs) proof flags) ++ map join (tree_pairs t)).
  assert (J : judge proof flags (top t) (map keccak256 xs) = inl true).
  { destruct (judge proof flags (top t) (map keccak256 xs)) as [[]|e]; [reflexivity| |discriminate E]. exfalso.
    apply words_differ. congruence. }
  clear E. unfold judge in J. rewrite map_length in J.
  destruct (Nat.eqb_spec (length xs + length proof) (length flags + 1)) as [El|El]; cbn [negb] in J; [|discriminate J].
  assert (Singles : forall x, In x xs -> exists pr, words_fit pr /\ climb (keccak256 x) pr = top t /\
    (forall y, In y (proof_pairs (keccak256 x) pr) -> In y (multi_pairs (map keccak256 xs) proof flags))).
  { intros x Hx. destruct flags as [|f flags].
    - destruct xs as [|x' xs]; [destruct Hx|]. destruct xs as [|? ?]; [|cbn [length] in El; lia]. destruct Hx as [->|[]].
      cbn [map app hd] in J. exists []. split; [apply List.Forall_nil|].
      split; [|intros y []]. assert (Q : (top t =? keccak256 x) = true) by congruence. apply Z.eqb_eq in Q. symmetry. exact Q.
    - destruct xs as [|x' xs]; [destruct Hx|]. cbn [map] in J.
      destruct (Nat.ltb_spec (misses (f :: flags)) (length proof)) as [L1|L1]; [discriminate J|].
      destruct (Nat.ltb_spec (length proof) (misses (f :: flags))) as [L2|L2]; [discriminate J|].
      assert (Q : (top t =? rebuild (keccak256 x' :: map keccak256 xs) proof (f :: flags)) = true) by congruence. apply Z.eqb_eq in Q.
      pose proof (hits_misses (f :: flags)) as Hm. rewrite Q.
      apply (single_proofs (f :: flags) (map keccak256 (x' :: xs)) proof); [rewrite map_length; lia|lia|apply hashes_fit|exact Hp|].
      apply in_map, Hx. }
  assert (All : forall l, (forall x, In x l -> In x xs) -> List.Forall (fun x => In x data) l \/ collide strings).
  { induction l as [|x l IH]; intros Hl; [left; apply List.Forall_nil|]. destruct (IH (fun y Hy => Hl y (or_intror Hy))) as [K|K]; [|right; exact K].
    destruct (Singles x (Hl x (or_introl eq_refl))) as (pr & Fpr & Cl & Sub).
    assert (Fx : List.Forall (fun y => length y <> 64%nat) (x :: data)).
    { apply List.Forall_app in Hf. destruct Hf as [H1 H2]. apply List.Forall_cons; [|exact H2]. exact (proj1 (List.Forall_forall _ _) H1 x (Hl x (or_introl eq_refl))). }
    destruct (membership t data x pr strings Fpr Ht Fx Cl) as [M|M]; [|left; apply List.Forall_cons; assumption|right; exact M].
    intros y Hy. unfold strings. destruct Hy as [<-|Hy]; [apply in_or_app; left; apply Hl; left; reflexivity|].
    apply in_or_app. right. apply in_app_or in Hy. apply in_or_app. destruct Hy as [Hy|Hy]; [left; exact Hy|right].
    apply in_app_or in Hy. apply in_or_app. destruct Hy as [Hy|Hy]; [left|right; exact Hy].
    apply in_map_iff in Hy. destruct Hy as (z & <- & Hz). apply in_map, Sub, Hz. }
  apply All. auto.
Qed.
Print Assumptions c91_multi_allow_list.

(** Non-vacuity: a tree over the hashes of three strings. The verifier accepts the third with its
    sibling and refuses it with a false one; the pair and a multi proof of two leaves; all four
    reasons of refusal occur. *)
Definition three : list (list Z) := [[1]; [2]; [3]].
Lemma three_leaves : exists a b c, map keccak256 three = [a; b; c] /\ is_u256 a /\ is_u256 b /\ is_u256 c.
Proof. exists (keccak256 [1]), (keccak256 [2]), (keccak256 [3]). split; [reflexivity|]. split; [|split]; apply Crypto_props.keccak256_range. Qed.
Example c91_nonvacuous : exists t, leaves_of t = map keccak256 three /\
  (exists proof, words_fit proof /\ size (verify_data proof (top t) (keccak256 [3])) < two256 /\
     entry ExampleVerifier 5 0 (verify_data proof (top t) (keccak256 [3])) tt = (Returned (word 1), tt)) /\
  (exists proof, words_fit proof /\ length proof = 1%nat /\
     entry ExampleVerifier 5 0 (multi_data proof [true; false] (top t) (map keccak256 [[1]; [2]])) tt = (Returned (word 1), tt)) /\
  (forall root, judge [1; 2] [true] root [3] = inr "MerkleProofInvalidTotalHashes()"%string /\
     judge [1; 2] [true] root [] = inr "MerkleProofNoLeaves()"%string /\
     judge [1] [true] root [3] = inr "MerkleProofInvalidRootChild()"%string /\
     judge [] [false] root [3; 4] = inr "MerkleProofInvalidMultiProofLength()"%string).
Proof.
  destruct three_leaves as (a & b & c & E & Ha & Hb & Hc).
  assert (E1 : keccak256 [1] = a /\ keccak256 [2] = b /\ keccak256 [3] = c).
  { unfold three in E. cbn [map] in E. generalize dependent (keccak256 [1]). generalize dependent (keccak256 [2]). generalize dependent (keccak256 [3]).
    intros z y x E. injection E. auto. }
  destruct E1 as (E1 & E2 & E3). exists (MNode (MNode (MLeaf a) (MLeaf b)) (MLeaf c)).
  assert (P : words_fit [parent a b]) by (apply List.Forall_cons; [apply parent_fits|apply List.Forall_nil]).
  assert (Q : words_fit [c]) by (apply List.Forall_cons; [exact Hc|apply List.Forall_nil]).
  assert (R : words_fit [a; b]) by (apply List.Forall_cons; [exact Ha|apply List.Forall_cons; [exact Hb|apply List.Forall_nil]]).
  assert (S1 : size (verify_data [parent a b] (parent (parent a b) c) c) < two256).
  { unfold verify_data. rewrite calldata_size. unfold abi_params. cbn [heads flat_map tail_of app]. rewrite !app_nil_r, !size_app, !size_word. reflexivity. }
  assert (S2 : size (multi_data [c] [true; false] (parent (parent a b) c) [a; b]) < two256).
  { unfold multi_data. rewrite calldata_size. unfold abi_params. cbn [heads flat_map tail_of app map]. rewrite ?app_nil_r, !size_app, !size_word. reflexivity. }
  split; [rewrite E; reflexivity|]. cbn [top]. rewrite E3. split; [|split].
  - exists [parent a b]. split; [exact P|]. split; [exact S1|].
    rewrite (c91_verify_by_bytes [parent a b] (parent (parent a b) c) c 5 P (parent_fits _ _) Hc S1).
    rewrite climb_cons, (parent_comm c). change (climb (parent (parent a b) c) []) with (parent (parent a b) c). rewrite Z.eqb_refl. reflexivity.
  - exists [c]. split; [exact Q|]. split; [reflexivity|]. cbn [map]. rewrite E1, E2.
    rewrite (c91_multi_by_bytes [c] [true; false] (parent (parent a b) c) [a; b] 5 Q (parent_fits _ _) R S2).
    replace (judge [c] [true; false] (parent (parent a b) c) [a; b]) with (inl true : bool + string); [reflexivity|].
    unfold judge. cbn [length Nat.add Nat.eqb negb]. change (misses [true; false]) with 1%nat. cbn [Nat.ltb Nat.leb].
    rewrite rebuild_true. cbn [app]. rewrite rebuild_false. cbn [app]. rewrite rebuild_nil, Z.eqb_refl. reflexivity.
  - intros root. exact (conj eq_refl (conj eq_refl (conj eq_refl eq_refl))).
Qed.
