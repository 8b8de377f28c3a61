(** Merkle proofs: properties C54-C56. *)
From Verif.Base Require Import Prelude Bytes Keccak.
From Verif.Model Require Merkle.
From Verif.Spec Require Import Merkle_spec.
From stdpp Require Import list sets.
Import Merkle.
#[global] Open Scope Z_scope.

Lemma beq_eq a b : beq a b = true <-> a = b.
Proof.
  revert b. induction a as [|x a IH]; intros [|y b]; cbn; split; try congruence; try discriminate.
  - rewrite andb_true_iff, Z.eqb_eq, IH. intros [-> ->]. reflexivity.
  - intros E. inversion E; subst. rewrite Z.eqb_refl. apply IH. reflexivity.
Qed.
Lemma blt_asym a b : blt a b = true -> blt b a = false.
Proof.
  revert b. induction a as [|x a IH]; intros [|y b]; cbn; try congruence; auto.
  rewrite orb_true_iff, orb_false_iff, andb_true_iff, andb_false_iff, Z.ltb_lt, Z.eqb_eq, Z.ltb_ge, Z.eqb_neq.
  intros [|[-> H]]; [lia|]. split; [lia|]. right. auto.
Qed.
Lemma blt_total a b : blt a b = false -> blt b a = false -> a = b.
Proof.
  revert b. induction a as [|x a IH]; intros [|y b]; cbn; try congruence; auto.
  rewrite !orb_false_iff, !andb_false_iff, !Z.ltb_ge, !Z.eqb_neq. intros [H1 H2] [H3 H4].
  assert (x = y) by lia. subst. f_equal. apply IH; tauto.
Qed.
Lemma sorted_pair_comm a b : sorted_pair a b = sorted_pair b a.
Proof.
  unfold sorted_pair. destruct (blt b a) eqn:E1; destruct (blt a b) eqn:E2; try reflexivity.
  - apply blt_asym in E1. congruence.
  - rewrite (blt_total a b E2 E1). reflexivity.
Qed.
Lemma sorted_pair_inj a b c d : sorted_pair a b = sorted_pair c d -> (a = c /\ b = d) \/ (a = d /\ b = c).
Proof. unfold sorted_pair. destruct (blt b a); destruct (blt d c); intros E; inversion E; subst; auto. Qed.
Lemma chash_sorted H a b : commutative_hash_pair H a b = H (sorted_pair a b).
Proof. unfold commutative_hash_pair, sorted_pair, hash_pair. destruct (blt b a); reflexivity. Qed.
Lemma process_app H p1 p2 x : process H (p1 ++ p2) x = process H p2 (process H p1 x).
Proof. apply fold_left_app. Qed.

(** ** C54 *)
Theorem c54_sibling_path_verifies H t p u :
  subtree t p = Some u -> verify H (rev (siblings H t p)) (root H t) (root H u) = true.
Proof.
  intros E. apply beq_eq. revert t E. induction p as [|b p IH]; intros t E.
  - destruct t; inversion E; subst; reflexivity.
  - destruct t as [|l r]; [discriminate|]. cbn [subtree siblings rev] in *. rewrite process_app, (IH _ E).
    cbn [process fold_left]. rewrite chash_sorted. cbn [root]. destruct b; [rewrite sorted_pair_comm|]; reflexivity.
Qed.
Print Assumptions c54_sibling_path_verifies.
Definition toy_hasher (l : list bytes) : bytes := [fold_left (fun a b => Z.modulo (a * a * 31 + of_be b * 17 + 7) 65521) l 1].
Definition demo : tree := Node (Node (Leaf [3]) (Node (Leaf [9]) (Leaf [4]))) (Leaf [7]).
Example c54_demo :
  subtree demo [false; true; false] = Some (Leaf [9]) /\ length (siblings toy_hasher demo [false; true; false]) = 3%nat /\
  verify toy_hasher (rev (siblings toy_hasher demo [false; true; false])) (root toy_hasher demo) [9] = true /\
  verify toy_hasher (siblings toy_hasher demo [false; true; false]) (root toy_hasher demo) [9] = false.
Proof. vm_compute. repeat split; reflexivity. Qed.

(** ** C55 *)
Lemma snoc_inputs H p s x :
  proof_inputs H (p ++ [s]) x = proof_inputs H p x ++ [sorted_pair (process H p x) s].
Proof.
  revert x. induction p as [|y p IH]; intros x; [reflexivity|]. cbn [app proof_inputs]. rewrite IH.
  cbn [process fold_left]. rewrite chash_sorted. reflexivity.
Qed.
(** An accepted leaf is the hash of a node of the tree, whose siblings up to the root are
    exactly the proof -- or the strings hashed by the verification and by building the tree
    contain a collision, or the verification hashed a preimage of a leaf of the tree. *)
Theorem c55_soundness H t proof leaf :
  verify H proof (root H t) leaf = true ->
  (exists p u, length p = length proof /\ subtree t p = Some u /\ root H u = leaf /\ rev (siblings H t p) = proof) \/
  (exists x y, x ∈ proof_inputs H proof leaf /\ y ∈ tree_inputs H t /\ x <> y /\ H x = H y) \/
  (exists x, x ∈ proof_inputs H proof leaf /\ H x ∈ tree_leaves t).
Proof.
  intros E. apply beq_eq in E. revert t E. induction proof as [|s proof IH] using rev_ind; intros t E.
  - left. exists [], t. destruct t; cbn in *; auto.
  - rewrite process_app in E. cbn [process fold_left] in E. fold (process H proof leaf) in E. rewrite chash_sorted in E.
    rewrite snoc_inputs. destruct t as [h|l r]; cbn [root tree_inputs tree_leaves] in *.
    + right; right. exists (sorted_pair (process H proof leaf) s). split; [set_solver|]. rewrite E. set_solver.
    + destruct (decide (sorted_pair (process H proof leaf) s = sorted_pair (root H l) (root H r))) as [Es|Es].
      * apply sorted_pair_inj in Es.
        assert (K : forall b x, process H proof leaf = root H (if b : bool then r else l) -> s = root H (if b then l else r) ->
          x = (if b then r else l) -> 
          (exists p u, length p = length (proof ++ [s]) /\ subtree (Node l r) p = Some u /\ root H u = leaf /\ rev (siblings H (Node l r) p) = proof ++ [s]) \/
          (exists x0 y, x0 ∈ proof_inputs H proof leaf ++ [sorted_pair (process H proof leaf) s] /\
             y ∈ sorted_pair (root H l) (root H r) :: tree_inputs H l ++ tree_inputs H r /\ x0 <> y /\ H x0 = H y) \/
          (exists x0, x0 ∈ proof_inputs H proof leaf ++ [sorted_pair (process H proof leaf) s] /\ H x0 ∈ tree_leaves l ++ tree_leaves r)).
        { intros b x E1 E2 ->. destruct (IH _ E1) as [(p & u & Hl & Hu & Hr & Hs)|[(x & y & Hx & Hy & Hn & HH)|(x & Hx & Hl)]].
          - left. exists (b :: p), u. split; [rewrite app_length; cbn; lia|]. split; [exact Hu|]. split; [exact Hr|].
            cbn [siblings rev]. rewrite Hs, E2. reflexivity.
          - right; left. exists x, y. destruct b; set_solver.
          - right; right. exists x. destruct b; set_solver. }
        destruct Es as [[E1 E2]|[E1 E2]]; [apply (K false l)|apply (K true r)]; auto.
      * right; left. exists (sorted_pair (process H proof leaf) s), (sorted_pair (root H l) (root H r)).
        repeat split; auto; set_solver.
Qed.
Print Assumptions c55_soundness.
(** The order of siblings never matters. *)
Theorem c55_sibling_order_irrelevant H t t' : mirrored t t' -> root H t = root H t'.
Proof.
  induction 1 as [h|l r l' r' _ E1 _ E2|l r l' r' _ E1 _ E2]; cbn [root]; [reflexivity| |].
  - rewrite E1, E2. reflexivity.
  - rewrite E1, E2, sorted_pair_comm. reflexivity.
Qed.
Print Assumptions c55_sibling_order_irrelevant.
(** For the default hasher the second case is a collision of Keccak-256 on two different
    64-byte strings, the third a 64-byte preimage of a leaf. *)
Theorem c55_keccak_soundness t proof leaf :
  Forall (fun h => length h = 32%nat) (leaf :: proof ++ tree_leaves t) ->
  verify keccak_hasher proof (root keccak_hasher t) leaf = true ->
  (exists p u, length p = length proof /\ subtree t p = Some u /\ root keccak_hasher u = leaf /\ rev (siblings keccak_hasher t p) = proof) \/
  (exists x y, x ∈ proof_inputs keccak_hasher proof leaf /\ y ∈ tree_inputs keccak_hasher t /\
     length (concat x) = 64%nat /\ length (concat y) = 64%nat /\ concat x <> concat y /\
     word (keccak256 (concat x)) = word (keccak256 (concat y))) \/
  (exists x, x ∈ proof_inputs keccak_hasher proof leaf /\ length (concat x) = 64%nat /\ word (keccak256 (concat x)) ∈ tree_leaves t).
Proof.
  intros Hl Hv. rewrite Forall_cons, Forall_app in Hl. destruct Hl as (L1 & L2 & L3).
  assert (K : forall x, length (keccak_hasher x) = 32%nat) by (intros; apply word_length).
  assert (P : forall x, x ∈ proof_inputs keccak_hasher proof leaf -> exists a b, x = [a; b] /\ length a = 32%nat /\ length b = 32%nat).
  { clear Hv L3. revert leaf L1. induction L2 as [|s proof Hs _ IH]; intros leaf L1 x Hx; cbn [proof_inputs] in Hx; [set_solver|].
    apply elem_of_cons in Hx. destruct Hx as [->|Hx]; [|eapply IH; [|exact Hx]; apply K].
    unfold sorted_pair. destruct (blt s leaf); eauto. }
  assert (T : forall y, y ∈ tree_inputs keccak_hasher t -> exists a b, y = [a; b] /\ length a = 32%nat /\ length b = 32%nat).
  { clear Hv L2 P. induction t as [|l IHl r IHr]; intros y Hy; cbn [tree_inputs tree_leaves] in *; [set_solver|].
    rewrite Forall_app in L3. destruct L3 as [Ll Lr].
    assert (R : forall u, Forall (fun h => length h = 32%nat) (tree_leaves u) -> length (root keccak_hasher u) = 32%nat).
    { intros u Hu. destruct u; cbn [root]; [cbn in Hu; inversion Hu; assumption|apply K]. }
    apply elem_of_cons in Hy. destruct Hy as [->|Hy].
    - unfold sorted_pair. destruct (blt _ _); eexists _, _; (split; [reflexivity|]); split; apply R; assumption.
    - apply elem_of_app in Hy. destruct Hy; [apply IHl|apply IHr]; assumption. }
  destruct (c55_soundness _ _ _ _ Hv) as [?|[(x & y & Hx & Hy & Hn & HH)|(x & Hx & HL)]]; [auto| |].
  - right; left. exists x, y. split; [exact Hx|]. split; [exact Hy|].
    destruct (P x Hx) as (a & b & -> & La & Lb). destruct (T y Hy) as (c & d & -> & Lc & Ld). cbn [concat].
    rewrite !app_nil_r, !app_length, La, Lb, Lc, Ld. repeat split; try reflexivity.
    + intros E. apply app_eq_len in E; [|congruence]. destruct E as [-> ->]. apply Hn. reflexivity.
    + unfold keccak_hasher in HH. cbn [concat] in HH. rewrite !app_nil_r in HH. exact HH.
  - right; right. exists x. split; [exact Hx|]. destruct (P x Hx) as (a & b & -> & La & Lb). split; [|exact HL].
    cbn [concat]. rewrite app_nil_r, app_length, La, Lb. reflexivity.
Qed.
Print Assumptions c55_keccak_soundness.
(** All three cases occur. *)
Example c55_demo :
  verify toy_hasher [[7]] (root toy_hasher (Node (Leaf [5]) (Leaf [7]))) [5] = true /\
  (exists x, x ∈ proof_inputs toy_hasher [[1]; [7]] [2] /\ toy_hasher x ∈ tree_leaves (Node (Leaf (toy_hasher [[1]; [2]])) (Leaf [7]))
     /\ verify toy_hasher [[1]; [7]] (root toy_hasher (Node (Leaf (toy_hasher [[1]; [2]])) (Leaf [7]))) [2] = true).
Proof.
  split; [vm_compute; reflexivity|]. exists [[1]; [2]]. split; [vm_compute; constructor|]. split; [vm_compute; constructor|vm_compute; reflexivity].
Qed.

(** ** C56 *)
Lemma count_cons b x l : count b (x :: l) = ((if decide (x = b) then 1 else 0) + count b l)%nat.
Proof. unfold count. rewrite filter_cons. destruct (decide (x = b)); reflexivity. Qed.
Lemma count_length l : (count true l + count false l = length l)%nat.
Proof. induction l as [|[] l IH]; [reflexivity| |]; rewrite !count_cons; cbn [length]; repeat (destruct (decide _); try congruence); lia. Qed.
Lemma loop_spec H proof flags hashes hp pp :
  (hp < length hashes)%nat -> (pp <= length proof)%nat ->
  ((hp + count true flags < length hashes)%nat /\ (pp + count false flags <= length proof)%nat ->
     exists new, multi_loop H proof flags hashes hp pp = Ok (hashes ++ new) /\ length new = length flags) /\
  (~ ((hp + count true flags < length hashes)%nat /\ (pp + count false flags <= length proof)%nat) ->
     exists e, multi_loop H proof flags hashes hp pp = Err e).
Proof.
  revert hashes hp pp. induction flags as [|f flags IH]; intros hashes hp pp Hp Hq.
  - unfold count; cbn. split.
    + intros _. exists []. rewrite app_nil_r. auto.
    + intros Hc. exfalso. lia.
  - cbn [multi_loop]. destruct (nth_error hashes hp) as [a|] eqn:Ea; [|apply nth_error_None in Ea; lia].
    rewrite !count_cons. destruct f.
    + destruct (nth_error hashes (S hp)) as [b|] eqn:Eb.
      * assert (L : (S hp < length hashes)%nat) by (apply nth_error_Some; congruence).
        destruct (IH (hashes ++ [commutative_hash_pair H a b]) (S (S hp)) pp) as [I1 I2];
          [rewrite app_length; cbn; lia|exact Hq|]. rewrite app_length in I1, I2. cbn [length] in I1, I2.
        destruct (decide (true = true)); [|congruence]. destruct (decide (true = false)); [congruence|].
        split; intros Hc.
        -- destruct I1 as (new & E & En); [lia|]. exists (commutative_hash_pair H a b :: new). rewrite E, <- app_assoc. cbn. auto.
        -- apply I2. lia.
      * apply nth_error_None in Eb. destruct (decide (true = true)); [|congruence].
        split; [lia|]. eauto.
    + destruct (nth_error proof pp) as [b|] eqn:Eb.
      * assert (L : (pp < length proof)%nat) by (apply nth_error_Some; congruence).
        destruct (IH (hashes ++ [commutative_hash_pair H a b]) (S hp) (S pp)) as [I1 I2];
          [rewrite app_length; cbn; lia|lia|]. rewrite app_length in I1, I2. cbn [length] in I1, I2.
        destruct (decide (false = false)); [|congruence]. destruct (decide (false = true)); [congruence|].
        split; intros Hc.
        -- destruct I1 as (new & E & En); [lia|]. exists (commutative_hash_pair H a b :: new). rewrite E, <- app_assoc. cbn. auto.
        -- apply I2. lia.
      * apply nth_error_None in Eb. destruct (decide (false = false)); [|congruence].
        split; [lia|]. eauto.
Qed.
Lemma chash_comm H a b : commutative_hash_pair H a b = commutative_hash_pair H b a.
Proof. rewrite !chash_sorted, sorted_pair_comm. reflexivity. Qed.
Lemma loop_paths H proof flags hashes hp pp hs r :
  multi_loop H proof flags hashes hp pp = Ok hs ->
  (hp + count true flags = length hashes - 1)%nat -> (hp < length hashes)%nat ->
  nth_error hs (length hs - 1) = Some r ->
  forall j x, (hp <= j)%nat -> nth_error hashes j = Some x -> exists p, process H p x = r.
Proof.
  revert hashes hp pp. induction flags as [|f flags IH]; intros hashes hp pp E Hc Hp Hr j x Hj Hx.
  - cbn in E. inversion E; subst hs. unfold count in Hc; cbn in Hc.
    assert (j < length hashes)%nat by (apply nth_error_Some; congruence).
    assert (j = length hashes - 1)%nat by lia. subst j. exists []. cbn. congruence.
  - cbn [multi_loop] in E. rewrite count_cons in Hc. destruct (nth_error hashes hp) as [a|] eqn:Ea; [|discriminate].
    destruct f.
    + destruct (nth_error hashes (S hp)) as [b|] eqn:Eb; [|discriminate].
      assert (L : (S hp < length hashes)%nat) by (apply nth_error_Some; congruence).
      destruct (decide (true = true)); [|congruence].
      assert (K : forall j x, (S (S hp) <= j)%nat -> nth_error (hashes ++ [commutative_hash_pair H a b]) j = Some x -> exists p, process H p x = r).
      { apply (IH _ _ _ E); [rewrite app_length; cbn; lia|rewrite app_length; cbn; lia|exact Hr]. }
      assert (N : exists p, process H p (commutative_hash_pair H a b) = r).
      { apply (K (length hashes)); [lia|]. rewrite nth_error_app2 by lia. rewrite Nat.sub_diag. reflexivity. }
      destruct N as [p Np].
      destruct (Nat.eq_dec j hp) as [->|]; [|destruct (Nat.eq_dec j (S hp)) as [->|]].
      * exists (b :: p). rewrite <- Np. replace x with a by congruence. reflexivity.
      * exists (a :: p). rewrite <- Np. replace x with b by congruence. rewrite chash_comm. reflexivity.
      * apply (K j); [lia|]. rewrite nth_error_app1; [exact Hx|]. apply nth_error_Some. congruence.
    + destruct (nth_error proof pp) as [b|] eqn:Eb; [|discriminate].
      destruct (decide (false = true)); [congruence|].
      assert (K : forall j x, (S hp <= j)%nat -> nth_error (hashes ++ [commutative_hash_pair H a b]) j = Some x -> exists p, process H p x = r).
      { apply (IH _ _ _ E); [rewrite app_length; cbn; lia|rewrite app_length; cbn; lia|exact Hr]. }
      assert (N : exists p, process H p (commutative_hash_pair H a b) = r).
      { apply (K (length hashes)); [lia|]. rewrite nth_error_app2 by lia. rewrite Nat.sub_diag. reflexivity. }
      destruct N as [p Np].
      destruct (Nat.eq_dec j hp) as [->|].
      * exists (b :: p). rewrite <- Np. replace x with a by congruence. reflexivity.
      * apply (K j); [lia|]. rewrite nth_error_app1; [exact Hx|]. apply nth_error_Some. congruence.
Qed.

Theorem c56_total_and_error_iff_malformed H proof flags root leaves :
  (well_formed proof flags leaves -> exists b, verify_multi_proof H proof flags root leaves = Ok b) /\
  (~ well_formed proof flags leaves -> exists e, verify_multi_proof H proof flags root leaves = Err e).
Proof.
  unfold well_formed, verify_multi_proof.
  destruct (Nat.eqb_spec (length leaves + length proof) (length flags + 1)) as [El|El]; cbn [negb].
  2: { split; [tauto|eauto]. }
  destruct (Nat.eqb_spec (length flags) 0) as [Ef|Ef].
  - apply length_zero_iff_nil in Ef. subst flags. split; [intros _|tauto].
    destruct leaves as [|l ?]; [|eauto]. destruct proof; [cbn in El; lia|eauto].
  - assert (Hnf : flags <> []) by (intros ->; apply Ef; reflexivity).
    destruct leaves as [|l leaves']; [split; [tauto|eauto]|]. set (leaves := l :: leaves') in *.
    assert (Hl : (0 < length leaves)%nat) by (cbn; lia).
    destruct (loop_spec H proof flags leaves 0 0 Hl ltac:(lia)) as [I1 I2].
    pose proof (count_length flags). split.
    + intros [_ [?|[_ Hc]]]; [tauto|]. destruct I1 as (new & E & En); [lia|]. rewrite E.
      destruct (nth_error (leaves ++ new) (length flags + length leaves - 1)) eqn:En'; [eauto|].
      apply nth_error_None in En'. rewrite app_length in En'. lia.
    + intros Hn. destruct I2 as (e & E); [|rewrite E; eauto].
      intros Hc. apply Hn. split; [exact El|]. right. split; [discriminate|]. lia.
Qed.
Print Assumptions c56_total_and_error_iff_malformed.
Theorem c56_never_panics H proof flags root leaves : verify_multi_proof H proof flags root leaves <> Panic.
Proof.
  destruct (c56_total_and_error_iff_malformed H proof flags root leaves) as [I1 I2].
  assert (D : well_formed proof flags leaves \/ ~ well_formed proof flags leaves).
  { unfold well_formed. destruct (Nat.eq_dec (length leaves + length proof)%nat (length flags + 1)%nat);
      destruct flags; [tauto| |tauto|tauto]. destruct leaves; [right; intros [_ [?|[? _]]]; congruence|].
    destruct (Nat.eq_dec (count false (b :: flags)) (length proof)); [left|right].
    - split; [assumption|]. right. split; [discriminate|assumption].
    - intros [_ [?|[_ ?]]]; congruence. }
  destruct D as [D|D]; [destruct (I1 D)|destruct (I2 D)]; congruence.
Qed.
Print Assumptions c56_never_panics.
Theorem c56_every_leaf_provable H proof flags root leaves leaf :
  verify_multi_proof H proof flags root leaves = Ok true -> leaf ∈ leaves ->
  exists p, verify H p root leaf = true.
Proof.
  intros E Hin. unfold verify. setoid_rewrite beq_eq. unfold verify_multi_proof in E.
  destruct (Nat.eqb_spec (length leaves + length proof) (length flags + 1)) as [El|El]; cbn [negb] in E; [|discriminate].
  destruct (Nat.eqb_spec (length flags) 0) as [Ef|Ef].
  - destruct leaves as [|l ls]; [set_solver|]. inversion E as [E']. apply beq_eq in E'. subst l.
    cbn in El. assert (ls = []) by (apply length_zero_iff_nil; lia). subst ls. exists []. cbn. set_solver.
  - destruct leaves as [|l ls]; [discriminate|]. set (leaves := l :: ls) in *.
    destruct (multi_loop H proof flags leaves 0 0) as [hs|e|] eqn:Em; try discriminate.
    destruct (nth_error hs (length flags + length leaves - 1)) as [r|] eqn:Er; [|discriminate].
    inversion E as [E']. apply beq_eq in E'. subst r.
    assert (Hl : (0 < length leaves)%nat) by (cbn; lia).
    destruct (loop_spec H proof flags leaves 0 0 Hl ltac:(lia)) as [I1 I2]. pose proof (count_length flags).
    destruct (decide ((0 + count true flags < length leaves)%nat /\ (0 + count false flags <= length proof)%nat)) as [D|D];
      [|destruct (I2 D); congruence].
    destruct (I1 D) as (new & E1 & En). rewrite Em in E1. injection E1 as ->.
    apply elem_of_list_lookup in Hin. destruct Hin as [j Hj].
    apply (loop_paths H proof flags leaves 0 0 (leaves ++ new) root Em) with (j := j); try lia.
    + rewrite app_length, En. rewrite <- Er. f_equal. lia.
    + clear - Hj. revert j Hj. induction leaves as [|y leaves IH]; intros [|j] Hj; cbn in *; try discriminate; auto.
Qed.
Print Assumptions c56_every_leaf_provable.
(** Which error is returned. *)
Theorem c56_error_kinds H proof flags root leaves :
  ((length leaves + length proof)%nat <> (length flags + 1)%nat ->
     verify_multi_proof H proof flags root leaves = Err InvalidTotalHashes) /\
  ((length leaves + length proof = length flags + 1)%nat -> flags <> [] ->
     (leaves = [] -> verify_multi_proof H proof flags root leaves = Err NoLeaves) /\
     (leaves <> [] -> (count false flags < length proof)%nat ->
        verify_multi_proof H proof flags root leaves = Err InvalidRootChild) /\
     (leaves <> [] -> (length proof < count false flags)%nat ->
        verify_multi_proof H proof flags root leaves = Err InvalidProofLength)).
Proof.
  split.
  - intros Hl. unfold verify_multi_proof. destruct (Nat.eqb_spec (length leaves + length proof) (length flags + 1)); [contradiction|reflexivity].
  - intros Hl Hf. unfold verify_multi_proof.
    destruct (Nat.eqb_spec (length leaves + length proof) (length flags + 1)); [|contradiction]. cbn [negb].
    destruct (Nat.eqb_spec (length flags) 0) as [Ef|Ef]; [apply length_zero_iff_nil in Ef; contradiction|].
    split; [intros ->; reflexivity|].
    pose proof (count_length flags) as Hcl.
    assert (K : forall fl hs hp pp e, multi_loop H proof fl hs hp pp = Err e ->
      (e = InvalidRootChild /\ (length hs <= hp + count true fl)%nat) \/
      (e = InvalidProofLength /\ (length proof < pp + count false fl)%nat)).
    { clear. induction fl as [|f fl IH]; intros hs hp pp e E; cbn [multi_loop] in E; [discriminate|].
      destruct (nth_error hs hp); [|discriminate]. destruct f.
      - destruct (nth_error hs (S hp)) eqn:En.
        + apply IH in E. rewrite app_length in E. cbn [length] in E.
          rewrite !count_cons; repeat (destruct (decide _); try congruence).
          destruct E as [[? E]|[? E]]; [left|right]; (split; [assumption|]); lia.
        + inversion E. left. split; [reflexivity|]. apply nth_error_None in En.
          rewrite !count_cons; repeat (destruct (decide _); try congruence). lia.
      - destruct (nth_error proof pp) eqn:En.
        + apply IH in E. rewrite app_length in E. cbn [length] in E.
          rewrite !count_cons; repeat (destruct (decide _); try congruence).
          destruct E as [[? E]|[? E]]; [left|right]; (split; [assumption|]); lia.
        + inversion E. right. split; [reflexivity|]. apply nth_error_None in En.
          rewrite !count_cons; repeat (destruct (decide _); try congruence). lia. }
    assert (G : leaves <> [] -> count false flags <> length proof ->
      exists e, multi_loop H proof flags leaves 0 0 = Err e /\ verify_multi_proof H proof flags root leaves = Err e).
    { intros Hne Hc. destruct leaves as [|l ls]; [contradiction|].
      assert (E : exists e, verify_multi_proof H proof flags root (l :: ls) = Err e).
      { apply c56_total_and_error_iff_malformed. intros [_ [?|[_ ?]]]; contradiction. }
      destruct E as [e1 E]. rewrite E. unfold verify_multi_proof in E.
      destruct (Nat.eqb_spec (length (l :: ls) + length proof) (length flags + 1)); [|contradiction].
      cbn [negb] in E. destruct (Nat.eqb_spec (length flags) 0); [contradiction|].
      destruct (multi_loop H proof flags (l :: ls) 0 0) as [hs|e'|] eqn:Em; [destruct (nth_error hs _); discriminate| |discriminate].
      inversion E; subst. exists e1. auto. }
    unfold verify_multi_proof in G.
    destruct (Nat.eqb_spec (length leaves + length proof) (length flags + 1)); [|contradiction]. cbn [negb] in G.
    destruct (Nat.eqb_spec (length flags) 0) as [Ef'|Ef']; [contradiction|].
    split; intros Hne Hc; destruct (G Hne ltac:(lia)) as (e2 & Em & ->); apply K in Em;
      destruct Em as [[-> Hx]|[-> Hx]]; try reflexivity; exfalso; lia.
Qed.
Print Assumptions c56_error_kinds.
(** Non-vacuous: leaves 3 and 7 of the demo tree with one proof element; and the error cases. *)
Example c56_demo :
  let h := toy_hasher in
  let r94 := root h (Node (Leaf [9]) (Leaf [4])) in
  verify_multi_proof h [r94] [false; true] (root h (Node (Node (Leaf [3]) (Node (Leaf [9]) (Leaf [4]))) (Leaf [7]))) [[3]; [7]] = Ok true /\
  verify_multi_proof h [r94] [true; true] [0] [[3]; [7]] = Err InvalidRootChild /\
  verify_multi_proof h [r94] [false; false] [0] [[3]; [7]] = Err InvalidProofLength /\
  verify_multi_proof h [r94] [false; false; true] [0] [[3]; [7]] = Err InvalidTotalHashes /\
  verify_multi_proof h [r94; r94] [false] [0] [] = Err NoLeaves /\
  verify_multi_proof h [r94] [] r94 [] = Ok true.
Proof. vm_compute. repeat split; reflexivity. Qed.
