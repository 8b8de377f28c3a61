(** C72: every set of leaves of a complete Merkle tree has a multi proof that verifies. *)
From Verif.Base Require Import Prelude.
From Verif.Model Require Merkle.
From Verif.Spec Require Import Merkle_spec Multiproof_spec.
From Verif.Props Require Import Merkle_props.
From stdpp Require Import list.
Import Merkle.
#[global] Open Scope nat_scope.

Lemma parent_sibling j : 0 < j ->
  (j = 2 * parent j + 1 /\ sibling j = 2 * parent j + 2 \/ j = 2 * parent j + 2 /\ sibling j = 2 * parent j + 1).
Proof.
  intros Hj. unfold parent, sibling. pose proof (Nat.div_mod (j - 1) 2 ltac:(lia)) as E. pose proof (Nat.mod_upper_bound (j - 1) 2 ltac:(lia)).
  destruct (Nat.odd j) eqn:O.
  - apply Nat.odd_spec in O. destruct O as [k ->]. left. replace (2 * k + 1 - 1) with (k * 2) by lia. rewrite Nat.div_mul by lia. lia.
  - right. assert (Ev : Nat.even j = true) by (rewrite <- Nat.negb_odd, O; reflexivity). apply Nat.even_spec in Ev. destruct Ev as [k ->].
    replace (2 * k - 1) with (1 + (k - 1) * 2) by lia. rewrite Nat.div_add by lia. cbn. lia.
Qed.

(** The queue decreases strictly, and the parent of its first node comes below its last. *)
Definition queue_ok (q : list nat) : Prop :=
  right_to_left q /\ match q with [] => False | j :: _ => j = 0 \/ parent j < List.last q 0 end.

Lemma rtl_tail i l : right_to_left (i :: l) -> right_to_left l /\ Forall (fun k => k < i) l.
Proof.
  revert i. induction l as [|j l IH]; intros i H; [split; constructor|]. cbn [right_to_left] in H. destruct H as [H1 H2].
  split; [exact H2|]. constructor; [exact H1|]. destruct (IH j H2) as [_ F]. eapply Forall_impl; [exact F|]. cbv beta; intros; lia.
Qed.
Lemma rtl_snoc l p : right_to_left l -> Forall (fun k => p < k) l -> right_to_left (l ++ [p]).
Proof.
  induction l as [|i l IH]; intros H F; [exact I|]. inversion F as [|? ? F1 F2]; subst. destruct (rtl_tail _ _ H) as [H' _].
  specialize (IH H' F2). destruct l as [|j l]; cbn [app right_to_left] in *; tauto.
Qed.
Lemma rtl_above_last l : right_to_left l -> Forall (fun k => List.last l 0 <= k) l.
Proof.
  induction l as [|i l IH]; intros H; [constructor|]. destruct (rtl_tail _ _ H) as [H' F]. specialize (IH H').
  destruct l as [|j l]; [constructor; [cbn; lia|constructor]|].
  change (List.last (i :: j :: l) 0) with (List.last (j :: l) 0). constructor; [|exact IH].
  inversion IH; inversion F; subst. lia.
Qed.
Lemma last_snoc' l (p d : nat) : List.last (l ++ [p]) d = p.
Proof. apply List.last_last. Qed.

Lemma next_queue j rest rest' : 0 < j -> queue_ok (j :: rest) ->
  (rest' = rest /\ head rest <> Some (sibling j) \/ rest = sibling j :: rest') ->
  queue_ok (rest' ++ [parent j]) /\ exists k q, rest' ++ [parent j] = k :: q /\ k < j.
Proof.
  intros Hj [HR HL] Hn. pose proof (parent_sibling j Hj) as PS.
  destruct HL as [HL|HL]; [lia|].
  destruct (rtl_tail _ _ HR) as [HR1 HF].
  assert (Habove : Forall (fun k => parent j < k) rest).
  { pose proof (rtl_above_last _ HR) as F. set (L := List.last (j :: rest) 0) in *. clearbody L. inversion F as [|? ? _ F']; subst. eapply Forall_impl; [exact F'|]. cbv beta; intros; lia. }
  assert (HR' : right_to_left rest' /\ Forall (fun k => k < j) rest' /\ Forall (fun k => parent j < k) rest').
  { destruct Hn as [[-> _]| ->]; [auto|]. inversion HF; inversion Habove; subst. destruct (rtl_tail _ _ HR1). auto. }
  destruct HR' as (R1 & R2 & R3). pose proof (rtl_snoc _ _ R1 R3) as R4.
  destruct rest' as [|k rest'].
  - cbn [app]. split; [split; [exact I|]|].
    + destruct (Nat.eq_dec (parent j) 0) as [->|Hp]; [left; reflexivity|right]. cbn [List.last].
      pose proof (parent_sibling (parent j) ltac:(lia)). lia.
    + exists (parent j), []. split; [reflexivity|lia].
  - split; [split; [exact R4|]|].
    + cbn [app]. right. change (k :: rest' ++ [parent j]) with ((k :: rest') ++ [parent j]). rewrite last_snoc'.
      inversion R2 as [|? ? Rk _]; inversion R3 as [|? ? Rk' _]; subst.
      assert (Hk : k < 2 * parent j + 1).
      { destruct PS as [[E1 E2]|[E1 E2]]; [lia|]. destruct Hn as [[En Hs]|En].
        - subst rest. cbn in Hs. assert (k <> sibling j) by congruence. lia.
        - subst rest. destruct (rtl_tail _ _ HR1) as [_ F]. inversion F; subst. lia. }
      pose proof (parent_sibling k ltac:(lia)). lia.
    + exists k, (rest' ++ [parent j]). split; [reflexivity|]. inversion R2; assumption.
Qed.

Section tree.
  Context (H : list bytes -> bytes) (n : nat) (node : nat -> bytes) (HC : complete H n node).

  Lemma join j : 0 < j -> j <= 2 * n - 2 ->
    commutative_hash_pair H (node j) (node (sibling j)) = node (parent j).
  Proof.
    intros Hj Hn. destruct HC as [_ HN]. pose proof (parent_sibling j Hj) as PS. rewrite chash_sorted, (HN (parent j)) by lia. f_equal.
    destruct PS as [[E1 E2]|[E1 E2]]; rewrite E2.
    - rewrite E1 at 1. reflexivity.
    - rewrite sorted_pair_comm. rewrite E1 at 2. reflexivity.
  Qed.

  Definition climbs (q : list nat) (proof : list bytes) (flags : list bool) : Prop :=
    length q + length proof = length flags + 1 /\
    forall hashes hp pr pp, drop hp hashes = node <$> q -> drop pp pr = proof ->
      exists hs, multi_loop H pr flags hashes hp pp = Ok hs /\ length hs = length hashes + length flags /\
        List.last hs [] = node 0.

  Lemma nth_error_drop {A} (l : list A) i k : nth_error (drop i l) k = nth_error l (i + k).
  Proof. revert l. induction i as [|i IH]; intros l; [reflexivity|]. destruct l; [destruct k; reflexivity|]. cbn. apply IH. Qed.
  Lemma nth_error_last' {A} (l : list A) d : l <> [] -> nth_error l (length l - 1) = Some (List.last l d).
  Proof.
    induction l as [|x [|y l] IH]; intros Hl; [congruence|reflexivity|]. specialize (IH ltac:(discriminate)).
    cbn [length] in *. replace (S (S (length l)) - 1) with (S (S (length l) - 1)) by lia. exact IH.
  Qed.
  Lemma drop_snoc {A} (l : list A) i x r y : drop i l = x :: r -> drop (S i) (l ++ [y]) = r ++ [y].
  Proof.
    intros E. assert (Hl : i < length l). { destruct (Nat.lt_ge_cases i (length l)); [assumption|]. rewrite drop_ge in E by lia. discriminate. }
    rewrite drop_app_le by lia. f_equal. replace (S i) with (i + 1) by lia. rewrite <- drop_drop, E. reflexivity.
  Qed.
  Lemma drop_S {A} (l : list A) i x r : drop i l = x :: r -> drop (S i) l = r.
  Proof. intros E. replace (S i) with (i + 1) by lia. rewrite <- drop_drop, E. reflexivity. Qed.
  Lemma drop_snoc2 {A} (l : list A) i x x' r y : drop i l = x :: x' :: r -> drop (S (S i)) (l ++ [y]) = r ++ [y].
  Proof. intros E. apply (drop_snoc l (S i) x' r y). exact (drop_S _ _ _ _ E). Qed.

  (** One step with a proof element. *)
  Lemma step_false j rest proof flags :
    0 < j -> j <= 2 * n - 2 -> climbs (rest ++ [parent j]) proof flags ->
    climbs (j :: rest) (node (sibling j) :: proof) (false :: flags).
  Proof.
    intros Hj Hn [HL HI]. split; [rewrite app_length in HL; cbn in *; lia|].
    intros hashes hp pr pp E1 E2. cbn [fmap list_fmap] in E1. cbn [multi_loop].
    pose proof (nth_error_drop hashes hp 0) as N1. rewrite E1, Nat.add_0_r in N1. cbn in N1. rewrite <- N1.
    pose proof (nth_error_drop pr pp 0) as N2. rewrite E2, Nat.add_0_r in N2. cbn in N2. rewrite <- N2.
    rewrite join by assumption.
    destruct (HI (hashes ++ [node (parent j)]) (S hp) pr (S pp)) as (hs & Ehs & Lhs & Lr).
    - rewrite (drop_snoc _ _ _ _ _ E1), fmap_app. reflexivity.
    - exact (drop_S _ _ _ _ E2).
    - exists hs. split; [exact Ehs|]. rewrite Lhs, app_length. cbn. split; [lia|exact Lr].
  Qed.
  Lemma step_true j rest proof flags :
    0 < j -> j <= 2 * n - 2 -> climbs (rest ++ [parent j]) proof flags ->
    climbs (j :: sibling j :: rest) proof (true :: flags).
  Proof.
    intros Hj Hn [HL HI]. split; [rewrite app_length in HL; cbn in *; lia|].
    intros hashes hp pr pp E1 E2. cbn [fmap list_fmap] in E1. cbn [multi_loop].
    pose proof (nth_error_drop hashes hp 0) as N1. rewrite E1, Nat.add_0_r in N1. cbn in N1. rewrite <- N1.
    pose proof (nth_error_drop hashes hp 1) as N2. rewrite E1 in N2. replace (hp + 1) with (S hp) in N2 by lia. change (Some (node (sibling j)) = nth_error hashes (S hp)) in N2. rewrite <- N2.
    rewrite join by assumption.
    destruct (HI (hashes ++ [node (parent j)]) (S (S hp)) pr pp) as (hs & Ehs & Lhs & Lr).
    - rewrite (drop_snoc2 _ _ _ _ _ _ E1), fmap_app. reflexivity.
    - exact E2.
    - exists hs. split; [exact Ehs|]. rewrite Lhs, app_length. cbn. split; [lia|exact Lr].
  Qed.
  Lemma stop rest : queue_ok (0 :: rest) -> climbs (0 :: rest) [] [].
  Proof.
    intros [HR _]. destruct rest as [|k rest]; [|cbn in HR; lia]. split; [reflexivity|].
    intros hashes hp pr pp E1 _. exists hashes. cbn. split; [reflexivity|]. split; [lia|].
    cbn in E1. rewrite <- (take_drop hp hashes), E1. apply List.last_last.
  Qed.

  Lemma climb_ok fuel j rest : j < fuel -> j <= 2 * n - 2 -> queue_ok (j :: rest) ->
    let '(proof, flags) := climb fuel node (j :: rest) in climbs (j :: rest) proof flags.
  Proof.
    revert j rest. induction fuel as [|fuel IH]; intros j rest Hf Hn HQ; [lia|]. cbn [climb].
    destruct (Nat.eqb_spec j 0) as [->|Hj]; [apply stop, HQ|].
    destruct rest as [|s rest'].
    - assert (Hp : 0 < j) by lia. assert (Hh : head (@nil nat) <> Some (sibling j)) by discriminate.
      destruct (next_queue j [] [] Hp HQ (or_introl (conj eq_refl Hh))) as (Q' & k & q & E & Hk). cbn [app] in E, Q'.
      specialize (IH (parent j) []). rewrite E in Q'. injection E as <- <-.
      specialize (IH ltac:(lia) ltac:(lia) Q'). destruct (climb fuel node [parent j]) as [proof flags]. apply step_false; [lia|lia|exact IH].
    - destruct (Nat.eqb_spec s (sibling j)) as [->|Hs].
      + assert (Hp : 0 < j) by lia. destruct (next_queue j (sibling j :: rest') rest' Hp HQ (or_intror eq_refl)) as (Q' & k & q & E & Hk).
        specialize (IH k q). rewrite <- E in IH. specialize (IH ltac:(lia) ltac:(lia) Q').
        destruct (climb fuel node (rest' ++ [parent j])) as [proof flags]. apply step_true; [lia|lia|exact IH].
      + assert (Hp : 0 < j) by lia. assert (Hh : head (s :: rest') <> Some (sibling j)) by (cbn [head]; congruence).
        destruct (next_queue j (s :: rest') (s :: rest') Hp HQ (or_introl (conj eq_refl Hh))) as (Q' & k & q & E & Hk).
        specialize (IH k q). rewrite <- E in IH. specialize (IH ltac:(lia) ltac:(lia) Q').
        destruct (climb fuel node ((s :: rest') ++ [parent j])) as [proof flags]. apply step_false; [lia|lia|exact IH].
  Qed.

  Theorem c72_multi_proof_verifies leaves :
    leaves <> [] -> right_to_left leaves -> Forall (is_leaf n) leaves ->
    let '(proof, flags) := multi_proof n node leaves in
    verify_multi_proof H proof flags (node 0) (node <$> leaves) = Ok true.
  Proof.
    intros Hne HR HL. destruct leaves as [|j rest]; [congruence|]. destruct HC as [Hn _].
    inversion HL as [|? ? Hj _]; subst. unfold is_leaf in Hj.
    assert (HQ : queue_ok (j :: rest)).
    { split; [exact HR|]. destruct (Nat.eq_dec j 0) as [->|Hz]; [left; reflexivity|right].
      assert (Hlast : is_leaf n (List.last (j :: rest) 0)).
      { rewrite Forall_forall in HL. apply HL. clear. revert j. induction rest as [|k l IH]; intros j; [left|]. right. apply IH. }
      unfold is_leaf in Hlast. pose proof (parent_sibling j ltac:(lia)). lia. }
    pose proof (climb_ok (2 * n) j rest ltac:(lia) ltac:(lia) HQ) as HOK. fold (multi_proof n node (j :: rest)) in HOK.
    destruct (multi_proof n node (j :: rest)) as [proof flags]. destruct HOK as [Hlen Hrun].
    unfold verify_multi_proof. rewrite fmap_length. replace (length (j :: rest) + length proof =? length flags + 1) with true
      by (symmetry; apply Nat.eqb_eq; exact Hlen). cbn [negb].
    assert (HR0 := Hrun (fmap (M:=list) node (j :: rest)) 0 proof 0). destruct HR0 as (hs & E & Lh & Lr); [reflexivity|reflexivity|]. rewrite fmap_length in Lh.
    destruct (Nat.eqb_spec (length flags) 0) as [Ef|Ef].
    - apply length_zero_iff_nil in Ef. subst flags. cbn [multi_loop] in E. injection E as <-. cbn [fmap list_fmap].
      cbn in Hlen. assert (rest = []) by (apply length_zero_iff_nil; lia). subst rest. cbn in Lr. rewrite Lr.
      f_equal. apply beq_eq. reflexivity.
    - rewrite E. cbn [fmap list_fmap].
      assert (N : nth_error hs (length flags + length (j :: rest) - 1) = Some (node 0)).
      { rewrite <- Lr. replace (length flags + length (j :: rest) - 1) with (length hs - 1) by (rewrite Lh; lia).
        apply nth_error_last'. intros ->. cbn in Lh. lia. }
      rewrite N. f_equal. apply beq_eq. reflexivity.
  Qed.
End tree.
Print Assumptions c72_multi_proof_verifies.

(** The proof consists of hashes of the tree, and is as long as claimed: one flag per hash
    computed. *)
Lemma climb_members node fuel q : Forall (fun b => exists i, b = node i) (fst (climb fuel node q)).
Proof.
  revert q. induction fuel as [|fuel IH]; intros q; [constructor|]. cbn [climb]. destruct q as [|j rest]; [constructor|].
  destruct (Nat.eqb j 0); [constructor|]. destruct rest as [|s rest'].
  - specialize (IH [parent j]). destruct (climb fuel node [parent j]). constructor; [eauto|exact IH].
  - destruct (Nat.eqb s (sibling j)).
    + specialize (IH (rest' ++ [parent j])). destruct (climb fuel node (rest' ++ [parent j])). exact IH.
    + specialize (IH ((s :: rest') ++ [parent j])). destruct (climb fuel node ((s :: rest') ++ [parent j])). constructor; [eauto|exact IH].
Qed.
Theorem c72_every_leaf_set_provable H n node leaves : complete H n node ->
  leaves <> [] -> right_to_left leaves -> Forall (is_leaf n) leaves ->
  exists proof flags, verify_multi_proof H proof flags (node 0) (node <$> leaves) = Ok true /\
    Forall (fun b => exists i, b = node i) proof /\ length flags + 1 = length leaves + length proof.
Proof.
  intros HC Hne HR HL. pose proof (c72_multi_proof_verifies H n node HC leaves Hne HR HL) as HV.
  pose proof (climb_members node (2 * n) leaves) as HM. unfold multi_proof in *.
  destruct (climb (2 * n) node leaves) as [proof flags]. exists proof, flags. split; [exact HV|]. split; [exact HM|].
  unfold verify_multi_proof in HV. rewrite fmap_length in HV.
  destruct (Nat.eqb_spec (length leaves + length proof) (length flags + 1)) as [E|E]; [lia|discriminate].
Qed.
Print Assumptions c72_every_leaf_set_provable.

(** Such trees exist for every list of leaves. *)
Fixpoint build (H : list bytes -> bytes) (fuel n : nat) (leaf : nat -> bytes) (i : nat) : bytes :=
  match fuel with
  | 0 => leaf i
  | S fuel' => if i <? n - 1 then H (sorted_pair (build H fuel' n leaf (2 * i + 1)) (build H fuel' n leaf (2 * i + 2))) else leaf i
  end.
Lemma build_fuel H n leaf f i : 2 * n <= f + i -> 0 < n -> build H (S f) n leaf i = build H f n leaf i.
Proof.
  revert i. induction f as [|f IH]; intros i Hf Hn.
  - cbn [build]. destruct (Nat.ltb_spec i (n - 1)); [lia|reflexivity].
  - cbn [build]. destruct (Nat.ltb_spec i (n - 1)); [|reflexivity].
    pose proof (IH (2 * i + 1) ltac:(lia) Hn) as E1. pose proof (IH (2 * i + 2) ltac:(lia) Hn) as E2. cbn [build] in E1, E2.
    rewrite E1, E2. reflexivity.
Qed.
Theorem c72_complete_trees_exist H n leaf : 0 < n ->
  exists node, complete H n node /\ forall i, is_leaf n i -> node i = leaf i.
Proof.
  intros Hn. exists (build H (2 * n) n leaf). split; [split; [exact Hn|]|].
  - intros i Hi. destruct n as [|n]; [lia|].
    assert (E : build H (2 * S n) (S n) leaf i = build H (S (2 * S n)) (S n) leaf i) by (symmetry; apply build_fuel; lia).
    rewrite E. cbn [build]. replace (i <? S n - 1) with true by (symmetry; apply Nat.ltb_lt; lia). reflexivity.
  - intros i [Hi _]. destruct n as [|n]; [lia|]. replace (2 * S n) with (S (2 * n + 1)) by lia. cbn [build].
    replace (i <? S n - 1) with false by (symmetry; apply Nat.ltb_ge; lia). reflexivity.
Qed.
Print Assumptions c72_complete_trees_exist.

(** Five leaves, with a hash whose values can be told apart; the leaves 8, 6 and 5. *)
Definition toy (l : list bytes) : bytes := [Z.of_nat (length (concat l))] ++ concat l.
Definition toy_tree (i : nat) : bytes := build toy 10 5 (fun i => [Z.of_nat (100 + i)]) i.
Example c72_nonvacuous :
  complete toy 5 toy_tree /\ right_to_left [8; 6; 5] /\ Forall (is_leaf 5) [8; 6; 5] /\
  multi_proof 5 toy_tree [8; 6; 5] = ([toy_tree 7; toy_tree 4], [false; true; false; true]) /\
  verify_multi_proof toy [toy_tree 7; toy_tree 4] [false; true; false; true] (toy_tree 0) [toy_tree 8; toy_tree 6; toy_tree 5] = Ok true /\
  verify_multi_proof toy [toy_tree 7; toy_tree 4] [false; true; false; true] (toy_tree 0) [toy_tree 8; toy_tree 5; toy_tree 7] = Ok false.
Proof.
  split.
  { split; [lia|]. intros i Hi. do 4 (destruct i as [|i]; [vm_compute; reflexivity|]). lia. }
  split; [cbn; lia|]. split; [repeat constructor; unfold is_leaf; lia|].
  repeat match goal with |- _ /\ _ => split end; vm_compute; reflexivity.
Qed.
