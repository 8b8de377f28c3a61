(** Lemmas about storage layouts. *)
From Verif.Base Require Import Prelude Bytes.
From Verif.Model Require Import Layout.
From Verif.Spec Require Import Layout_spec.
From Coq Require Import String List.
#[global] Open Scope Z_scope.
#[global] Open Scope list_scope.

(** ** Induction over field types *)
Section Ind.
Context (P : ty -> Prop) (PV : forall v, P (Val v)) (PM : forall k t, P t -> P (Map k t))
        (PVec : forall t, P t -> P (Vec t)) (PS : P Str)
        (PT : forall fs, Forall (fun f => P (snd f)) fs -> P (Struct fs)).
Fixpoint ty_ind' (t : ty) : P t :=
  match t with
  | Val v => PV v
  | Map k t => PM k t (ty_ind' t)
  | Vec t => PVec t (ty_ind' t)
  | Str => PS
  | Struct fs =>
      PT fs ((fix go (fs : fields) : Forall (fun f => P (snd f)) fs :=
                match fs with
                | [] => List.Forall_nil _
                | f :: fs' => List.Forall_cons f (ty_ind' (snd f)) (go fs')
                end) fs)
  end.
End Ind.

(** ** The packing loop *)
Fixpoint size_loop (fs : fields) (st : Z * Z) : Z * Z :=
  match fs with
  | [] => st
  | (_, t) :: fs' => size_loop fs' (after (slot_bytes t) (required t) (fst st) (snd st))
  end.
Lemma required_struct fs : required (Struct fs) = slots_used (size_loop fs (0, 32)).
Proof. reflexivity. Qed.
Lemma required_pos fs : 1 <= required (Struct fs).
Proof. rewrite required_struct. unfold slots_used. destruct (size_loop _ _). lia. Qed.
Lemma required_cell t : is_cell t -> required t = 0.
Proof. destruct t; cbn; tauto. Qed.
Lemma required_nonneg t : 0 <= required t.
Proof. destruct t; try (cbn; lia). pose proof (required_pos fs). lia. Qed.

Fixpoint wf_all (fs : fields) : Prop := match fs with [] => True | (_, t) :: fs' => wf t /\ wf_all fs' end.
Lemma wf_struct fs : wf (Struct fs) <-> NoDup (map fst fs) /\ wf_all fs.
Proof. reflexivity. Qed.
Lemma wf_bytes t : wf t -> 1 <= slot_bytes t <= 32.
Proof. destruct t; cbn; lia. Qed.

(** A component of type [t] at slot [s], offset [o] takes these bytes. *)
Definition occ (t : ty) (s o slot byte : Z) : Prop :=
  match t with
  | Struct _ => s <= slot < s + required t
  | _ => slot = s /\ o <= byte < o + slot_bytes t
  end.
Definition struct_dec t : {fs | t = Struct fs} + {is_cell t}.
Proof. destruct t; try (right; exact I). left. eexists. reflexivity. Qed.

Ltac loop_cases :=
  repeat match goal with
  | |- context [?a <? ?b] => destruct (Z.ltb_spec a b)
  | H : context [?a <? ?b] |- _ => destruct (Z.ltb_spec a b)
  end.

Lemma position_spec bytes slot space :
  1 <= bytes <= 32 -> 0 <= space <= 32 ->
  let '(s, o) := position bytes slot space in
  0 <= o /\ o + bytes <= 32 /\ (s = slot /\ o + bytes <= space \/ s = slot + 1).
Proof. intros Hb Hs. unfold position, make_room. destruct (Z.ltb_spec space bytes); cbv beta iota; lia. Qed.
Lemma after_spec bytes words slot space :
  1 <= bytes <= 32 -> 0 <= space <= 32 -> 0 <= words ->
  let '(s, o) := position bytes slot space in
  after bytes words slot space = if 0 <? words then (s + words, 32) else (s, o).
Proof. intros. unfold after. destruct (position _ _ _) as [s o]. reflexivity. Qed.

Lemma size_loop_bounds fs st :
  wf_all fs -> 0 <= snd st <= 32 -> fst st <= fst (size_loop fs st) /\ 0 <= snd (size_loop fs st) <= 32 /\
  (fst (size_loop fs st) = fst st -> snd (size_loop fs st) <= snd st).
Proof.
  revert st. induction fs as [|[n t] fs IH]; intros [slot space] Hw Hs; [cbn in *; lia|].
  destruct Hw as [Ht Hw]. cbn [size_loop fst snd] in *.
  pose proof (position_spec (slot_bytes t) slot space (wf_bytes t Ht) Hs) as HP.
  pose proof (after_spec (slot_bytes t) (required t) slot space (wf_bytes t Ht) Hs (required_nonneg t)) as HA.
  pose proof (wf_bytes t Ht) as Hb.
  destruct (position _ _ _) as [s o]. rewrite HA.
  destruct (Z.ltb_spec 0 (required t)).
  - destruct (IH (s + required t, 32) Hw) as (I1 & I2 & I3); cbn [fst snd] in *; [lia|]. split; [lia|]. split; lia.
  - destruct (IH (s, o) Hw) as (I1 & I2 & I3); cbn [fst snd] in *; [lia|]. split; [lia|]. split; [lia|].
    intros E. assert (s = slot) by lia. lia.
Qed.

Definition from_state (st : Z * Z) (t : ty) (s o : Z) : Prop :=
  fst st < s \/ s = fst st /\ o + slot_bytes t <= snd st.
Definition to_state (st : Z * Z) (t : ty) (s o : Z) : Prop :=
  match t with
  | Struct _ => s + required t <= fst st
  | _ => s < fst st \/ s = fst st /\ snd st <= o
  end.

Lemma placements_spec fs : forall st,
  wf_all fs -> 0 <= snd st <= 32 ->
  forall n t s o, In (n, (t, s, o)) (placements fs st) ->
  wf t /\ 0 <= o /\ o + slot_bytes t <= 32 /\ from_state st t s o /\ to_state (size_loop fs st) t s o.
Proof.
  induction fs as [|[n0 t0] fs IH]; intros [slot space] Hw Hs n t s o Hin; [destruct Hin|].
  destruct Hw as [Ht Hw]. cbn [size_loop fst snd] in *.
  unfold placements in Hin. cbn [placements_] in Hin. fold placements in Hin. cbn [fst snd] in Hin.
  pose proof (position_spec (slot_bytes t0) slot space (wf_bytes t0 Ht) Hs) as HP.
  pose proof (after_spec (slot_bytes t0) (required t0) slot space (wf_bytes t0 Ht) Hs (required_nonneg t0)) as HA.
  pose proof (wf_bytes t0 Ht) as Hb.
  unfold required in HA at 1.
  destruct (position _ _ _) as [s0 o0]. fold required in HA.
  change (placements_ true fs) with (placements fs) in Hin. change (required_ true t0) with (required t0) in *.
  destruct Hin as [E|Hin].
  - injection E as <- <- <- <-. split; [exact Ht|]. split; [lia|]. split; [lia|].
    split; [unfold from_state; cbn [fst snd]; lia|].
    rewrite HA. unfold to_state.
    destruct (struct_dec t0) as [[fs0 ->]|Hc].
    + pose proof (required_pos fs0). destruct (Z.ltb_spec 0 (required (Struct fs0))); [|lia].
      destruct (size_loop_bounds fs (s0 + required (Struct fs0), 32) Hw) as (I1 & _); cbn [fst snd] in *; lia.
    + rewrite (required_cell _ Hc). cbn.
      destruct (size_loop_bounds fs (s0, o0) Hw) as (I1 & I2 & I3); cbn [fst snd] in *; [lia|].
      assert (G : s0 < fst (size_loop fs (s0, o0)) \/ s0 = fst (size_loop fs (s0, o0)) /\ snd (size_loop fs (s0, o0)) <= o0) by lia.
      destruct t0; try exact G. destruct Hc.
  - assert (Hs' : 0 <= snd (after (slot_bytes t0) (required t0) slot space) <= 32).
    { rewrite HA. destruct (Z.ltb_spec 0 (required t0)); cbn; lia. }
    destruct (IH _ Hw Hs' _ _ _ _ Hin) as (J1 & J2 & J3 & J4 & J5).
    split; [exact J1|]. split; [exact J2|]. split; [exact J3|]. split; [|exact J5].
    unfold from_state in *. rewrite HA in J4. pose proof (wf_bytes t J1). cbn [fst snd].
    destruct (Z.ltb_spec 0 (required t0)); cbn [fst snd] in J4; lia.
Qed.

Lemma placements_names fs : forall st, map fst (placements fs st) = map fst fs.
Proof.
  unfold placements. induction fs as [|[n t] fs IH]; intros st; [reflexivity|]. cbn [placements_].
  destruct (position _ _ _). cbn [map fst]. f_equal. apply IH.
Qed.
Lemma lookup_In {A} n (l : list (string * A)) x : lookup n l = Some x -> In (n, x) l.
Proof.
  induction l as [|[m y] l IH]; cbn; [discriminate|]. destruct (String.eqb_spec m n) as [->|_].
  - intros [= ->]. auto.
  - auto.
Qed.

(** Fields with different names take different bytes. *)
Lemma placements_disjoint fs : forall st,
  wf_all fs -> 0 <= snd st <= 32 -> NoDup (map fst fs) ->
  forall n t s o n' t' s' o' slot byte,
  In (n, (t, s, o)) (placements fs st) -> In (n', (t', s', o')) (placements fs st) -> n <> n' ->
  occ t s o slot byte -> occ t' s' o' slot byte -> False.
Proof.
  induction fs as [|[n0 t0] fs IH]; intros [slot0 space0] Hw Hs Hnd n t s o n' t' s' o' slot byte H1 H2 Hne O1 O2;
    [destruct H1|].
  destruct Hw as [Ht Hw]. cbn [fst snd map] in *. inversion Hnd as [|? ? Hn Hnd']; subst.
  unfold placements in H1, H2. cbn [placements_ fst snd] in H1, H2.
  change (placements_ true fs) with (placements fs) in *. change (required_ true t0) with (required t0) in *.
  pose proof (position_spec (slot_bytes t0) slot0 space0 (wf_bytes t0 Ht) Hs) as HP.
  pose proof (after_spec (slot_bytes t0) (required t0) slot0 space0 (wf_bytes t0 Ht) Hs (required_nonneg t0)) as HA.
  pose proof (wf_bytes t0 Ht) as Hb.
  destruct (position _ _ _) as [s0 o0].
  assert (Hs' : 0 <= snd (after (slot_bytes t0) (required t0) slot0 space0) <= 32).
  { rewrite HA. destruct (Z.ltb_spec 0 (required t0)); cbn; lia. }
  (* the head against a field behind it *)
  assert (G : forall m u x y, In (m, (u, x, y)) (placements fs (after (slot_bytes t0) (required t0) slot0 space0)) ->
              occ t0 s0 o0 slot byte -> occ u x y slot byte -> False).
  { intros m u x y Hin A B.
    destruct (placements_spec fs _ Hw Hs' _ _ _ _ Hin) as (J1 & J2 & J3 & J4 & _).
    unfold from_state in J4. rewrite HA in J4.
    assert (Bx : x <= slot) by (destruct u; cbn in B; lia).
    destruct (struct_dec t0) as [[fs0 ->]|Hc].
    - pose proof (required_pos fs0). destruct (Z.ltb_spec 0 (required (Struct fs0))); [|lia].
      cbn [fst snd] in J4. cbn [occ] in A. lia.
    - rewrite (required_cell _ Hc) in J4. cbn in J4.
      assert (A' : slot = s0 /\ o0 <= byte < o0 + slot_bytes t0) by (destruct t0; try exact A; destruct Hc).
      assert (x = s0) by lia. assert (Hy : y + slot_bytes u <= o0) by lia.
      destruct (struct_dec u) as [[fsu ->]|Hcu].
      + cbn [slot_bytes] in Hy. lia.
      + assert (B' : slot = x /\ y <= byte < y + slot_bytes u) by (destruct u; try exact B; destruct Hcu). lia. }
  destruct H1 as [E1|H1], H2 as [E2|H2].
  - congruence.
  - injection E1 as <- <- <- <-. eapply G; eauto.
  - injection E2 as <- <- <- <-. eapply G; eauto.
  - eapply (IH _ Hw Hs' Hnd'); eauto.
Qed.

(** ** Following field names *)
Lemma descend_spec names : forall t s o t' s' o',
  wf t -> 0 <= o -> o + slot_bytes t <= 32 -> descend t s o names = Some (t', s', o') ->
  wf t' /\ 0 <= o' /\ o' + slot_bytes t' <= 32 /\ s <= s' /\
  (forall slot byte, occ t' s' o' slot byte -> occ t s o slot byte).
Proof.
  induction names as [|f names IH]; intros t s o t' s' o' Hw Ho Ho' E; cbn in E.
  { injection E as <- <- <-. repeat split; auto; lia. }
  destruct t as [| | | |fs]; try discriminate.
  destruct (lookup f (placements fs (0, 32))) as [[[u d] y]|] eqn:L; [|discriminate].
  apply wf_struct in Hw. destruct Hw as [Hnd Hw].
  destruct (placements_spec fs (0, 32) Hw ltac:(cbn; lia) _ _ _ _ (lookup_In _ _ _ L)) as (J1 & J2 & J3 & J4 & J5).
  destruct (IH _ _ _ _ _ _ J1 J2 J3 E) as (I1 & I2 & I3 & I4 & I5).
  unfold from_state in J4. cbn [fst snd] in J4.
  split; [exact I1|]. split; [exact I2|]. split; [exact I3|]. split; [lia|].
  intros slot byte O. apply I5 in O. cbn [occ]. rewrite required_struct.
  destruct (size_loop_bounds fs (0, 32) Hw ltac:(cbn; lia)) as (B1 & B2 & _).
  destruct (size_loop fs (0, 32)) as [se pe]. cbn [slots_used fst snd] in *.
  pose proof (wf_bytes u J1).
  assert (Hd : 0 <= d) by lia.
  destruct (struct_dec u) as [[fsu ->]|Hc].
  - cbn [occ to_state fst] in *. destruct (Z.eqb_spec pe 32); lia.
  - assert (O' : slot = s + d) by (destruct u; try exact (proj1 O); destruct Hc).
    assert (J : d < se \/ d = se /\ pe <= y) by (destruct u; try exact J5; destruct Hc).
    destruct (Z.eqb_spec pe 32); lia.
Qed.

Lemma descend_disjoint names : forall names' t s o t1 s1 o1 t2 s2 o2 slot byte,
  wf t -> 0 <= o -> o + slot_bytes t <= 32 ->
  descend t s o names = Some (t1, s1, o1) -> descend t s o names' = Some (t2, s2, o2) ->
  is_cell t1 -> is_cell t2 -> names <> names' ->
  occ t1 s1 o1 slot byte -> occ t2 s2 o2 slot byte -> False.
Proof.
  induction names as [|f names IH]; intros names' t s o t1 s1 o1 t2 s2 o2 slot byte Hw Ho Ho' E1 E2 C1 C2 Hne O1 O2.
  { cbn in E1. injection E1 as <- <- <-. destruct names' as [|f' names']; [congruence|].
    cbn in E2. destruct t; try discriminate. destruct C1. }
  destruct names' as [|f' names'].
  { cbn in E2. injection E2 as <- <- <-. cbn in E1. destruct t; try discriminate. destruct C2. }
  cbn in E1, E2. destruct t as [| | | |fs]; try discriminate.
  destruct (lookup f (placements fs (0, 32))) as [[[u d] y]|] eqn:L; [|discriminate].
  destruct (lookup f' (placements fs (0, 32))) as [[[u' d'] y']|] eqn:L'; [|discriminate].
  apply wf_struct in Hw. destruct Hw as [Hnd Hw].
  destruct (placements_spec fs (0, 32) Hw ltac:(cbn; lia) _ _ _ _ (lookup_In _ _ _ L)) as (J1 & J2 & J3 & J4 & J5).
  destruct (placements_spec fs (0, 32) Hw ltac:(cbn; lia) _ _ _ _ (lookup_In _ _ _ L')) as (J1' & J2' & J3' & J4' & J5').
  destruct (String.eqb_spec f f') as [<-|Hf].
  - rewrite L in L'. injection L' as <- <- <-.
    eapply (IH names'); [exact J1|exact J2|exact J3|exact E1|exact E2|exact C1|exact C2|congruence|exact O1|exact O2].
  - destruct (descend_spec _ _ _ _ _ _ _ J1 J2 J3 E1) as (_ & _ & _ & _ & K1).
    destruct (descend_spec _ _ _ _ _ _ _ J1' J2' J3' E2) as (_ & _ & _ & _ & K2).
    apply K1 in O1. apply K2 in O2.
    assert (T : forall u d y slot, occ u (s + d) y slot byte -> occ u d y (slot - s) byte)
      by (intros v ? ? ? Hv; destruct v; cbn in *; lia).
    eapply (placements_disjoint fs (0, 32) Hw ltac:(cbn; lia) Hnd);
      [exact (lookup_In _ _ _ L)|exact (lookup_In _ _ _ L')|exact Hf|exact (T _ _ _ _ O1)|exact (T _ _ _ _ O2)].
Qed.

(** ** Elements of an array *)
Definition elem_slot (t : ty) (i : Z) : Z := words t * i / density t.
Definition elem_off (t : ty) (i : Z) : Z := 32 - slot_bytes t * (1 + i mod density t).
Lemma density_pos t : wf t -> 1 <= density t /\ slot_bytes t * density t <= 32.
Proof.
  intros H. apply wf_bytes in H. unfold density. split.
  - apply Z.div_le_lower_bound; lia.
  - pose proof (Z.mul_div_le 32 (slot_bytes t)). lia.
Qed.
Lemma elem_bounds t i : wf t -> 0 <= i -> 0 <= elem_slot t i /\ 0 <= elem_off t i /\ elem_off t i + slot_bytes t <= 32.
Proof.
  intros Hw Hi. destruct (density_pos t Hw) as [Hd Hs]. pose proof (wf_bytes t Hw).
  unfold elem_slot, elem_off. pose proof (Z.mod_pos_bound i (density t) ltac:(lia)).
  split; [apply Z.div_pos; [unfold words; nia|lia]|]. nia.
Qed.
Lemma elem_disjoint t i j slot byte :
  wf t -> 0 <= i -> 0 <= j -> i <> j ->
  occ t (elem_slot t i) (elem_off t i) slot byte -> occ t (elem_slot t j) (elem_off t j) slot byte -> False.
Proof.
  intros Hw Hi Hj Hne A B. destruct (density_pos t Hw) as [Hd Hs]. pose proof (wf_bytes t Hw).
  destruct (struct_dec t) as [[fs ->]|Hc].
  - pose proof (required_pos fs) as Hr. cbn [occ] in A, B.
    unfold elem_slot, words, density in A, B. cbn [slot_bytes] in A, B. change (32 / 32) with 1 in A, B.
    rewrite !Z.div_1_r in A, B. rewrite Z.max_l in A, B by lia. set (r := required (Struct fs)) in *.
    clearbody r. clear - Hne A B Hr.
    assert (i < j \/ j < i) as [L|L] by lia.
    + assert (r * i + r <= r * j) by nia. lia.
    + assert (r * j + r <= r * i) by nia. lia.
  - assert (T : forall i, elem_slot t i = i / density t).
    { intros k. unfold elem_slot, words. rewrite (required_cell _ Hc). change (Z.max 0 1) with 1. f_equal. lia. }
    assert (A' : slot = elem_slot t i /\ elem_off t i <= byte < elem_off t i + slot_bytes t)
      by (destruct t; try exact A; destruct Hc).
    assert (B' : slot = elem_slot t j /\ elem_off t j <= byte < elem_off t j + slot_bytes t)
      by (destruct t; try exact B; destruct Hc).
    clear A B. rewrite !T in *. unfold elem_off in *.
    pose proof (Z.div_mod i (density t) ltac:(lia)). pose proof (Z.div_mod j (density t) ltac:(lia)).
    set (w := slot_bytes t) in *. set (D := density t) in *. set (a := i mod D) in *. set (b := j mod D) in *.
    assert (Eq : i / D = j / D) by lia. rewrite Eq in *.
    assert (a <> b) by lia. clearbody w a b D.
    assert (a < b \/ b < a) as [L|L] by lia; nia.
Qed.

(** ** Locations *)
Section Hash.
Context (hash : list Z -> Z) (contract : ty) (Hc : wf contract).
Definition loc_occ (l : location) := occ (l_type l) (l_slot l) (l_off l).
Definition good (l : location) : Prop :=
  wf (l_type l) /\ 0 <= l_off l /\ l_off l + slot_bytes (l_type l) <= 32 /\ 0 <= l_slot l.
Lemma at_base_good b t s o names l :
  wf t -> 0 <= o -> o + slot_bytes t <= 32 -> 0 <= s -> at_base b (descend t s o names) = Some l ->
  good l /\ l_base l = b /\ exists t' s' o', descend t s o names = Some (t', s', o') /\ l = Loc t' b s' o'.
Proof.
  intros Hw Ho Ho' Hs E. destruct (descend t s o names) as [[[t' s'] o']|] eqn:D; [|discriminate].
  injection E as <-. destruct (descend_spec _ _ _ _ _ _ _ Hw Ho Ho' D) as (I1 & I2 & I3 & I4 & _).
  split; [unfold good; cbn; lia || (repeat split; auto; lia)|]. split; [reflexivity|]. eauto.
Qed.

Context (Hstruct : exists fs, contract = Struct fs).
Lemma root_start : 0 + slot_bytes contract <= 32.
Proof. destruct Hstruct as [fs ->]. cbn. lia. Qed.

Lemma wf_inner_map k t : wf (Map k t) -> wf t. Proof. auto. Qed.

(** What [take] does, by kind. *)
Lemma take_cases l s names m :
  good l -> match s with Key k => is_u256 k | Idx i => 0 <= i end -> take hash l s names = Some m ->
  is_cell (l_type l) /\ l_off l = 0 /\ slot_bytes (l_type l) = 32 /\
  ((exists k kt v, s = Key k /\ l_type l = Map kt v /\ wf v /\ 0 <= 32 - slot_bytes v /\
     at_base (hash (word k ++ word (slot_of l))) (descend v 0 (32 - slot_bytes v) names) = Some m) \/
   (exists i v, s = Idx i /\ 0 <= i /\ wf v /\ (l_type l = Vec v \/ l_type l = Str /\ v = Val Bytes32) /\
     at_base (hash (word (slot_of l))) (descend v (elem_slot v i) (elem_off v i) names) = Some m)).
Proof.
  intros (Hw & Ho & Ho' & Hs) Hp E. unfold take in E.
  destruct (l_type l) as [v|kt v|v| |fs] eqn:T; destruct s as [k|i]; try discriminate; cbn [slot_bytes] in *;
    (split; [exact I|]); (split; [lia|]); (split; [reflexivity|]).
  - left. exists k, kt, v. cbn [wf] in Hw. pose proof (wf_bytes v Hw). repeat split; auto; lia.
  - right. exists i, v. cbn [wf] in Hw. repeat split; auto.
  - right. exists i, (Val Bytes32). split; [reflexivity|]. split; [exact Hp|]. split; [cbn; lia|]. split; [auto|].
    replace (elem_slot (Val Bytes32) i) with i; [replace (elem_off (Val Bytes32) i) with 0; [exact E|]|].
    + unfold elem_off. change (density (Val Bytes32)) with 1. rewrite Z.mod_1_r. reflexivity.
    + unfold elem_slot. change (density (Val Bytes32)) with 1. change (words (Val Bytes32)) with 1.
      rewrite Z.div_1_r. lia.
Qed.

Lemma resolve_good p : forall l, proper p -> resolve hash contract p = Some l -> good l.
Proof.
  induction p as [names|p IH s names]; intros l Hp E; cbn in E.
  - eapply (at_base_good 0 contract 0 0 names l); eauto using root_start; lia.
  - destruct Hp as [Hs Hp]. destruct (resolve hash contract p) as [m|] eqn:R; [|discriminate].
    destruct (take_cases m s names l (IH m Hp eq_refl) Hs E) as (_ & _ & _ & [(k & kt & v & _ & _ & Hv & Hv' & A)|(i & v & _ & Hi & Hv & _ & A)]).
    + eapply at_base_good; [exact Hv| | | |exact A]; lia.
    + destruct (elem_bounds v i Hv Hi) as (B1 & B2 & B3). eapply at_base_good; [exact Hv| | | |exact A]; lia.
Qed.

Definition place_dec (p q : place) : {p = q} + {p <> q}.
Proof. repeat (apply Z.eq_dec || apply (list_eq_dec string_dec) || decide equality). Defined.
Definition bytes_dec (x y : list Z) : {x = y} + {x <> y} := list_eq_dec Z.eq_dec x y.

Lemma share_occ l m :
  good l -> good m -> is_cell (l_type l) -> is_cell (l_type m) -> share_bytes l m -> l_base l = l_base m ->
  forall K, K <= two256 -> l_slot l < K -> l_slot m < K ->
  exists slot byte, loc_occ l slot byte /\ loc_occ m slot byte.
Proof.
  intros (W1 & O1 & O1' & S1) (W2 & O2 & O2' & S2) C1 C2 (Es & A & B) Eb K HK H1 H2.
  unfold slot_of in Es. rewrite Eb in Es.
  assert (E : l_slot l = l_slot m).
  { assert (M : (l_slot l - l_slot m) mod two256 = 0).
    { replace (l_slot l - l_slot m) with ((l_base m + l_slot l) - (l_base m + l_slot m)) by lia.
      rewrite Zminus_mod, Es, Z.sub_diag. reflexivity. }
    apply Z.mod_divide in M; [|unfold two256; lia]. destruct M as [z Hz].
    assert (z = 0) by (unfold two256 in *; lia). subst z. lia. }
  pose proof (wf_bytes _ W1). pose proof (wf_bytes _ W2).
  exists (l_slot l), (Z.max (l_off l) (l_off m)). unfold loc_occ. split.
  - destruct (l_type l); cbn in *; try lia; destruct C1.
  - destruct (l_type m); cbn in *; try lia; destruct C2.
Qed.

Lemma near_of_slots K b1 d1 b2 d2 :
  0 <= d1 < K -> 0 <= d2 < K -> (b1 + d1) mod two256 = (b2 + d2) mod two256 -> near K b1 b2.
Proof.
  intros H1 H2 E. exists (d2 - d1). split; [lia|].
  replace (b1 - b2) with ((b1 + d1) - (b2 + d2) + (d2 - d1)) by lia.
  rewrite Zplus_mod, Zminus_mod, E, Z.sub_diag. rewrite Zmod_0_l, Z.add_0_l. apply Z.mod_mod. unfold two256. lia.
Qed.

Lemma collision_mono K l l' : (forall x, In x l -> In x l') -> collision hash K l -> collision hash K l'.
Proof.
  intros S (x & Hx & [N|(y & Hy & D & N)]); exists x; (split; [auto|]); [left; auto|right; exists y; auto].
Qed.
Lemma collision_comm K l l' : collision hash K (l ++ l') -> collision hash K (l' ++ l).
Proof. apply collision_mono. intros x. rewrite !in_app_iff. tauto. Qed.

Lemma within_head K p l : within hash K contract p -> resolve hash contract p = Some l -> l_slot l < K.
Proof. intros W E. unfold within in W. destruct p; cbn [offsets] in W; rewrite E in W; inversion W; auto. Qed.
Lemma within_tail K p s names : within hash K contract (Then p s names) -> within hash K contract p.
Proof. intros W. unfold within in *. cbn [offsets] in W. apply Forall_app in W. tauto. Qed.

Lemma slot_of_u256 l : is_u256 (slot_of l).
Proof. unfold slot_of, is_u256. apply Z.mod_pos_bound. unfold two256. lia. Qed.

Lemma root_then K names q s names' l m :
  proper (Then q s names') -> within hash K contract (Root names) -> within hash K contract (Then q s names') ->
  resolve hash contract (Root names) = Some l -> resolve hash contract (Then q s names') = Some m ->
  slot_of l = slot_of m -> collision hash K (hashed hash contract (Then q s names')).
Proof.
  intros Hp W1 W2 E1 E2 Es.
  pose proof (within_head _ _ _ W1 E1) as D1. pose proof (within_head _ _ _ W2 E2) as D2.
  pose proof (resolve_good (Root names) _ I E1) as (_ & _ & _ & S1). pose proof (resolve_good _ _ Hp E2) as (_ & _ & _ & S2).
  cbn [resolve] in E1, E2. destruct (resolve hash contract q) as [c|] eqn:R; [|discriminate].
  destruct Hp as [Hs Hq].
  destruct (take_cases c s names' m (resolve_good _ _ Hq R) Hs E2) as (_ & _ & _ & [(k & kt & v & -> & _ & Hv & Hv' & A)|(i & v & -> & Hi & Hv & _ & A)]).
  - cbn [hashed]. rewrite R. exists (word k ++ word (slot_of c)). split; [left; reflexivity|]. left.
    destruct (at_base_good _ v 0 (32 - slot_bytes v) _ _ Hv Hv' ltac:(lia) ltac:(lia) A) as (_ & Eb & _).
    destruct (at_base_good 0 contract 0 0 names l Hc ltac:(lia) root_start ltac:(lia) E1) as (_ & Eb' & _).
    unfold slot_of in Es. rewrite Eb, Eb' in Es. eapply near_of_slots; [| |symmetry; exact Es]; lia.
  - cbn [hashed]. rewrite R. exists (word (slot_of c)). split; [left; reflexivity|]. left.
    destruct (elem_bounds v i Hv Hi) as (B1 & B2 & B3).
    destruct (at_base_good _ _ _ _ _ _ Hv B2 B3 B1 A) as (_ & Eb & _).
    destruct (at_base_good 0 contract 0 0 names l Hc ltac:(lia) root_start ltac:(lia) E1) as (_ & Eb' & _).
    unfold slot_of in Es. rewrite Eb, Eb' in Es. eapply near_of_slots; [| |symmetry; exact Es]; lia.
Qed.

Lemma hashed_then q s names' c m :
  proper (Then q s names') -> resolve hash contract q = Some c -> take hash c s names' = Some m ->
  exists x, hashed hash contract (Then q s names') = x :: hashed hash contract q /\ l_base m = hash x /\
    x = match s with Key k => word k ++ word (slot_of c) | Idx _ => word (slot_of c) end.
Proof.
  intros [Hs Hq] R E2.
  destruct (take_cases c s names' m (resolve_good _ _ Hq R) Hs E2) as (_ & _ & _ & [(k & kt & v & -> & _ & Hv & Hv' & A)|(i & v & -> & Hi & Hv & _ & A)]);
    cbn [hashed]; rewrite R; eexists; (split; [reflexivity|]); (split; [|reflexivity]).
  - eapply (at_base_good _ _ _ _ _ _ Hv Hv'); [| |exact A]; lia.
  - destruct (elem_bounds v i Hv Hi) as (B1 & B2 & B3). eapply (at_base_good _ _ _ _ _ _ Hv B2 B3 B1 A).
Qed.

Theorem no_aliasing K : K <= two256 -> forall p q l m,
  p <> q -> proper p -> proper q -> within hash K contract p -> within hash K contract q ->
  resolve hash contract p = Some l -> resolve hash contract q = Some m ->
  is_cell (l_type l) -> is_cell (l_type m) -> share_bytes l m ->
  collision hash K (hashed hash contract p ++ hashed hash contract q).
Proof.
  intros HK. induction p as [names|p IH s names]; intros q l m Hne Pp Pq Wp Wq Rp Rq Cl Cm Sh.
  - destruct q as [names'|q s' names'].
    + exfalso. pose proof (resolve_good _ _ Pp Rp) as Gl. pose proof (resolve_good _ _ Pq Rq) as Gm.
      pose proof (within_head _ _ _ Wp Rp). pose proof (within_head _ _ _ Wq Rq).
      cbn [resolve] in Rp, Rq.
      destruct (at_base_good 0 contract 0 0 names l Hc ltac:(lia) root_start ltac:(lia) Rp) as (_ & Eb & t1 & s1 & o1 & D1 & ->).
      destruct (at_base_good 0 contract 0 0 names' m Hc ltac:(lia) root_start ltac:(lia) Rq) as (_ & Eb' & t2 & s2 & o2 & D2 & ->).
      destruct (share_occ _ _ Gl Gm Cl Cm Sh eq_refl K HK) as (slot & byte & O1 & O2); [assumption..|].
      unfold loc_occ in *. cbn in *.
      eapply (descend_disjoint names names' contract 0 0); eauto using root_start; [lia|congruence].
    + cbn [hashed app]. eapply (root_then K names q s' names' l m); eauto. apply Sh.
  - destruct q as [names'|q s' names'].
    + apply collision_comm. cbn [hashed app].
      eapply (root_then K names' p s names m l); eauto. symmetry. apply Sh.
    + pose proof (resolve_good _ _ Pp Rp) as Gl. pose proof (resolve_good _ _ Pq Rq) as Gm.
      pose proof (within_head _ _ _ Wp Rp) as L1. pose proof (within_head _ _ _ Wq Rq) as L2.
      pose proof Rp as Rp0. pose proof Rq as Rq0. cbn [resolve] in Rp, Rq.
      destruct (resolve hash contract p) as [c|] eqn:Ep; [|discriminate].
      destruct (resolve hash contract q) as [e|] eqn:Eq; [|discriminate].
      destruct (hashed_then p s names c l Pp Ep Rp) as (x & Hx & Bx & Dx).
      destruct (hashed_then q s' names' e m Pq Eq Rq) as (y & Hy & By & Dy).
      rewrite Hx, Hy.
      destruct (bytes_dec x y) as [Exy|Nxy].
      * rewrite <- Exy in Dy.
        assert (Es : slot_of c = slot_of e /\ match s, s' with Key k, Key k' => k = k' | Idx _, Idx _ => True | _, _ => False end).
        { rewrite Dx in Dy. destruct Pp as [Ps _], Pq as [Ps' _]. destruct s as [k|i], s' as [k'|i'].
          - apply app_eq_len in Dy; [|rewrite !word_length; reflexivity]. destruct Dy as [Ek Ew].
            split; [apply word_inj; auto using slot_of_u256|apply word_inj; auto].
          - apply (f_equal (@length Z)) in Dy. rewrite app_length, !word_length in Dy. discriminate.
          - apply (f_equal (@length Z)) in Dy. rewrite app_length, !word_length in Dy. discriminate.
          - split; [apply word_inj; auto using slot_of_u256|exact I]. }
        destruct Es as [Es Ek].
        destruct Pp as [Ps Pp], Pq as [Ps' Pq].
        pose proof (resolve_good _ _ Pp Ep) as Gc. pose proof (resolve_good _ _ Pq Eq) as Ge.
        destruct (take_cases c s names l Gc Ps Rp) as (Cc & Oc & Bc & Kc).
        destruct (take_cases e s' names' m Ge Ps' Rq) as (Ce & Oe & Be & Ke).
        destruct (place_dec p q) as [<-|Npq].
        -- exfalso. rewrite Ep in Eq. injection Eq as <-.
           destruct Kc as [(k & kt & v & -> & T & Hv & Hv' & A)|(i & v & -> & Hi & Hv & T & A)].
           ++ destruct Ke as [(k' & kt' & v' & -> & T' & Hvv & Hvv' & A')|(i & v' & -> & _)]; [|destruct Ek].
              subst k'. rewrite T in T'. injection T' as <- <-.
              destruct (at_base_good _ v 0 (32 - slot_bytes v) _ _ Hv Hv' ltac:(lia) ltac:(lia) A) as (_ & Eb & t1 & s1 & o1 & D1 & ->).
              destruct (at_base_good _ v 0 (32 - slot_bytes v) _ _ Hv Hv' ltac:(lia) ltac:(lia) A') as (_ & Eb' & t2 & s2 & o2 & D2 & ->).
              destruct (share_occ _ _ Gl Gm Cl Cm Sh eq_refl K HK) as (slot & byte & O1 & O2); [assumption..|].
              unfold loc_occ in *. cbn in *.
              eapply (descend_disjoint names names' v 0 (32 - slot_bytes v)); eauto; [lia|congruence].
           ++ destruct Ke as [(k' & kt' & v' & -> & _)|(i' & v' & -> & Hi' & Hvv & T' & A')]; [destruct Ek|].
              assert (v' = v) by (destruct T as [T|[T ->]], T' as [T'|[T' ->]]; congruence). subst v'.
              destruct (elem_bounds v i Hv Hi) as (B1 & B2 & B3).
              destruct (elem_bounds v i' Hv Hi') as (B1' & B2' & B3').
              destruct (at_base_good _ _ _ _ _ _ Hv B2 B3 B1 A) as (_ & Eb & t1 & s1 & o1 & D1 & ->).
              destruct (at_base_good _ _ _ _ _ _ Hv B2' B3' B1' A') as (_ & Eb' & t2 & s2 & o2 & D2 & ->).
              destruct (share_occ _ _ Gl Gm Cl Cm Sh eq_refl K HK) as (slot & byte & O1 & O2); [assumption..|].
              unfold loc_occ in *. cbn [l_type l_slot l_off l_base] in *.
              destruct (Z.eq_dec i i') as [<-|Ni].
              ** eapply (descend_disjoint names names' v (elem_slot v i) (elem_off v i)); [exact Hv|exact B2|exact B3|exact D1|exact D2|exact Cl|exact Cm|congruence|exact O1|exact O2].
              ** destruct (descend_spec _ _ _ _ _ _ _ Hv B2 B3 D1) as (_ & _ & _ & _ & K1).
                 destruct (descend_spec _ _ _ _ _ _ _ Hv B2' B3' D2) as (_ & _ & _ & _ & K2).
                 eapply (elem_disjoint v i i'); eauto.
        -- eapply (collision_mono K (hashed hash contract p ++ hashed hash contract q)).
           { intros z. cbn [app In]. rewrite !in_app_iff. cbn [In]. tauto. }
           apply (IH q c e); auto; try (eapply within_tail; eassumption).
           unfold share_bytes. rewrite Oc, Oe, Bc, Be. split; [exact Es|lia].
      * exists x. split; [left; reflexivity|]. right. exists y. split; [|split; [exact Nxy|]].
        { right. apply in_or_app. right. left. reflexivity. }
        destruct Sh as (Es & _). unfold slot_of in Es. rewrite Bx, By in Es.
        eapply near_of_slots; [| |exact Es]; destruct Gl as (_ & _ & _ & ?), Gm as (_ & _ & _ & ?); lia.
Qed.
End Hash.

(** ** Solidity's rules *)
Fixpoint sol_loop (fs : fields) (st : Z * Z) : Z * Z :=
  match fs with
  | [] => st
  | (_, t) :: fs' => let p := sol_start t (fst st) (snd st) in sol_loop fs' (sol_end t (sol_size t) (fst p) (snd p))
  end.
Lemma sol_size_struct fs :
  sol_size (Struct fs) = let '(slot, used) := sol_loop fs (0, 0) in if used =? 0 then slot else slot + 1.
Proof. reflexivity. Qed.
Fixpoint inh_all (fs : fields) : Prop := match fs with [] => True | (_, t) :: fs' => inhabited t /\ inh_all fs' end.
Lemma inh_struct fs : inhabited (Struct fs) <-> fs <> [] /\ inh_all fs.
Proof. reflexivity. Qed.

Definition states (st st' : Z * Z) : Prop :=
  fst st' = fst st /\ snd st = 32 - snd st' /\ 0 <= snd st' <= 32 \/
  snd st = 0 /\ fst st' = fst st + 1 /\ snd st' = 0.
Definition size_ok (t : ty) : Prop := is_cell t \/ required t = sol_size t /\ 1 <= sol_size t.

Lemma states_step t st st' :
  wf t -> size_ok t -> states st st' ->
  let p := sol_start t (fst st') (snd st') in
  position (slot_bytes t) (fst st) (snd st) = (fst p, 32 - snd p - slot_bytes t) /\
  states (after (slot_bytes t) (required t) (fst st) (snd st)) (sol_end t (sol_size t) (fst p) (snd p)).
Proof.
  intros Hw Hs R. cbv zeta. pose proof (wf_bytes t Hw) as Hb.
  destruct st as [slot space], st' as [slot' used]. unfold states in R. cbn [fst snd] in *.
  unfold after, position, make_room, sol_start, sol_end, states.
  destruct t as [v|k v|v| |fs]; cbn [is_value slot_bytes] in *;
    try (change (required (Map k v)) with 0; change (sol_size (Map k v)) with 1);
    try (change (required (Vec v)) with 0; change (sol_size (Vec v)) with 1);
    try (change (required (Val v)) with 0);
    try (change (required Str) with 0; change (sol_size Str) with 1).
  - destruct (Z.leb_spec (used + vbytes v) 32), (Z.ltb_spec space (vbytes v)); cbv beta iota; cbn [fst snd Z.ltb Z.compare];
      (split; [f_equal; lia|lia]).
  - destruct (Z.eqb_spec used 0), (Z.ltb_spec space 32); cbv beta iota; cbn [fst snd Z.ltb Z.compare]; (split; [f_equal; lia|lia]).
  - destruct (Z.eqb_spec used 0), (Z.ltb_spec space 32); cbv beta iota; cbn [fst snd Z.ltb Z.compare]; (split; [f_equal; lia|lia]).
  - destruct (Z.eqb_spec used 0), (Z.ltb_spec space 32); cbv beta iota; cbn [fst snd Z.ltb Z.compare]; (split; [f_equal; lia|lia]).
  - destruct Hs as [[]|[Er E1]]. rewrite Er. set (r := sol_size (Struct fs)) in *. clearbody r.
    destruct (Z.eqb_spec used 0), (Z.ltb_spec space 32); cbv beta iota; cbn [fst snd];
      (destruct (Z.ltb_spec 0 r); [|lia]); cbn [fst snd]; (split; [f_equal; lia|lia]).
Qed.

Definition to_left (x : ty * Z * Z) : ty * Z * Z := let '(t, s, lo) := x in (t, s, 32 - lo - slot_bytes t).
Lemma states_loop fs : forall st st',
  wf_all fs -> Forall (fun f => size_ok (snd f)) fs -> states st st' ->
  placements fs st = map (fun '(n, x) => (n, to_left x)) (sol_members fs st') /\
  states (size_loop fs st) (sol_loop fs st').
Proof.
  unfold placements. induction fs as [|[n t] fs IH]; intros st st' Hw Hs R; [auto|].
  destruct Hw as [Ht Hw]. inversion Hs as [|? ? Hs1 Hs2]; subst. cbn [snd] in Hs1.
  destruct (states_step t st st' Ht Hs1 R) as [E R'].
  destruct (IH _ _ Hw Hs2 R') as [E2 R2].
  cbn [placements_ sol_members size_loop sol_loop map]. cbv zeta. rewrite E. split; [|exact R2].
  unfold to_left at 1. rewrite <- E2. reflexivity.
Qed.
Lemma sol_loop_pos fs : forall st,
  wf_all fs -> Forall (fun f => size_ok (snd f)) fs -> 0 <= fst st -> 0 <= snd st ->
  0 <= fst (sol_loop fs st) /\ 0 <= snd (sol_loop fs st) /\
  (fs <> [] \/ 1 <= fst st + snd st -> 1 <= fst (sol_loop fs st) + snd (sol_loop fs st)).
Proof.
  induction fs as [|[n t] fs IH]; intros [slot used] Hw Hs H1 H2; cbn [fst snd] in *.
  { cbn. split; [lia|]. split; [lia|]. intros [C|C]; [congruence|lia]. }
  destruct Hw as [Ht Hw]. inversion Hs as [|? ? Hs1 Hs2]; subst. cbn [snd] in Hs1. cbn [sol_loop fst snd].
  pose proof (wf_bytes t Ht).
  assert (G : 0 <= fst (sol_start t slot used) /\ 0 <= snd (sol_start t slot used)).
  { unfold sol_start. destruct (is_value t); [destruct (_ <=? _)|destruct (_ =? _)]; cbn; lia. }
  assert (S1 : is_value t = true \/ 1 <= sol_size t).
  { destruct Hs1 as [C|[_ C]]; [|auto]. destruct t; try (left; reflexivity); try (right; cbn; lia). destruct C. }
  destruct (IH (sol_end t (sol_size t) (fst (sol_start t slot used)) (snd (sol_start t slot used))) Hw Hs2) as (I1 & I2 & I3).
  { unfold sol_end. destruct (is_value t); cbn; destruct S1; try discriminate; lia. }
  { unfold sol_end. destruct (is_value t); cbn; lia. }
  split; [exact I1|]. split; [exact I2|]. intros _. apply I3. right.
  unfold sol_end. destruct (is_value t); cbn [fst snd]; destruct S1; try discriminate; lia.
Qed.
Lemma size_ok_all t : wf t -> inhabited t -> size_ok t.
Proof.
  induction t as [v|k t IH|t IH| |fs IH] using ty_ind'; intros Hw Hi; try (left; exact I).
  right. apply wf_struct in Hw. destruct Hw as [_ Hw]. apply inh_struct in Hi. destruct Hi as [Hne Hi].
  assert (Hs : Forall (fun f => size_ok (snd f)) fs).
  { clear Hne. induction fs as [|[n t] fs IHf]; [constructor|]. inversion IH; subst. destruct Hw, Hi.
    constructor; [auto|]. apply IHf; auto. }
  destruct (states_loop fs (0, 32) (0, 0) Hw Hs ltac:(left; cbn; lia)) as [_ R].
  destruct (sol_loop_pos fs (0, 0) Hw Hs ltac:(cbn; lia) ltac:(cbn; lia)) as (P1 & P2 & P3).
  specialize (P3 (or_introl Hne)).
  rewrite required_struct, sol_size_struct. unfold states in R.
  destruct (size_loop fs (0, 32)) as [slot space], (sol_loop fs (0, 0)) as [slot' used].
  unfold slots_used. cbn [fst snd] in *. destruct (Z.eqb_spec space 32), (Z.eqb_spec used 0); lia.
Qed.
Lemma sizes_all fs : wf_all fs -> inh_all fs -> Forall (fun f => size_ok (snd f)) fs.
Proof.
  induction fs as [|[n t] fs IH]; intros Hw Hi; [constructor|]. destruct Hw, Hi.
  constructor; [apply size_ok_all; auto|apply IH; auto].
Qed.

Lemma lookup_map {A B} (f : A -> B) n l : lookup n (map (fun '(m, x) => (m, f x)) l) = option_map f (lookup n l).
Proof. induction l as [|[m x] l IH]; [reflexivity|]. cbn. destruct (String.eqb m n); auto. Qed.
Lemma wf_all_In fs n t : wf_all fs -> In (n, t) fs -> wf t.
Proof. induction fs as [|[m u] fs IH]; [intros _ []|]. intros [H1 H2] [E|H]; [injection E as <- <-; auto|auto]. Qed.
Lemma inh_all_In fs n t : inh_all fs -> In (n, t) fs -> inhabited t.
Proof. induction fs as [|[m u] fs IH]; [intros _ []|]. intros [H1 H2] [E|H]; [injection E as <- <-; auto|auto]. Qed.
Lemma sol_members_In fs : forall st n t s lo, In (n, (t, s, lo)) (sol_members fs st) -> In (n, t) fs.
Proof.
  induction fs as [|[m u] fs IH]; intros st n t s lo H; [destruct H|]. cbn in H. destruct H as [E|H].
  - injection E as <- <- <- <-. left. reflexivity.
  - right. eapply IH. exact H.
Qed.

Lemma sol_descend_ok names : forall t s lo,
  wf t -> inhabited t ->
  descend t s (32 - lo - slot_bytes t) names = option_map to_left (sol_descend t s lo names).
Proof.
  induction names as [|f names IH]; intros t s lo Hw Hi; [reflexivity|].
  cbn [descend sol_descend]. destruct t as [| | | |fs]; try reflexivity.
  apply wf_struct in Hw. destruct Hw as [_ Hw]. apply inh_struct in Hi. destruct Hi as [_ Hi].
  destruct (states_loop fs (0, 32) (0, 0) Hw (sizes_all fs Hw Hi) ltac:(left; cbn; lia)) as [-> _].
  rewrite lookup_map. destruct (lookup f (sol_members fs (0, 0))) as [[[u d] lo']|] eqn:L; [|reflexivity].
  cbn [option_map to_left]. apply lookup_In in L. apply sol_members_In in L.
  apply IH; [eapply wf_all_In; eauto|eapply inh_all_In; eauto].
Qed.
Lemma sol_descend_inv names : forall t s lo t' s' lo',
  wf t -> inhabited t -> sol_descend t s lo names = Some (t', s', lo') -> wf t' /\ inhabited t'.
Proof.
  induction names as [|f names IH]; intros t s lo t' s' lo' Hw Hi E; cbn in E.
  { injection E as <- _ _. auto. }
  destruct t as [| | | |fs]; try discriminate.
  destruct (lookup f (sol_members fs (0, 0))) as [[[u d] y]|] eqn:L; [|discriminate].
  apply lookup_In in L. apply sol_members_In in L. apply wf_struct in Hw. apply inh_struct in Hi.
  destruct Hw as [_ Hw], Hi as [_ Hi]. eapply IH; [| |exact E]; [eapply wf_all_In; eauto|eapply inh_all_In; eauto].
Qed.

Lemma sol_element_ok t i :
  wf t -> inhabited t ->
  elem_slot t i = fst (sol_element t i) /\ elem_off t i = 32 - snd (sol_element t i) - slot_bytes t.
Proof.
  intros Hw Hi. unfold elem_slot, elem_off, sol_element, density, words.
  pose proof (size_ok_all t Hw Hi) as S.
  destruct t as [v|k v|v| |fs]; cbn [is_value slot_bytes fst snd];
    try (change (32 / 32) with 1; rewrite Z.div_1_r, Z.mod_1_r).
  - change (required (Val v)) with 0. change (Z.max 0 1) with 1. rewrite Z.mul_1_l. split; [reflexivity|lia].
  - change (required (Map k v)) with 0. change (Z.max 0 1) with 1. change (sol_size (Map k v)) with 1. lia.
  - change (required (Vec v)) with 0. change (Z.max 0 1) with 1. change (sol_size (Vec v)) with 1. lia.
  - change (required Str) with 0. change (Z.max 0 1) with 1. change (sol_size Str) with 1. lia.
  - destruct S as [[]|[Er E1]]. rewrite Er, Z.max_l by lia. lia.
Qed.

Lemma at_base_sol b x : option_map from_right (at_base b (option_map to_left x)) = from_slot b x.
Proof.
  destruct x as [[[t s] lo]|]; [|reflexivity]. cbn [option_map to_left at_base from_slot].
  unfold from_right, slot_of. cbn [l_type l_base l_slot l_off]. do 2 f_equal. lia.
Qed.
Lemma sol_resolve_ok hash contract p :
  wf contract -> inhabited contract -> (exists fs, contract = Struct fs) ->
  option_map from_right (resolve hash contract p) = sol_resolve hash contract p /\
  (forall t s lo, sol_resolve hash contract p = Some (t, s, lo) -> wf t /\ inhabited t).
Proof.
  intros Hw Hi [fs E0].
  assert (FS : forall b x t s lo, from_slot b x = Some (t, s, lo) -> exists s', x = Some (t, s', lo)).
  { intros b [[[t' s'] lo']|] t s lo E; [|discriminate]. cbn in E. injection E as <- _ <-. eauto. }
  induction p as [names|p [IH IHw] st names]; cbn [resolve sol_resolve].
  - split.
    + pose proof (sol_descend_ok names contract 0 0 Hw Hi) as D.
      replace (32 - 0 - slot_bytes contract) with 0 in D by (subst; reflexivity). rewrite D. apply at_base_sol.
    + intros t s lo E. apply FS in E. destruct E as [s' E]. eapply sol_descend_inv; eauto.
  - destruct (resolve hash contract p) as [l|]; cbn [option_map] in IH; rewrite <- IH in *; [|split; [reflexivity|discriminate]].
    unfold from_right in IHw. specialize (IHw _ _ _ eq_refl). unfold from_right at 2 3. unfold take.
    destruct (l_type l) as [v|k v|v| |gs] eqn:T; destruct st as [kk|i]; try (split; [reflexivity|discriminate]).
    + destruct IHw as [W1 W2]. cbn [wf inhabited] in W1, W2. split.
      * replace (32 - slot_bytes v) with (32 - 0 - slot_bytes v) by lia. rewrite (sol_descend_ok names v 0 0 W1 W2). apply at_base_sol.
      * intros t s lo E. apply FS in E. destruct E as [s' E]. eapply sol_descend_inv; eauto.
    + destruct IHw as [W1 W2]. cbn [wf inhabited] in W1, W2.
      destruct (sol_element_ok v i W1 W2) as [P1 P2]. unfold elem_slot, elem_off in P1, P2. rewrite P1, P2.
      destruct (sol_element v i) as [d lo0]. cbn [fst snd]. split.
      * rewrite (sol_descend_ok names v d lo0 W1 W2). apply at_base_sol.
      * intros t s lo E. apply FS in E. destruct E as [s' E]. eapply sol_descend_inv; eauto.
    + split.
      * pose proof (sol_descend_ok names (Val Bytes32) i 0 ltac:(cbn; lia) I) as D.
        change (32 - 0 - slot_bytes (Val Bytes32)) with 0 in D. rewrite D. apply at_base_sol.
      * intros t s lo E. apply FS in E. destruct E as [s' E]. eapply sol_descend_inv; [| |exact E]; cbn; [lia|exact I].
Qed.

(** ** Reading and writing values *)
Section Lens.
Context (w slot off : Z) (Hw : 1 <= w) (Ho : 0 <= off) (Ho' : off + w <= 32).
Lemma load_store_same v m : 0 <= v < 2 ^ (8 * w) -> load w slot off (store w slot off v m) = v.
Proof.
  intros Hv. unfold load at 1, store. rewrite Z.eqb_refl. unfold load.
  set (P := 2 ^ (8 * (32 - off - w))). set (Q := 2 ^ (8 * w)) in *.
  assert (0 < P) by (apply Z.pow_pos_nonneg; lia). assert (0 < Q) by (apply Z.pow_pos_nonneg; lia).
  replace (m slot - m slot / P mod Q * P + v * P) with (m slot + (v - m slot / P mod Q) * P) by ring.
  rewrite Z.div_add by lia.
  rewrite (Z.mod_eq (m slot / P) Q) by lia.
  replace (m slot / P + (v - (m slot / P - Q * (m slot / P / Q)))) with (v + (m slot / P / Q) * Q) by ring.
  rewrite Z.mod_add by lia. apply Z.mod_small. exact Hv.
Qed.
Lemma load_store_other w' slot' off' v m :
  1 <= w' -> 0 <= off' -> off' + w' <= 32 -> 0 <= v < 2 ^ (8 * w) ->
  slot' <> slot \/ off' + w' <= off \/ off + w <= off' ->
  load w' slot' off' (store w slot off v m) = load w' slot' off' m.
Proof.
  intros Hw2 Ho2 Ho2' Hv D. unfold load at 1, store. destruct (Z.eqb_spec slot' slot) as [->|Hs]; [|reflexivity].
  destruct D as [D|D]; [congruence|]. unfold load.
  set (a := 8 * (32 - off - w)) in *. set (b := 8 * (32 - off' - w')) in *.
  assert (Ha : 0 <= a) by lia. assert (Hb : 0 <= b) by lia.
  set (M := m slot) in *. clearbody M.
  set (Q := 2 ^ (8 * w)) in *. assert (0 < Q) by (apply Z.pow_pos_nonneg; lia).
  set (o := M / 2 ^ a mod Q).
  assert (Hold : 0 <= o < Q) by (apply Z.mod_pos_bound; lia).
  replace (M - o * 2 ^ a + v * 2 ^ a) with (M + (v - o) * 2 ^ a) by ring.
  destruct D as [D|D].
  - (* the other field is on the left: higher *)
    assert (E : b = a + 8 * w + (b - a - 8 * w)) by lia.
    assert (Hd : 0 <= b - a - 8 * w) by lia. set (d := b - a - 8 * w) in *.
    rewrite E, !Z.pow_add_r by lia. fold Q. rewrite <- !Z.div_div by (try apply Z.mul_pos_pos; try apply Z.pow_pos_nonneg; lia).
    do 2 f_equal. rewrite Z.div_add by (apply Z.pow_nonzero; lia).
    assert (o = M / 2 ^ a - Q * (M / 2 ^ a / Q)) by (unfold o; apply Z.mod_eq; lia).
    replace (M / 2 ^ a + (v - o)) with (v + (M / 2 ^ a / Q) * Q) by lia.
    rewrite Z.div_add by lia. rewrite Z.div_small by lia. lia.
  - (* on the right: lower *)
    assert (E : a = b + 8 * w' + (a - b - 8 * w')) by lia.
    assert (Hd : 0 <= a - b - 8 * w') by lia. set (d := a - b - 8 * w') in *.
    rewrite E, !Z.pow_add_r by lia.
    replace (M + (v - o) * (2 ^ b * 2 ^ (8 * w') * 2 ^ d)) with (M + ((v - o) * 2 ^ (8 * w') * 2 ^ d) * 2 ^ b) by ring.
    rewrite Z.div_add by (apply Z.pow_nonzero; lia).
    replace ((v - o) * 2 ^ (8 * w') * 2 ^ d) with (((v - o) * 2 ^ d) * 2 ^ (8 * w')) by ring.
    apply Z.mod_add. apply Z.pow_nonzero; lia.
Qed.
End Lens.

(** ** Storage as a map from places to values *)
Section Map.
Context (hash : list Z -> Z) (fs : fields) (Hwf : wf (Struct fs)) (K : Z) (HK : K <= two256).
Notation C := (Struct fs).
Lemma write_other p q v m l :
  p <> q -> proper p -> proper q -> within hash K C p -> within hash K C q ->
  resolve hash C p = Some l -> is_cell (l_type l) -> fits hash C (q, v) ->
  read hash C p (write hash C q v m) = read hash C p m \/
  collision hash K (hashed hash C p ++ hashed hash C q).
Proof.
  intros Hne Pp Pq Wp Wq R Cl (l' & R' & Cl' & Hv). cbn [fst snd] in *.
  unfold read, write. rewrite R, R'.
  assert (HS : exists gs, C = Struct gs) by eauto.
  pose proof (resolve_good hash C Hwf HS p l Pp R) as (W1 & O1 & O1' & _).
  pose proof (resolve_good hash C Hwf HS q l' Pq R') as (W2 & O2 & O2' & _).
  pose proof (wf_bytes _ W1). pose proof (wf_bytes _ W2).
  destruct (Z.eq_dec (slot_of l) (slot_of l')) as [Es|Es].
  - destruct (Z_lt_dec (l_off l) (l_off l' + slot_bytes (l_type l'))) as [A|A].
    + destruct (Z_lt_dec (l_off l') (l_off l + slot_bytes (l_type l))) as [B|B].
      * right. eapply (no_aliasing hash C Hwf HS K HK p q l l'); eauto. unfold share_bytes. auto.
      * left. f_equal. apply load_store_other; lia.
    + left. f_equal. apply load_store_other; lia.
  - left. f_equal. apply load_store_other; lia.
Qed.
Lemma write_same p v m :
  proper p -> fits hash C (p, v) -> read hash C p (write hash C p v m) = Some v.
Proof.
  intros Pp (l & R & Cl & Hv). cbn [fst snd] in *. unfold read, write. rewrite R. f_equal.
  assert (HS : exists gs, C = Struct gs) by eauto.
  pose proof (resolve_good hash C Hwf HS p l Pp R) as (W1 & O1 & O1' & _). pose proof (wf_bytes _ W1).
  apply load_store_same; lia.
Qed.
Lemma never_run ws : forall p l m,
  proper p -> within hash K C p -> resolve hash C p = Some l -> is_cell (l_type l) ->
  Forall (fun w => proper (fst w) /\ within hash K C (fst w) /\ fits hash C w) ws -> never p ws ->
  read hash C p (run_writes hash C ws m) = read hash C p m \/
  collision hash K (hashed hash C p ++ flat_map (fun w => hashed hash C (fst w)) ws).
Proof.
  induction ws as [|[q v] ws IH]; intros p l m Pp Wp R Cl F N; [left; reflexivity|].
  inversion F as [|? ? (Pq & Wq & Fq) F']; subst. cbn [fst snd] in *.
  assert (Hne : p <> q) by (intros <-; exact (N v (or_introl eq_refl))).
  assert (N' : never p ws) by (intros u Hu; exact (N u (or_intror Hu))).
  cbn [run_writes fold_left fst snd flat_map].
  destruct (IH p l (write hash C q v m) Pp Wp R Cl F' N') as [E|X].
  - destruct (write_other p q v m l Hne Pp Pq Wp Wq R Cl Fq) as [E'|X].
    + left. rewrite <- E'. exact E.
    + right. eapply collision_mono; [|exact X]. intros x. rewrite !in_app_iff. tauto.
  - right. eapply collision_mono; [|exact X]. intros x. rewrite !in_app_iff. tauto.
Qed.
Lemma last_run ws p v m :
  Forall (fun w => proper (fst w) /\ within hash K C (fst w) /\ fits hash C w) ws -> last_written p ws v ->
  read hash C p (run_writes hash C ws m) = Some v \/
  collision hash K (flat_map (fun w => hashed hash C (fst w)) ws).
Proof.
  intros F (before & aft & -> & N). apply Forall_app in F. destruct F as [_ F].
  inversion F as [|? ? (Pq & Wq & Fq) F']; subst. cbn [fst snd] in *.
  pose proof Fq as (l & R & Cl & Hv). cbn [fst snd] in *.
  unfold run_writes. rewrite fold_left_app. cbn [fold_left fst snd]. fold (run_writes hash C before m).
  set (m' := run_writes hash C before m).
  destruct (never_run aft p l (write hash C p v m') Pq Wq R Cl F' N) as [E|X].
  - left. etransitivity; [exact E|]. apply write_same; assumption.
  - right. eapply collision_mono; [|exact X]. intros x. rewrite flat_map_app. cbn [flat_map fst]. rewrite !in_app_iff. tauto.
Qed.
End Map.
