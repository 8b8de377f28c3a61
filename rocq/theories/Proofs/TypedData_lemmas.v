(** Lemmas about EIP-712 type strings and struct encodings. *)
From Verif.Base Require Import Prelude Bytes Keccak.
From Verif.Spec Require Import Permit_spec TypedData_spec.
From Coq Require Import String List Lia.
Import ListNotations.
#[global] Open Scope Z_scope.
#[global] Open Scope list_scope.

(** A prefix without the separator is determined by what comes before the separator. *)
Lemma split_at (sep : Z) a b r1 r2 :
  Forall (fun x => x <> sep) a -> Forall (fun x => x <> sep) b ->
  a ++ sep :: r1 = b ++ sep :: r2 -> a = b /\ r1 = r2.
Proof.
  revert b. induction a as [|x a IH]; intros [|y b] Ha Hb E; cbn [app] in E.
  - split; congruence.
  - exfalso. inversion E; subst. inversion Hb; subst. congruence.
  - exfalso. inversion E; subst. inversion Ha; subst. congruence.
  - inversion E; subst. inversion Ha; inversion Hb; subst.
    destruct (IH b) as [-> ->]; auto.
Qed.

Lemma id_ne l c : identifier l -> c = 0x20 \/ c = 0x28 \/ c = 0x29 \/ c = 0x2c -> Forall (fun x => x <> c) l.
Proof.
  intros [_ H] Hc. eapply List.Forall_impl; [|exact H]. cbn. intros a Ha. intuition congruence.
Qed.

Lemma encode_member_ne m c : member_wf m -> c = 0x28 \/ c = 0x29 \/ c = 0x2c ->
  Forall (fun x => x <> c) (encode_member m).
Proof.
  intros (H1 & H2 & _) Hc. unfold encode_member. rewrite !List.Forall_app.
  repeat split; [apply id_ne; intuition| |apply id_ne; intuition].
  apply List.Forall_cons; [|apply List.Forall_nil]. intuition congruence.
Qed.
Lemma encode_member_inj m n : member_wf m -> member_wf n -> encode_member m = encode_member n ->
  m_type m = m_type n /\ m_name m = m_name n.
Proof.
  intros (H1 & _ & _) (H2 & _ & _) E. unfold encode_member in E. cbn [app] in E.
  apply split_at in E; [exact E| |]; apply id_ne; auto.
Qed.
Lemma encode_member_nonempty m : member_wf m -> encode_member m <> [].
Proof. intros _. unfold encode_member. destruct (m_type m); discriminate. Qed.

Lemma join_ne l c : c <> 0x2c -> Forall (fun x => Forall (fun b => b <> c) x) l ->
  Forall (fun b => b <> c) (join l).
Proof.
  intros Hc. induction l as [|x [|y l] IH]; intros H; cbn [join]; [constructor| |].
  - inversion H; auto.
  - inversion H; subst. rewrite !List.Forall_app. split; [assumption|]. split; [|apply IH; assumption].
    apply List.Forall_cons; [congruence|apply List.Forall_nil].
Qed.

Definition same_shape (m n : member) : Prop := m_type m = m_type n /\ m_name m = m_name n.
Lemma join_inj l1 : forall l2, Forall member_wf l1 -> Forall member_wf l2 ->
  join (map encode_member l1) = join (map encode_member l2) -> Forall2 same_shape l1 l2.
Proof.
  assert (Hnc : forall x, member_wf x -> Forall (fun b => b <> 0x2c) (encode_member x)).
  { intros. apply encode_member_ne; auto. }
  induction l1 as [|x l1 IH]; intros l2 H1 H2 E.
  - destruct l2 as [|y l2]; [constructor|]. exfalso. inversion H2; subst.
    pose proof (encode_member_nonempty y H3) as Hy. destruct l2; cbn [map join] in E.
    + congruence.
    + destruct (encode_member y); [congruence|discriminate].
  - destruct l2 as [|y l2].
    { exfalso. inversion H1; subst. pose proof (encode_member_nonempty x H3) as Hx.
      destruct l1; cbn [map join] in E; destruct (encode_member x); try congruence; discriminate. }
    inversion H1 as [|? ? Hx H1']; inversion H2 as [|? ? Hy H2']; subst.
    destruct l1 as [|x' l1]; destruct l2 as [|y' l2]; cbn [map join] in E.
    + constructor; [apply encode_member_inj; auto|constructor].
    + exfalso. pose proof (Hnc x Hx) as Hn. rewrite E in Hn. rewrite !List.Forall_app in Hn.
      destruct Hn as [_ [Hn _]]. inversion Hn; congruence.
    + exfalso. pose proof (Hnc y Hy) as Hn. rewrite <- E in Hn. rewrite !List.Forall_app in Hn.
      destruct Hn as [_ [Hn _]]. inversion Hn; congruence.
    + change ([0x2c] ++ ?r) with (0x2c :: r) in E. apply split_at in E; [|auto|auto].
      destruct E as [E1 E2]. constructor; [apply encode_member_inj; auto|].
      apply IH; auto.
Qed.

Lemma encode_type_inj t1 t2 : typed_wf t1 -> typed_wf t2 -> encode_type t1 = encode_type t2 ->
  t_name t1 = t_name t2 /\ Forall2 same_shape (t_members t1) (t_members t2).
Proof.
  intros [Hn1 Hm1] [Hn2 Hm2] E. unfold encode_type in E.
  change ([0x28] ++ ?r) with (0x28 :: r) in E. apply split_at in E; try (apply id_ne; auto).
  destruct E as [E1 E2]. split; [exact E1|].
  apply split_at in E2; [destruct E2 as [E2 _]; apply join_inj; auto| |];
    (apply join_ne; [discriminate|]; apply List.Forall_map; eapply List.Forall_impl; [|eassumption];
     intros a Ha; apply encode_member_ne; auto).
Qed.

Section hash.
  Variable keccak : list Z -> Z.
  Hypothesis Hr : hash_range keccak.

  Lemma encode_content_length c : length (encode_content keccak c) = 32%nat.
  Proof. destruct c; apply word_length. Qed.

  (** Same encoding, same shape: same contents, or two of the texts collide. *)
  Lemma data_inj l1 : forall l2,
    Forall member_wf l1 -> Forall member_wf l2 -> Forall2 same_shape l1 l2 ->
    concat (map (fun m => encode_content keccak (m_content m)) l1) =
    concat (map (fun m => encode_content keccak (m_content m)) l2) ->
    l1 = l2 \/ exists x y, In x (texts (Typed [] l1)) /\ In y (texts (Typed [] l2)) /\ x <> y /\ keccak x = keccak y.
  Proof.
    induction l1 as [|m l1 IH]; intros l2 H1 H2 Hs E; inversion Hs as [|? n ? l2' Hmn Hs']; subst; [left; reflexivity|].
    inversion H1 as [|? ? Hm H1']; inversion H2 as [|? ? Hn H2']; subst.
    cbn [map concat] in E. apply app_eq_len in E; [|rewrite !encode_content_length; reflexivity].
    destruct E as [E1 E2]. destruct (IH l2' H1' H2' Hs' E2) as [->|(x & y & I1 & I2 & Hxy & Hk)].
    2: { right. exists x, y. unfold texts in *. cbn [t_members flat_map] in *.
         repeat split; auto; apply in_or_app; right; assumption. }
    destruct m as [mt mn mc], n as [nt nn nc], Hmn as [Et En]. cbn [m_type m_name m_content] in *. subst.
    destruct Hm as (_ & _ & Hmc), Hn as (_ & _ & Hnc). cbn [m_content m_type] in Hmc, Hnc.
    destruct mc as [w|s], nc as [w'|s']; cbn [encode_content] in E1.
    - apply word_inj in E1; try tauto. subst. left. reflexivity.
    - exfalso. tauto.
    - exfalso. tauto.
    - apply word_inj in E1; try apply Hr. destruct (list_eq_dec Z.eq_dec s s') as [->|Hss]; [left; reflexivity|].
      right. exists s, s'. unfold texts. cbn [t_members flat_map m_content]. repeat split; auto; left; reflexivity.
  Qed.

  Lemma struct_inj t1 t2 : typed_wf t1 -> typed_wf t2 -> hash_struct keccak t1 = hash_struct keccak t2 ->
    t1 = t2 \/ exists x y, In x (struct_inputs keccak t1) /\ In y (struct_inputs keccak t2) /\ x <> y /\ keccak x = keccak y.
  Proof.
    intros W1 W2 E.
    destruct (list_eq_dec Z.eq_dec (struct_string keccak t1) (struct_string keccak t2)) as [Es|Es].
    2: { right. exists (struct_string keccak t1), (struct_string keccak t2). unfold struct_inputs. cbn [In]. auto 8. }
    unfold struct_string in Es. apply app_eq_len in Es; [|rewrite !word_length; reflexivity].
    destruct Es as [Et Ed]. apply word_inj in Et; try apply Hr.
    destruct (list_eq_dec Z.eq_dec (encode_type t1) (encode_type t2)) as [Ee|Ee].
    2: { right. exists (encode_type t1), (encode_type t2). unfold struct_inputs. cbn [In]. auto 8. }
    apply encode_type_inj in Ee; auto. destruct Ee as [En Es].
    destruct W1 as [_ W1], W2 as [_ W2].
    destruct (data_inj _ _ W1 W2 Es Ed) as [El|(x & y & I1 & I2 & Hxy)].
    - left. destruct t1 as [a1 b1], t2 as [a2 b2]. cbn [t_name t_members] in *. congruence.
    - right. exists x, y. unfold struct_inputs. repeat split; try tauto; right; right; assumption.
  Qed.
End hash.

(** Deciding well-formedness of fixed shapes. *)
Definition identifier_b (l : list Z) : bool :=
  negb (match l with [] => true | _ => false end) &&
  forallb (fun b => (0 <=? b) && (b <? 256) && negb (b =? 0x20) && negb (b =? 0x28) && negb (b =? 0x29) && negb (b =? 0x2c)) l.
Lemma identifier_ok l : identifier_b l = true -> identifier l.
Proof.
  unfold identifier_b. intros H. apply andb_prop in H. destruct H as [H1 H2]. split.
  - intros ->. discriminate.
  - rewrite forallb_forall in H2. apply List.Forall_forall. intros b Hb. specialize (H2 b Hb).
    unfold is_byte. lia.
Qed.
Lemma one_wf t n w : identifier_b (ascii t) = true -> identifier_b (ascii n) = true ->
  ascii t <> ascii "string" -> ascii t <> ascii "bytes" -> is_u256 w -> member_wf (mem t n (One w)).
Proof. intros H1 H2 H3 H4 Hw. unfold member_wf, has_text. cbn [mem m_type m_name m_content]. auto using identifier_ok. intuition auto using identifier_ok. Qed.
Lemma text_wf t n s : identifier_b (ascii t) = true -> identifier_b (ascii n) = true ->
  ascii t = ascii "string" \/ ascii t = ascii "bytes" -> member_wf (mem t n (Text s)).
Proof. intros H1 H2 H3. unfold member_wf, has_text. cbn [mem m_type m_name m_content]. auto using identifier_ok. Qed.
