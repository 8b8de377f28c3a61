From Verif.Base Require Import Prelude Maps.
From Verif.Model Require Erc1155.
From Verif.Spec Require Import Erc1155_spec.
From stdpp Require Import gmap.
Import Erc1155.
#[global] Open Scope Z_scope.

Lemma balance_set a id v s a' id' :
  balance_of a' id' (set_balance a id v s) = if decide (id = id' /\ a = a') then v else balance_of a' id' s.
Proof.
  unfold balance_of, set_balance; cbn. rewrite getd_set. destruct (decide (id = id')) as [->|].
  - rewrite mget_set. destruct (decide (a = a')); destruct (decide _); tauto.
  - destruct (decide _); tauto.
Qed.
Lemma total_set a id v s id' :
  id_total (set_balance a id v s) id' = id_total s id' + (if id =? id' then v - balance_of a id s else 0).
Proof.
  unfold id_total, set_balance, balance_of; cbn. rewrite getd_set. destruct (decide (id = id')) as [->|Hne].
  - rewrite Z.eqb_refl, msum_set. lia.
  - rewrite (proj2 (Z.eqb_neq id id') Hne). lia.
Qed.

Definition ranged (s : state) : Prop := forall a id, is_u256 (balance_of a id s).
Definition gt0 (p x : Z) : Z := if p =? 0 then 0 else x.

Lemma do_update_ok f t i v s s' :
  is_u256 v -> ranged s ->
  do_update f t i v s = (Ok tt, s') ->
  moved f t [(i, v)] s s' /\
  (forall id, id_total s' id = id_total s id - gt0 f (amount [(i, v)] id) + gt0 t (amount [(i, v)] id)) /\
  (f <> 0 -> v <= balance_of f i s) /\
  operator_approvals s' = operator_approvals s /\ log s' = log s.
Proof.
  intros Hv HR H. unfold do_update in H. apply bind_ok in H. destruct H as ([] & s1 & H1 & H2).
  assert (A1 : (forall a id, balance_of a id s1 = balance_of a id s - share f a (amount [(i, v)] id)) /\
    (forall id, id_total s1 id = id_total s id - gt0 f (amount [(i, v)] id)) /\ ranged s1 /\
    (f <> 0 -> v <= balance_of f i s) /\
    operator_approvals s1 = operator_approvals s /\ log s1 = log s).
  { destruct (Z.eqb_spec f 0) as [->|Hf]; cbn [negb] in H1.
    - inversion H1; subst s1. repeat split; auto; try congruence.
      + intros a id. unfold share. destruct (Z.eqb_spec 0 a); destruct (Z.eqb_spec a 0); cbn [andb negb]; try lia.
      + intros id. unfold gt0. cbn. lia.
      + apply HR.
      + apply HR.
    - mred_in H1. destruct (Z.ltb_spec (balance_of f i s) v) as [|Hle]; [discriminate|].
      inversion H1. subst s1. pose proof (HR f i) as R. unfold is_u256 in *.
      rewrite wsub_small by lia. repeat split; auto.
      + intros a id. rewrite balance_set. unfold share. cbn [amount].
        destruct (Z.eqb_spec f a) as [<-|]; destruct (Z.eqb_spec i id) as [<-|]; destruct (decide _) as [D|D];
          try (exfalso; tauto); cbn [andb]; try lia.
        * destruct (Z.eqb_spec f 0); cbn [negb]; [contradiction|lia].
        * destruct (Z.eqb_spec f 0); cbn [negb]; lia.
      + intros id. rewrite total_set. unfold gt0. destruct (Z.eqb_spec f 0); [contradiction|]. cbn [amount].
        destruct (i =? id); lia.
      + rewrite balance_set. destruct (decide _); [lia|apply HR].
      + rewrite balance_set. destruct (decide _); [lia|apply HR]. }
  destruct A1 as (B1 & T1 & R1 & L1 & O1 & G1).
  assert (A2 : (forall a id, balance_of a id s' = balance_of a id s1 + share t a (amount [(i, v)] id)) /\
    (forall id, id_total s' id = id_total s1 id + gt0 t (amount [(i, v)] id)) /\ ranged s' /\
    operator_approvals s' = operator_approvals s1 /\ log s' = log s1).
  { destruct (Z.eqb_spec t 0) as [->|Ht]; cbn [negb] in H2.
    - inversion H2; subst s'. repeat split; auto; try congruence.
      + intros a id. unfold share. destruct (Z.eqb_spec 0 a); destruct (Z.eqb_spec a 0); cbn [andb negb]; try lia.
      + intros id. unfold gt0. cbn. lia.
      + apply R1.
      + apply R1.
    - mred_in H2. destruct (Z.ltb_spec (balance_of t i s1 + v) two256) as [Hle|]; [|discriminate].
      inversion H2. subst s'. pose proof (R1 t i) as R. unfold is_u256 in *.
      repeat split; auto.
      + intros a id. rewrite balance_set. unfold share. cbn [amount].
        destruct (Z.eqb_spec t a) as [<-|]; destruct (Z.eqb_spec i id) as [<-|]; destruct (decide _) as [D|D];
          try (exfalso; tauto); cbn [andb]; try lia.
        * destruct (Z.eqb_spec t 0); cbn [negb]; [contradiction|lia].
        * destruct (Z.eqb_spec t 0); cbn [negb]; lia.
      + intros id. rewrite total_set. unfold gt0. destruct (Z.eqb_spec t 0); [contradiction|]. cbn [amount].
        destruct (i =? id); lia.
      + rewrite balance_set. destruct (decide _); [lia|apply R1].
      + rewrite balance_set. destruct (decide _); [lia|apply R1]. }
  destruct A2 as (B2 & T2 & R2 & O2 & G2).
  split; [|repeat split; try congruence; auto; intros id; rewrite T2, T1; reflexivity].
  split; [intros a id; rewrite B2, B1; reflexivity|]. split; [exact R2|].
  intros o p. unfold operator, is_approved_for_all. rewrite O2, O1. tauto.
Qed.

Lemma share_app p a l1 l2 id : share p a (amount (l1 ++ l2) id) = share p a (amount l1 id) + share p a (amount l2 id).
Proof.
  unfold share. destruct ((p =? a) && negb (a =? 0)); [|lia].
  induction l1 as [|[i v] l1 IH]; cbn; [lia|]. rewrite IH. lia.
Qed.
Lemma share_add p a x y : share p a (x + y) = share p a x + share p a y.
Proof. unfold share. destruct (_ && _); lia. Qed.
Lemma gt0_add p x y : gt0 p (x + y) = gt0 p x + gt0 p y.
Proof. unfold gt0. destruct (_ =? _); lia. Qed.
Lemma amount_cons x l id : amount (x :: l) id = amount [x] id + amount l id.
Proof. destruct x. cbn. lia. Qed.
Lemma amount_nonneg l id : Forall is_u256 (map snd l) -> 0 <= amount l id.
Proof.
  induction l as [|[i v] l IH]; cbn [map snd amount]; intros H; [lia|]. inversion H as [|? ? Hv Hl]; subst.
  specialize (IH Hl). unfold is_u256 in Hv. destruct (i =? id); lia.
Qed.

Lemma do_updates_ok f t l s s' :
  Forall is_u256 (map snd l) -> ranged s ->
  do_updates f t l s = (Ok tt, s') ->
  moved f t l s s' /\
  (forall id, id_total s' id = id_total s id - gt0 f (amount l id) + gt0 t (amount l id)) /\
  operator_approvals s' = operator_approvals s /\ log s' = log s.
Proof.
  revert s. induction l as [|[i v] l IH]; intros s Hv HR H.
  - inversion H; subst. unfold moved, share, gt0. cbn [amount]. repeat split; auto; intros; try tauto; try apply HR.
    + destruct (_ && _); destruct (_ && _); lia.
    + destruct (_ =? _); destruct (_ =? _); lia.
  - cbn [do_updates] in H. apply bind_ok in H. destruct H as ([] & s1 & H1 & H2).
    cbn [map snd] in Hv. inversion Hv as [|? ? Hv1 Hv2]; subst.
    apply do_update_ok in H1; auto. destruct H1 as ((B1 & R1 & P1) & T1 & _ & O1 & G1).
    apply IH in H2; auto. destruct H2 as ((B2 & R2 & P2) & T2 & O2 & G2).
    split; [|split; [|split; congruence]].
    + split; [|split; [exact R2|intros; rewrite P2, P1; tauto]].
      intros a id. rewrite B2, B1. rewrite (amount_cons (i, v) l), !share_add. lia.
    + intros id. rewrite T2, T1. rewrite (amount_cons (i, v) l), !gt0_add. lia.
Qed.

Lemma combine_snd (ids vs : list Z) P : Forall P vs -> Forall P (map snd (combine ids vs)).
Proof.
  revert vs. induction ids as [|i ids IH]; intros [|v vs] H; cbn; auto. inversion H; subst. constructor; auto.
Qed.
Definition update_event (c f t : Z) (ids vs : list Z) : event :=
  match ids, vs with
  | [id], v :: _ => TransferSingle c f t id v
  | _, _ => TransferBatch c f t ids vs
  end.
Lemma update_event_move c f t ids vs :
  length ids = length vs -> ev_move (update_event c f t ids vs) = Some (f, t, combine ids vs).
Proof. destruct ids as [|i [|]]; destruct vs as [|v [|]]; cbn; intros; try discriminate; reflexivity. Qed.

Lemma update_inv c f t ids vs s s' :
  _update c f t ids vs s = (Ok tt, s') ->
  length ids = length vs /\
  exists s1, do_updates f t (combine ids vs) s = (Ok tt, s1) /\
    s' = mk (balances s1) (operator_approvals s1) (log s1 ++ [update_event c f t ids vs]).
Proof.
  intros H. unfold _update in H. apply bind_ok in H. destruct H as ([] & s0 & H0 & H).
  unfold require_equal_arrays_length in H0. mred_in H0.
  destruct (Nat.eqb_spec (length ids) (length vs)) as [El|]; [|discriminate]. cbn [negb] in H0. inversion H0; subst s0.
  split; [exact El|]. apply bind_ok in H. destruct H as ([] & s1 & H1 & H2). exists s1. split; [exact H1|].
  unfold update_event. destruct ids as [|i [|]]; destruct vs as [|v vs]; inversion H2; reflexivity.
Qed.
Lemma update_ok c f t ids vs s s' :
  Forall is_u256 vs -> ranged s ->
  _update c f t ids vs s = (Ok tt, s') ->
  length ids = length vs /\
  moved f t (combine ids vs) s s' /\
  (forall id, id_total s' id = id_total s id - gt0 f (amount (combine ids vs) id) + gt0 t (amount (combine ids vs) id)) /\
  operator_approvals s' = operator_approvals s /\
  log s' = log s ++ [update_event c f t ids vs].
Proof.
  intros Hv HR H. apply update_inv in H. destruct H as (El & s1 & H1 & ->). split; [exact El|].
  apply do_updates_ok in H1; [|apply combine_snd; exact Hv|exact HR].
  destruct H1 as ((B1 & R1 & P1) & T1 & O1 & G1).
  split; [split; [exact B1|split; [exact R1|exact P1]]|].
  split; [exact T1|]. split; [exact O1|]. cbn. rewrite G1. reflexivity.
Qed.

(** ** The part of a call before its callback *)
Section tree.
  Context {S : Type} (C : sys S).
  Definition front (c : Z) (o : op) : M S error unit :=
    match o with
    | SafeTransferFrom f t i v _ _ _ =>
        sys_authorize C c f ;;; fail_if (t =? 0) (InvalidReceiver t) ;;; fail_if (f =? 0) (InvalidSender f) ;;;
        sys_update C c f t [i] [v]
    | SafeBatchTransferFrom f t is vs _ _ _ =>
        sys_authorize C c f ;;; fail_if (t =? 0) (InvalidReceiver t) ;;; fail_if (f =? 0) (InvalidSender f) ;;;
        sys_update C c f t is vs
    | SetApprovalForAll p b => sys_set_approval_for_all C c p b
    | Burn a i v => sys_authorize C c a ;;; fail_if (a =? 0) (InvalidSender a) ;;; sys_inner_update C c a 0 [i] [v]
    | BurnBatch a is vs => sys_authorize C c a ;;; fail_if (a =? 0) (InvalidSender a) ;;; sys_inner_update C c a 0 is vs
    | IMint t i v _ _ _ => fail_if (t =? 0) (InvalidReceiver t) ;;; sys_update C c 0 t [i] [v]
    | IMintBatch t is vs _ _ _ => fail_if (t =? 0) (InvalidReceiver t) ;;; sys_update C c 0 t is vs
    | IBurn f i v => fail_if (f =? 0) (InvalidSender f) ;;; sys_update C c f 0 [i] [v]
    | IBurnBatch f is vs => fail_if (f =? 0) (InvalidSender f) ;;; sys_update C c f 0 is vs
    end.

  Lemma check_ok has_code (h : handler S) op f t det d s s' :
    _check_on_erc1155_received has_code h op f t det d s = (Ok tt, s') <->
    (has_code t = false /\ s' = s) \/
    (has_code t = true /\ h t op f (snd det) d s = (Returned (fst det), s')).
  Proof.
    unfold _check_on_erc1155_received. destruct (has_code t) eqn:Hc; cbn [negb].
    - mred. destruct (h t op f (snd det) d s) as [[v|[|x r]] s1] eqn:Eh.
      + destruct (Z.eqb_spec v (fst det)) as [->|E]; cbn [negb].
        * split; [intros H; inversion H; subst; auto|]. intros [[? _]|[_ H]]; [discriminate|]. inversion H. reflexivity.
        * split; [discriminate|]. intros [[? _]|[_ H]]; [discriminate|]. inversion H. congruence.
      + split; [discriminate|]. intros [[? _]|[_ H]]; [discriminate|]. inversion H.
      + split; [discriminate|]. intros [[? _]|[_ H]]; [discriminate|]. inversion H.
    - mred. split; [intros H; inversion H; auto|]. intros [[_ ->]|[? _]]; [reflexivity|discriminate].
  Qed.
  Lemma fail_if_ok {E} (b : bool) (e : E) (s s' : S) : fail_if b e s = (Ok tt, s') <-> b = false /\ s' = s.
  Proof. unfold fail_if. destruct b; split; intros H; inversion H; subst; auto; try discriminate. Qed.
  Lemma bind_fail_if {E A} (b : bool) (e : E) (m : M S E A) s a s' :
    (fail_if b e ;;; m) s = (Ok a, s') <-> b = false /\ m s = (Ok a, s').
  Proof. unfold bind, fail_if. destruct b; split; [discriminate|intros [? _]; discriminate|auto|tauto]. Qed.

  Lemma accept_ok has_code h c f t ids vs d s s' :
    _update_with_acceptance_check C has_code h c f t ids vs d s = (Ok tt, s') <->
    exists s1, sys_update C c f t ids vs s = (Ok tt, s1) /\
      ((t = 0 \/ has_code t = false) /\ s' = s1 \/
       t <> 0 /\ has_code t = true /\
       h t c f (snd (receiver_data ids vs)) d s1 = (Returned (fst (receiver_data ids vs)), s')).
  Proof.
    unfold _update_with_acceptance_check. rewrite bind_ok. split.
    - intros ([] & s1 & H1 & H2). exists s1. split; [exact H1|]. destruct (Z.eqb_spec t 0) as [->|]; cbn [negb] in H2.
      + inversion H2; subst. auto.
      + apply check_ok in H2. destruct H2 as [[? ->]|[? ?]]; auto.
    - intros (s1 & H1 & H2). exists tt, s1. split; [exact H1|]. destruct (Z.eqb_spec t 0) as [->|]; cbn [negb].
      + destruct H2 as [[_ ->]|[? _]]; [reflexivity|congruence].
      + apply check_ok. destruct H2 as [[[?|?] ->]|(_ & ? & ?)]; auto. congruence.
  Qed.

  Lemma exec_front has_code c o s s' :
    exec C has_code c o s = (Ok tt, s') ->
    exists s1, front c o s = (Ok tt, s1) /\ (s' = s1 \/ s' = run_calls C has_code (op_body o) s1).
  Proof.
    assert (Hrec : forall body fin (f c0 : Z) t det d s1 s2,
      (fun t op0 f0 tr d0 => receiver (run_calls C has_code body) fin t op0 f0 tr d0) t c0 f det d s1 = (Returned s2, s') ->
      s' = run_calls C has_code body s1).
    { intros body fin f c0 t det d s1 s2 H. unfold receiver in H. destruct fin; inversion H; reflexivity. }
    destruct o; cbn [exec front op_body].
    - unfold safe_transfer_from, do_safe_transfer_from. intros H. apply bind_ok in H. destruct H as ([] & s0 & Ha & H).
      apply bind_fail_if in H. destruct H as [Ht H]. apply bind_fail_if in H. destruct H as [Hf H].
      apply accept_ok in H. destruct H as (s1 & H1 & H2). exists s1. split.
      + apply bind_ok. exists tt, s0. split; [exact Ha|]. rewrite !bind_fail_if. auto.
      + destruct H2 as [[_ ->]|(_ & _ & H2)]; [auto|]. right. eapply (Hrec body fin); exact H2.
    - unfold safe_batch_transfer_from, do_safe_transfer_from. intros H. apply bind_ok in H. destruct H as ([] & s0 & Ha & H).
      apply bind_fail_if in H. destruct H as [Ht H]. apply bind_fail_if in H. destruct H as [Hf H].
      apply accept_ok in H. destruct H as (s1 & H1 & H2). exists s1. split.
      + apply bind_ok. exists tt, s0. split; [exact Ha|]. rewrite !bind_fail_if. auto.
      + destruct H2 as [[_ ->]|(_ & _ & H2)]; [auto|]. right. eapply (Hrec body fin); exact H2.
    - intros H. exists s'. auto.
    - intros H. exists s'. auto.
    - intros H. exists s'. auto.
    - unfold _mint, _do_mint. intros H. apply bind_fail_if in H. destruct H as [Ht H].
      apply accept_ok in H. destruct H as (s1 & H1 & H2). exists s1. split; [apply bind_fail_if; auto|].
      destruct H2 as [[_ ->]|(_ & _ & H2)]; [auto|]. right. eapply (Hrec body fin); exact H2.
    - unfold _mint_batch, _do_mint. intros H. apply bind_fail_if in H. destruct H as [Ht H].
      apply accept_ok in H. destruct H as (s1 & H1 & H2). exists s1. split; [apply bind_fail_if; auto|].
      destruct H2 as [[_ ->]|(_ & _ & H2)]; [auto|]. right. eapply (Hrec body fin); exact H2.
    - unfold _burn, _do_burn. intros H. apply bind_fail_if in H. destruct H as [Ht H].
      apply accept_ok in H. destruct H as (s1 & H1 & H2). exists s1. split; [apply bind_fail_if; auto|].
      destruct H2 as [[_ ->]|(H2 & _)]; [auto|congruence].
    - unfold _burn_batch, _do_burn. intros H. apply bind_fail_if in H. destruct H as [Ht H].
      apply accept_ok in H. destruct H as (s1 & H1 & H2). exists s1. split; [apply bind_fail_if; auto|].
      destruct H2 as [[_ ->]|(H2 & _)]; [auto|congruence].
  Qed.
End tree.

Scheme op_ind5 := Induction for op Sort Prop
  with calls_ind5 := Induction for calls Sort Prop.
Combined Scheme op_calls_ind5 from op_ind5, calls_ind5.

Section invariants.
  Context {S : Type} (C : sys S) (P : S -> Prop) (G : Z -> op -> Prop).
  Hypothesis Hstep : forall c o s s1, G c o -> P s -> front C c o s = (Ok tt, s1) -> P s1.
  Context (has_code : Z -> bool).
  Lemma tx_exec_P c o :
    (forall s, calls_nodes G (op_body o) -> P s -> P (run_calls C has_code (op_body o) s)) ->
    forall s, G c o -> calls_nodes G (op_body o) -> P s -> P (snd (tx (exec C has_code c o) s)).
  Proof.
    intros Hb s Hg Hn HP. unfold tx. destruct (exec C has_code c o s) as [[[]|e|] s'] eqn:E; cbn; auto.
    apply exec_front in E. destruct E as (s1 & Hf & [->| ->]).
    - eapply Hstep; eauto.
    - apply Hb; [exact Hn|]. eapply Hstep; eauto.
  Qed.
  Lemma op_nodes_body c o : op_nodes G c o -> G c o /\ calls_nodes G (op_body o).
  Proof. destruct o; cbn [op_nodes op_body]; intros [H1 H2]; split; assumption. Qed.
  Lemma calls_P cs s : calls_nodes G cs -> P s -> P (run_calls C has_code cs s).
  Proof.
    revert s. pattern cs. revert cs.
    cut ((forall o, (forall s, calls_nodes G (op_body o) -> P s -> P (run_calls C has_code (op_body o) s)))
         /\ (forall cs s, calls_nodes G cs -> P s -> P (run_calls C has_code cs s))).
    { intros [_ H]. exact H. }
    apply op_calls_ind5; intros; cbn [op_body] in *; try (cbn; assumption); try (apply H; assumption).
    cbn [calls_nodes] in H1. destruct H1 as [H1 H1']. apply op_nodes_body in H1. destruct H1 as [Hg Hb].
    change (P (run_calls C has_code cs (snd (tx (exec C has_code caller o) s)))).
    apply H0; [exact H1'|]. apply tx_exec_P; assumption.
  Qed.
  Lemma run_P h s : nodes G h -> P s -> P (run C has_code h s).
  Proof. apply calls_P. Qed.
End invariants.

(** ** Fronts of the base contract *)
Definition authorized (s : state) (c f : Z) : Prop := c = f \/ operator s f c.
Lemma authorize_ok c f s s' : authorize_transfer c f s = (Ok tt, s') <-> authorized s c f /\ s' = s.
Proof.
  unfold authorize_transfer, authorized, operator. mred.
  destruct (Z.eqb_spec f c); destruct (is_approved_for_all f c s) eqn:E; cbn [negb andb];
    (split; [intros H; inversion H; subst; auto|]); intros [[H|H] ->]; try reflexivity; congruence.
Qed.
Lemma set_all_inv c p b s s' :
  set_approval_for_all c p b s = (Ok tt, s') ->
  p <> 0 /\ s' = mk (balances s) (<[(c, p) := b]> (operator_approvals s)) (log s ++ [ApprovalForAll c p b]).
Proof.
  unfold set_approval_for_all, _set_approval_for_all, emit. mred. destruct (Z.eqb_spec p 0); [discriminate|].
  intros H; inversion H; auto.
Qed.
Lemma front_base c o s s1 :
  front base c o s = (Ok tt, s1) ->
  match op_move o with
  | Some (f, t, is, vs) =>
      _update c f t is vs s = (Ok tt, s1) /\ (f <> 0 \/ is_mint o) /\ (f <> 0 \/ t <> 0) /\
      (is_public o -> f <> 0 /\ authorized s c f)
  | None => exists p b, o = SetApprovalForAll p b /\ set_approval_for_all c p b s = (Ok tt, s1)
  end.
Proof.
  destruct o; cbn [front op_move base sys_update sys_inner_update sys_authorize sys_set_approval_for_all is_public is_mint]; intros H.
  1,2: apply bind_ok in H; destruct H as ([] & s0 & Ha & H); apply authorize_ok in Ha; destruct Ha as [Ha ->];
    apply bind_fail_if in H; destruct H as [Ht H]; apply bind_fail_if in H; destruct H as [Hf H];
    apply Z.eqb_neq in Ht, Hf; auto 6.
  1: eauto.
  1,2: apply bind_ok in H; destruct H as ([] & s0 & Ha & H); apply authorize_ok in Ha; destruct Ha as [Ha ->];
    apply bind_fail_if in H; destruct H as [Hf H];
    apply Z.eqb_neq in Hf; auto 6.
  1,2: apply bind_fail_if in H; destruct H as [Hf H]; apply Z.eqb_neq in Hf; intuition.
  1,2: apply bind_fail_if in H; destruct H as [Hf H]; apply Z.eqb_neq in Hf; intuition.
Qed.

(** ** The invariant of the base contract *)
Record Inv (s : state) : Prop := mkInv {
  inv_range : ranged s;
  inv_zero : forall id, balance_of 0 id s = 0;
  inv_balance : forall a id, balance_of a id s = log_balance (log s) a id;
  inv_total : forall id, id_total s id = log_minted (log s) id - log_burned (log s) id;
  inv_op : forall o p, is_approved_for_all o p s = log_operator (log s) o p false
}.
Lemma log_balance_app l1 l2 a id : log_balance (l1 ++ l2) a id = log_balance l1 a id + log_balance l2 a id.
Proof. induction l1 as [|e l1 IH]; cbn; [reflexivity|]. rewrite IH. lia. Qed.
Lemma log_minted_app l1 l2 id : log_minted (l1 ++ l2) id = log_minted l1 id + log_minted l2 id.
Proof. induction l1 as [|e l1 IH]; cbn; [reflexivity|]. rewrite IH. lia. Qed.
Lemma log_burned_app l1 l2 id : log_burned (l1 ++ l2) id = log_burned l1 id + log_burned l2 id.
Proof. induction l1 as [|e l1 IH]; cbn; [reflexivity|]. rewrite IH. lia. Qed.
Lemma log_operator_app l1 l2 o p acc : log_operator (l1 ++ l2) o p acc = log_operator l2 o p (log_operator l1 o p acc).
Proof. revert acc. induction l1 as [|[] l1 IH]; intros; cbn; auto. Qed.
Lemma share_zero p x : share p 0 x = 0.
Proof. unfold share. rewrite andb_false_r. reflexivity. Qed.

Lemma inv_init : Inv init.
Proof.
  split; unfold ranged, balance_of, id_total, is_approved_for_all; cbn; intros; rewrite ?getd_empty, ?mget_empty, ?msum_empty; try reflexivity.
  unfold is_u256. pose proof two256_pos. lia.
Qed.
Lemma inv_update c f t ids vs s s' :
  Forall is_u256 vs -> f <> 0 \/ t <> 0 -> Inv s -> _update c f t ids vs s = (Ok tt, s') -> Inv s'.
Proof.
  intros Hv Hft HI H. apply update_ok in H; [|exact Hv|apply HI].
  destruct H as (El & (B & R & _) & T & O & G). split.
  - exact R.
  - intros id. rewrite B, !share_zero, (inv_zero s HI). reflexivity.
  - intros a id. rewrite B, G, log_balance_app. cbn [log_balance]. rewrite update_event_move by exact El.
    rewrite <- (inv_balance s HI). lia.
  - intros id. rewrite T, G, log_minted_app, log_burned_app. cbn [log_minted log_burned].
    rewrite update_event_move by exact El. rewrite (inv_total s HI). unfold gt0.
    destruct (Z.eqb_spec f 0); destruct (Z.eqb_spec t 0); try lia.
  - intros o p. rewrite G, log_operator_app. unfold is_approved_for_all. rewrite O.
    assert (E : forall b, log_operator [update_event c f t ids vs] o p b = b).
    { intros b. unfold update_event. destruct ids as [|? []]; destruct vs; reflexivity. }
    rewrite E. apply (inv_op s HI).
Qed.
Lemma inv_set_all c p b s s' : Inv s -> set_approval_for_all c p b s = (Ok tt, s') -> Inv s'.
Proof.
  intros HI H. apply set_all_inv in H. destruct H as [_ ->]. destruct HI as [H1 H2 H3 H4 H5]. split.
  - exact H1.
  - exact H2.
  - intros a id. cbn [log]. rewrite log_balance_app. cbn. rewrite Z.add_0_r. apply H3.
  - intros id. cbn [log]. rewrite log_minted_app, log_burned_app. cbn. rewrite !Z.add_0_r. apply H4.
  - intros o q. cbn [log]. rewrite log_operator_app. cbn. unfold is_approved_for_all. cbn [operator_approvals].
    rewrite getd_set. fold (is_approved_for_all o q s). rewrite H5.
    destruct (Z.eqb_spec c o); destruct (Z.eqb_spec p q); cbn [andb]; destruct (decide _); congruence.
Qed.
Lemma inv_front c o s s1 : node_wf c o -> Inv s -> front base c o s = (Ok tt, s1) -> Inv s1.
Proof.
  intros [Hc Hw] HI H. apply front_base in H. destruct (op_move o) as [[[[f t] is] vs]|].
  - destruct H as (H & _ & Hft & _). eapply inv_update; eauto.
  - destruct H as (p & b & _ & H). eapply inv_set_all; eauto.
Qed.
Lemma reachable_inv s : reachable s -> Inv s.
Proof.
  intros (hc & h & Hn & ->). apply (run_P base Inv node_wf); [|exact Hn|apply inv_init].
  intros. eapply inv_front; eauto.
Qed.

(** ** Batches and single calls *)
Definition with_log (l : list event) (s : state) : state := mk (balances s) (operator_approvals s) l.
Lemma do_update_log f t i v l s :
  do_update f t i v (with_log l s) = (fst (do_update f t i v s), with_log l (snd (do_update f t i v s))).
Proof.
  unfold do_update. mred. destruct (f =? 0); cbn [negb].
  - mred. destruct (t =? 0); cbn [negb]; [reflexivity|]. mred.
    change (balance_of t i (with_log l s)) with (balance_of t i s).
    destruct (balance_of t i s + v <? two256); reflexivity.
  - mred. change (balance_of f i (with_log l s)) with (balance_of f i s).
    destruct (balance_of f i s <? v); [reflexivity|].
    destruct (t =? 0); cbn [negb]; [reflexivity|]. mred.
    set (x := wsub (balance_of f i s) v).
    change (balance_of t i (set_balance f i x (with_log l s))) with (balance_of t i (set_balance f i x s)).
    destruct (balance_of t i (set_balance f i x s) + v <? two256); reflexivity.
Qed.
Lemma do_updates_log f t m l s :
  do_updates f t m (with_log l s) = (fst (do_updates f t m s), with_log l (snd (do_updates f t m s))).
Proof.
  revert s. induction m as [|[i v] m IH]; intros s; [reflexivity|]. cbn [do_updates]. unfold bind.
  rewrite do_update_log. destruct (do_update f t i v s) as [[[]|e|] s1]; cbn [fst snd]; try reflexivity. apply IH.
Qed.

Definition kind_move (k : batch_kind) : Z * Z :=
  match k with BTransfer f t => (f, t) | BMint t => (0, t) | BBurn a => (a, 0) | BIBurn f => (f, 0) end.
Definition kind_pre (k : batch_kind) (c : Z) (s : state) : Prop :=
  match k with
  | BTransfer f t => authorized s c f /\ f <> 0 /\ t <> 0
  | BMint t => t <> 0
  | BBurn a => authorized s c a /\ a <> 0
  | BIBurn f => f <> 0
  end.
Lemma receiver_data_sel ids vs :
  length ids = length vs ->
  fst (receiver_data ids vs) = if Nat.eqb (length ids) 1 then 0xf23a6e61 else 0xbc197c81.
Proof. destruct ids as [|? [|]]; destruct vs as [|? [|]]; cbn; intros; try discriminate; reflexivity. Qed.
Lemma accept_all_ok {S} (C : sys S) has_code c f t ids vs d fin s s' :
  (forall s1, sys_update C c f t ids vs s = (Ok tt, s1) -> fin = Returned (fst (receiver_data ids vs))) ->
  _update_with_acceptance_check C has_code (receiver (run_calls C has_code CNil) fin) c f t ids vs d s = (Ok tt, s') <->
  sys_update C c f t ids vs s = (Ok tt, s').
Proof.
  intros Hfin. rewrite accept_ok. split.
  - intros (s1 & H1 & [[_ ->]|(_ & _ & H)]); [exact H1|]. unfold receiver in H. rewrite (Hfin s1 H1) in H.
    inversion H as [E]. cbn in E. rewrite <- E. exact H1.
  - intros H. exists s'. split; [exact H|]. destruct (Z.eq_dec t 0); auto. destruct (has_code t); auto.
    right. repeat split; auto. unfold receiver. rewrite (Hfin s' H). reflexivity.
Qed.
Lemma inner_burn_ok {S} (C : sys S) c f ids vs s s' :
  inner_burn C c f ids vs s = (Ok tt, s') <-> f <> 0 /\ sys_inner_update C c f 0 ids vs s = (Ok tt, s').
Proof. unfold inner_burn. rewrite bind_fail_if, Z.eqb_neq. tauto. Qed.
Lemma do_burn_ok {S} (C : sys S) has_code h c f ids vs s s' :
  _do_burn C has_code h c f ids vs s = (Ok tt, s') <-> f <> 0 /\ sys_update C c f 0 ids vs s = (Ok tt, s').
Proof.
  unfold _do_burn. rewrite bind_fail_if, Z.eqb_neq, accept_ok. split.
  - intros [Hf (s1 & H1 & [[_ ->]|[H _]])]; [auto|congruence].
  - intros [Hf H]. split; [exact Hf|]. exists s'. auto.
Qed.
Lemma batch_exec has_code k c d ids vs s s' :
  exec base has_code c (batch_call k d ids vs) s = (Ok tt, s') <->
  kind_pre k c s /\ _update c (fst (kind_move k)) (snd (kind_move k)) ids vs s = (Ok tt, s').
Proof.
  assert (Hfin : forall f t s1, _update c f t ids vs s = (Ok tt, s1) ->
    Returned (if Nat.eqb (length ids) 1 then 0xf23a6e61 else 0xbc197c81) = Returned (fst (receiver_data ids vs))).
  { intros f t s1 H. apply update_inv in H. destruct H as [El _]. rewrite receiver_data_sel by exact El. reflexivity. }
  destruct k; cbn [batch_call kind_pre kind_move fst snd exec].
  - unfold safe_batch_transfer_from, do_safe_transfer_from. rewrite bind_ok. split.
    + intros ([] & s0 & Ha & H). apply authorize_ok in Ha. destruct Ha as [Ha ->]. rewrite !bind_fail_if, !Z.eqb_neq in H.
      destruct H as (Ht & Hf & H). apply accept_all_ok in H; [auto|]. intros s1 H1. exact (Hfin _ _ s1 H1).
    + intros ((Ha & Hf & Ht) & H). exists tt, s. split; [apply authorize_ok; auto|]. rewrite !bind_fail_if, !Z.eqb_neq.
      repeat split; auto. apply accept_all_ok; [|exact H]. intros s1 H1. exact (Hfin _ _ s1 H1).
  - unfold _mint_batch, _do_mint. rewrite bind_fail_if, Z.eqb_neq. split; intros [Ht H]; (split; [exact Ht|]).
    + apply accept_all_ok in H; [exact H|]. intros s1 H1. exact (Hfin _ _ s1 H1).
    + apply accept_all_ok; [|exact H]. intros s1 H1. exact (Hfin _ _ s1 H1).
  - unfold burn_batch. rewrite bind_ok. split.
    + intros ([] & s0 & Ha & H). apply authorize_ok in Ha. destruct Ha as [Ha ->]. apply inner_burn_ok in H. tauto.
    + intros ((Ha & Hf) & H). exists tt, s. split; [apply authorize_ok; auto|]. apply inner_burn_ok. auto.
  - unfold _burn_batch. rewrite do_burn_ok. tauto.
Qed.
Lemma single_exec has_code k c d i v s s' :
  exec base has_code c (single_call k d (i, v)) s = (Ok tt, s') <->
  kind_pre k c s /\ _update c (fst (kind_move k)) (snd (kind_move k)) [i] [v] s = (Ok tt, s').
Proof.
  rewrite <- (batch_exec has_code k c d). destruct k; reflexivity.
Qed.
Lemma kind_pre_same k c s1 s2 :
  operator_approvals s1 = operator_approvals s2 -> kind_pre k c s1 <-> kind_pre k c s2.
Proof.
  intros E. destruct k; cbn; unfold authorized, operator, is_approved_for_all; rewrite ?E; tauto.
Qed.
Lemma update_iff c f t ids vs s s' :
  _update c f t ids vs s = (Ok tt, s') <->
  length ids = length vs /\
  exists s1, do_updates f t (combine ids vs) s = (Ok tt, s1) /\
    s' = mk (balances s1) (operator_approvals s1) (log s1 ++ [update_event c f t ids vs]).
Proof.
  split; [apply update_inv|]. intros (El & s1 & H1 & ->). unfold _update. apply bind_ok. exists tt, s. split.
  - unfold require_equal_arrays_length. apply fail_if_ok. rewrite El, Nat.eqb_refl. auto.
  - apply bind_ok. exists tt, s1. split; [exact H1|]. unfold update_event.
    destruct ids as [|i [|]]; destruct vs; reflexivity.
Qed.
Lemma do_update_frame f t i v s r s' :
  do_update f t i v s = (r, s') -> operator_approvals s' = operator_approvals s.
Proof.
  unfold do_update. mred. destruct (f =? 0); cbn [negb]; mred.
  - destruct (t =? 0); cbn [negb]; mred; [intros H; inversion H; reflexivity|].
    destruct (_ <? _); intros H; inversion H; reflexivity.
  - destruct (_ <? _); [intros H; inversion H; reflexivity|].
    destruct (t =? 0); cbn [negb]; mred; [intros H; inversion H; reflexivity|].
    destruct (_ <? _); intros H; inversion H; reflexivity.
Qed.
Definition same (s1 s2 : state) : Prop := balances s1 = balances s2 /\ operator_approvals s1 = operator_approvals s2.
Lemma do_updates_same f t m s1 s2 r s1' :
  same s1 s2 -> do_updates f t m s1 = (r, s1') -> exists s2', do_updates f t m s2 = (r, s2') /\ same s1' s2'.
Proof.
  intros [E1 E2] H. destruct s1 as [b1 o1 l1], s2 as [b2 o2 l2]; cbn in E1, E2; subst.
  change (mk b2 o2 l2) with (with_log l2 (mk b2 o2 l1)). rewrite do_updates_log, H. cbn [fst snd].
  eexists; split; [reflexivity|]. split; reflexivity.
Qed.
Lemma sequence_singles has_code k c d m s s' :
  sequence has_code c (map (single_call k d) m) s = (Ok tt, s') ->
  (m <> [] -> kind_pre k c s) /\
  exists s1, do_updates (fst (kind_move k)) (snd (kind_move k)) m s = (Ok tt, s1) /\ same s1 s'.
Proof.
  revert s. induction m as [|[i v] m IH]; intros s H.
  - cbn in H. inversion H; subst. split; [congruence|]. exists s'. split; [reflexivity|split; reflexivity].
  - cbn [map sequence] in H. apply bind_ok in H. destruct H as ([] & s1 & H1 & H2).
    apply single_exec in H1. destruct H1 as [Hp H1]. split; [auto|].
    apply update_iff in H1. destruct H1 as (_ & s2 & H1 & E). cbn [combine do_updates] in H1.
    apply bind_ok in H1. destruct H1 as ([] & s3 & H1 & H3). inversion H3; subst s3.
    apply IH in H2. destruct H2 as (_ & s4 & H4 & S4).
    destruct (do_updates_same _ _ _ s1 s2 _ _ ltac:(subst s1; split; reflexivity) H4) as (s5 & H5 & S5).
    exists s5. cbn [do_updates]. split; [apply bind_ok; exists tt, s2; auto|].
    destruct S4, S5. split; congruence.
Qed.
Lemma singles_sequence has_code k c d m s s1 :
  kind_pre k c s -> do_updates (fst (kind_move k)) (snd (kind_move k)) m s = (Ok tt, s1) ->
  exists s', sequence has_code c (map (single_call k d) m) s = (Ok tt, s') /\ same s1 s'.
Proof.
  revert s s1. induction m as [|[i v] m IH]; intros s s1 Hp H.
  - cbn in H. inversion H; subst. exists s1. split; [reflexivity|split; reflexivity].
  - cbn [do_updates] in H. apply bind_ok in H. destruct H as ([] & s2 & H1 & H2).
    pose proof (do_update_frame _ _ _ _ _ _ _ H1) as Ef.
    set (s3 := mk (balances s2) (operator_approvals s2) (log s2 ++ [update_event c (fst (kind_move k)) (snd (kind_move k)) [i] [v]])).
    destruct (do_updates_same _ _ _ s2 s3 _ _ ltac:(split; reflexivity) H2) as (s4 & H4 & S4).
    assert (Hp3 : kind_pre k c s3) by (apply (kind_pre_same k c s3 s); [exact Ef|exact Hp]).
    destruct (IH s3 s4 Hp3 H4) as (s5 & H5 & S5).
    exists s5. split; [|destruct S4, S5; split; congruence].
    cbn [map sequence]. apply bind_ok. exists tt, s3. split; [|exact H5].
    apply single_exec. split; [exact Hp|]. apply update_iff. split; [reflexivity|]. exists s2. split; [|reflexivity].
    cbn [combine do_updates]. apply bind_ok. exists tt, s2. split; [exact H1|reflexivity].
Qed.

(** ** The Supply extension *)
Lemma on_base_ok {A} (m : MS A) s a s' :
  on_base m s = (Ok a, s') <->
  exists t, m (erc1155 s) = (Ok a, t) /\ s' = mkSupply t (total_supply s) (total_supply_all s).
Proof.
  unfold on_base, zoom. destruct (m (erc1155 s)) as [r t]. split.
  - intros H; inversion H; subst. eauto.
  - intros (t' & H & ->). inversion H; subst. reflexivity.
Qed.
Definition u256_map (m : gmap Z Z) : Prop := forall id, is_u256 (mget m id).
Lemma vsum_cons v l : vsum (v :: l) = v + vsum l.
Proof. reflexivity. Qed.
Lemma supply_add_ok l s s' :
  Forall is_u256 (map snd l) -> u256_map (total_supply s) ->
  supply_add l s = (Ok tt, s') ->
  (forall id, mget (total_supply s') id = mget (total_supply s) id + amount l id) /\
  msum (total_supply s') = msum (total_supply s) + vsum (map snd l) /\
  u256_map (total_supply s') /\ erc1155 s' = erc1155 s /\ total_supply_all s' = total_supply_all s.
Proof.
  revert s. induction l as [|[i v] l IH]; intros s Hv Hu H.
  - inversion H; subst. cbn. repeat split; auto; try apply Hu; intros; lia.
  - cbn [supply_add] in H. mred_in H. destruct (Z.ltb_spec (mget (total_supply s) i + v) two256) as [Hlt|]; [|discriminate].
    cbn [map snd] in Hv. inversion Hv as [|? ? Hv1 Hv2]; subst.
    apply IH in H; [|exact Hv2|].
    + unfold set_total in H; cbn [total_supply erc1155 total_supply_all] in H. destruct H as (H1 & H2 & H3 & H4 & H5). split; [|split; [|auto]].
      * intros id. rewrite H1. cbn [amount]. rewrite mget_set. destruct (Z.eqb_spec i id); destruct (decide (i = id)); subst; try congruence; try lia.
      * rewrite H2, msum_set. cbn [map snd vsum]. lia.
    + cbn. intros id. rewrite mget_set. destruct (decide _); [|apply Hu]. specialize (Hu i). unfold is_u256 in *. lia.
Qed.
Lemma supply_sub_ok l s s' :
  Forall is_u256 (map snd l) -> u256_map (total_supply s) ->
  (forall id, amount l id <= mget (total_supply s) id) ->
  supply_sub l s = (Ok tt, s') ->
  (forall id, mget (total_supply s') id = mget (total_supply s) id - amount l id) /\
  msum (total_supply s') = msum (total_supply s) - vsum (map snd l) /\
  u256_map (total_supply s') /\ erc1155 s' = erc1155 s /\ total_supply_all s' = total_supply_all s.
Proof.
  revert s. induction l as [|[i v] l IH]; intros s Hv Hu Ha H.
  - inversion H; subst. cbn. repeat split; auto; try apply Hu; intros; lia.
  - cbn [supply_sub] in H. mred_in H.
    cbn [map snd] in Hv. inversion Hv as [|? ? Hv1 Hv2]; subst.
    pose proof (Hu i) as Ui. pose proof (Ha i) as Ai. cbn [amount] in Ai. rewrite Z.eqb_refl in Ai.
    pose proof (amount_nonneg l i Hv2) as Ni. unfold is_u256 in Ui, Hv1.
    rewrite wsub_small in H by lia.
    apply IH in H; [|exact Hv2| |].
    + unfold set_total in H; cbn [total_supply erc1155 total_supply_all] in H. destruct H as (H1 & H2 & H3 & H4 & H5). split; [|split; [|auto]].
      * intros id. rewrite H1. cbn [amount]. rewrite mget_set. destruct (Z.eqb_spec i id); destruct (decide (i = id)); subst; try congruence; try lia.
      * rewrite H2, msum_set. cbn [map snd vsum]. lia.
    + cbn. intros id. rewrite mget_set. destruct (decide _); [|apply Hu]. unfold is_u256. lia.
    + cbn. intros id. specialize (Ha id). cbn [amount] in Ha. rewrite mget_set.
      destruct (Z.eqb_spec i id); destruct (decide (i = id)); subst; try congruence; lia.
Qed.
Lemma wsum_mod l : wsum l = vsum l mod two256.
Proof.
  unfold wsum. assert (H : forall l a, fold_left wadd l (a mod two256) = (a + vsum l) mod two256).
  { clear. induction l as [|v l IH]; intros a; cbn [fold_left vsum]; [rewrite Z.add_0_r; reflexivity|].
    unfold wadd at 2. rewrite Zplus_mod_idemp_l, IH. f_equal. lia. }
  rewrite <- (Z.mod_0_l two256) at 1 by (pose proof two256_pos; lia). rewrite H. reflexivity.
Qed.
Lemma vsum_nonneg l : Forall is_u256 l -> 0 <= vsum l.
Proof. induction 1 as [|v l Hv _ IH]; cbn; [lia|]. unfold is_u256 in Hv. lia. Qed.
Lemma combine_map_snd (ids vs : list Z) : length ids = length vs -> map snd (combine ids vs) = vs.
Proof. revert vs. induction ids as [|i ids IH]; intros [|v vs] H; cbn in *; try discriminate; auto. f_equal. apply IH. lia. Qed.

Definition tracked (s : supply_state) : Prop :=
  Inv (erc1155 s) /\ u256_map (total_supply s) /\ is_u256 (total_supply_all s) /\
  (forall id, mget (total_supply s) id = id_total (erc1155 s) id) /\
  total_supply_all s = supply_sum s mod two256.
Lemma id_total_nonneg s id : ranged s -> 0 <= id_total s id.
Proof.
  intros H. unfold id_total. apply msum_nonneg. intros a. specialize (H a id). unfold is_u256, balance_of in H. lia.
Qed.

Lemma supply_update_ok c f t ids vs s s' :
  Forall is_u256 vs -> (f = 0 /\ t <> 0) \/ (f <> 0 /\ t = 0) \/ (f <> 0 /\ t <> 0) ->
  tracked s -> supply_update c f t ids vs s = (Ok tt, s') ->
  tracked s' /\
  (f = 0 -> supply_sum s' = supply_sum s + vsum vs /\ total_supply_all s' = total_supply_all s + vsum vs mod two256) /\
  (f <> 0 -> t = 0 -> supply_sum s' = supply_sum s - vsum vs) /\
  (f <> 0 -> t <> 0 -> supply_sum s' = supply_sum s /\ total_supply_all s' = total_supply_all s).
Proof.
  intros Hv Hft (HI & HU & HA & HT & HS) H. unfold supply_update in H.
  apply bind_ok in H. destruct H as ([] & s1 & H1 & H). apply on_base_ok in H1. destruct H1 as (b & Hb & ->).
  pose proof two256_pos as P2.
  assert (Hbi : Inv b). { eapply inv_update; [exact Hv| |exact HI|exact Hb]. lia. }
  apply update_ok in Hb; [|exact Hv|apply HI]. destruct Hb as (El & _ & T & _ & _).
  set (m := combine ids vs) in *.
  assert (Hm : Forall is_u256 (map snd m)) by (apply combine_snd; exact Hv).
  assert (Em : map snd m = vs) by (apply combine_map_snd; exact El).
  apply bind_ok in H. destruct H as ([] & s2 & H1 & H2).
  destruct (Z.eqb_spec f 0) as [->|Hf].
  - assert (Ht : t <> 0) by lia. destruct (Z.eqb_spec t 0); [contradiction|]. inversion H2; subst s2.
    apply bind_ok in H1. destruct H1 as ([] & s3 & H3 & H1).
    apply supply_add_ok in H3; [|exact Hm|exact HU]. cbn [total_supply erc1155 total_supply_all] in H3.
    destruct H3 as (A1 & A2 & A3 & A4 & A5). mred_in H1.
    destruct (Z.ltb_spec (total_supply_all s3 + wsum vs) two256) as [Hlt|]; [|discriminate].
    inversion H1; subst s'. clear H1 H2. rewrite A5, wsum_mod in *.
    pose proof (Z.mod_pos_bound (vsum vs) two256 P2). rewrite Em in A2.
    unfold tracked, supply_sum, set_all in *; cbn [total_supply erc1155 total_supply_all] in *. rewrite A4.
    split; [|repeat split; try congruence; try tauto].
    split; [exact Hbi|]. split; [exact A3|]. split; [unfold is_u256 in *; lia|]. split.
    + intros id. rewrite A1, T, HT. unfold gt0. cbn [Z.eqb]. destruct (Z.eqb_spec t 0); [contradiction|lia].
    + rewrite A2, Zplus_mod, <- HS. symmetry. apply Z.mod_small. unfold is_u256 in HA. lia.
  - inversion H1; subst s2. destruct (Z.eqb_spec t 0) as [->|Ht].
    + apply bind_ok in H2. destruct H2 as ([] & s3 & H3 & H2).
      assert (Hle : forall id, amount m id <= mget (total_supply s) id).
      { intros id. rewrite HT. pose proof (id_total_nonneg b id (inv_range b Hbi)) as Hn. rewrite T in Hn.
        unfold gt0 in Hn. cbn [Z.eqb] in Hn. destruct (Z.eqb_spec f 0); [contradiction|lia]. }
      apply supply_sub_ok in H3; [|exact Hm|exact HU|exact Hle]. cbn [total_supply erc1155 total_supply_all] in H3.
      destruct H3 as (A1 & A2 & A3 & A4 & A5). mred_in H2. inversion H2; subst s'. clear H1 H2.
      rewrite A5, wsum_mod. rewrite Em in A2.
      unfold tracked, supply_sum, set_all in *; cbn [total_supply erc1155 total_supply_all] in *. rewrite A4.
      split; [|repeat split; try congruence; try tauto].
      split; [exact Hbi|]. split; [exact A3|]. unfold wsub.
      split; [unfold is_u256; apply Z.mod_pos_bound; exact P2|]. split.
      * intros id. rewrite A1, T, HT. unfold gt0. cbn [Z.eqb]. destruct (Z.eqb_spec f 0); [contradiction|lia].
      * rewrite A2, HS, <- Zminus_mod. reflexivity.
    + inversion H2; subst s'. unfold tracked, supply_sum in *; cbn [total_supply erc1155 total_supply_all] in *.
      split; [|repeat split; try congruence; try tauto].
      split; [exact Hbi|]. split; [exact HU|]. split; [exact HA|]. split; [|exact HS].
      intros id. rewrite T, HT. unfold gt0. destruct (Z.eqb_spec f 0); destruct (Z.eqb_spec t 0); try contradiction. lia.
Qed.

Lemma front_supply c o s s1 :
  supply_entry o -> front supply c o s = (Ok tt, s1) ->
  match op_move o with
  | Some (f, t, is, vs) =>
      supply_update c f t is vs s = (Ok tt, s1) /\
      ((f = 0 /\ t <> 0) \/ (f <> 0 /\ t = 0) \/ (f <> 0 /\ t <> 0)) /\ (f = 0 -> is_mint o)
  | None => exists p b t, set_approval_for_all c p b (erc1155 s) = (Ok tt, t) /\
                          s1 = mkSupply t (total_supply s) (total_supply_all s)
  end.
Proof.
  destruct o; cbn [front op_move supply sys_update sys_inner_update sys_authorize sys_set_approval_for_all supply_entry is_mint];
    intros Hs H; try contradiction.
  1,2: apply bind_ok in H; destruct H as ([] & s0 & Ha & H); apply on_base_ok in Ha; destruct Ha as (x & Ha & ->);
    apply authorize_ok in Ha; destruct Ha as [_ ->];
    apply bind_fail_if in H; destruct H as [Ht H]; apply bind_fail_if in H; destruct H as [Hf H];
    apply Z.eqb_neq in Ht, Hf; destruct s; cbn in H |- *; repeat split; try assumption; try lia; tauto.
  1: apply on_base_ok in H; destruct H as (x & Ha & ->); eauto.
  1,2,3,4: apply bind_fail_if in H; destruct H as [Hf H]; apply Z.eqb_neq in Hf; repeat split; try assumption; try lia; tauto.
Qed.
Lemma tracked_init : tracked supply_init.
Proof.
  split; [apply inv_init|]. pose proof two256_pos.
  repeat split; cbn; intros; unfold supply_sum; cbn; rewrite ?mget_empty, ?msum_empty; try lia; reflexivity.
Qed.
Lemma tracked_front c o s s1 :
  node_wf c o -> supply_entry o -> tracked s -> front supply c o s = (Ok tt, s1) -> tracked s1.
Proof.
  intros [_ Hw] Hs HT H. apply front_supply in H; [|exact Hs]. destruct (op_move o) as [[[[f t] is] vs]|].
  - destruct H as (H & Hft & _). eapply supply_update_ok; eauto.
  - destruct H as (p & b & t & H & ->). destruct HT as (HI & HU & HA & HT & HS).
    pose proof (inv_set_all _ _ _ _ _ HI H) as HI'. apply set_all_inv in H. destruct H as [_ ->].
    split; [exact HI'|]. split; [exact HU|]. split; [exact HA|]. split; [exact HT|exact HS].
Qed.
Definition exact_all (s : supply_state) : Prop := tracked s /\ total_supply_all s = supply_sum s.
Lemma exact_front c o s s1 :
  node_wf c o -> supply_entry o -> small_mints o -> exact_all s -> front supply c o s = (Ok tt, s1) -> exact_all s1.
Proof.
  intros Hw Hs Hsm [HT HE] H. split; [eapply tracked_front; eauto|].
  pose proof (tracked_front _ _ _ _ Hw Hs HT H) as HT1.
  destruct Hw as [_ Hw]. apply front_supply in H; [|exact Hs]. destruct (op_move o) as [[[[f t] is] vs]|] eqn:Em.
  - destruct H as (H & Hft & Hmint). pose proof H as H'. apply supply_update_ok in H'; auto.
    destruct H' as (_ & A1 & A2 & A3). pose proof (vsum_nonneg vs Hw).
    destruct (Z.eq_dec f 0) as [->|Hf].
    + destruct (A1 eq_refl) as [E1 E2]. rewrite E1, E2, HE. f_equal. apply Z.mod_small. split; [assumption|].
      specialize (Hmint eq_refl). destruct o; cbn in Hmint, Hsm, Em; try contradiction; inversion Em; subst.
      * inversion Hw as [|? ? Hv]; subst. unfold is_u256 in Hv. cbn. lia.
      * exact Hsm.
    + destruct (Z.eq_dec t 0) as [->|Ht].
      * specialize (A2 Hf eq_refl). destruct HT1 as (HI1 & HU1 & HA1 & HT1 & HS1). rewrite HS1.
        apply Z.mod_small. split; [apply msum_nonneg; intros id; specialize (HU1 id); unfold is_u256 in HU1; lia|].
        destruct HT as (_ & _ & HA & _). unfold is_u256 in HA. lia.
      * destruct (A3 Hf Ht) as [E1 E2]. congruence.
  - destruct H as (p & b & t & _ & ->). exact HE.
Qed.

Lemma ex_iff {A} (P Q : A -> Prop) : (forall x, P x <-> Q x) -> (exists x, P x) <-> (exists x, Q x).
Proof. intros H. split; intros [x Hx]; exists x; apply H; exact Hx. Qed.
Lemma and_iff_compat_l_imp (A B D : Prop) : (A -> (B <-> D)) -> (A /\ B) <-> (A /\ D).
Proof. tauto. Qed.
Lemma hook_data ids vs tr sel :
  length ids = length vs -> hook ids vs tr sel <-> tr = snd (receiver_data ids vs) /\ sel = fst (receiver_data ids vs).
Proof.
  intros El. unfold hook. destruct ids as [|i [|j ids]]; destruct vs as [|v vs]; cbn in El; try discriminate.
  - cbn. split; [intros [(? & ? & ? & _)|(_ & -> & ->)]; [discriminate|auto]|intros [-> ->]; auto].
  - destruct vs; [|discriminate]. cbn. split.
    + intros [(a & b & Ea & Eb & -> & ->)|(H & _)]; [inversion Ea; inversion Eb; auto|congruence].
    + intros [-> ->]. left. exists i, v. auto.
  - cbn. split; [intros [(? & ? & ? & _)|(_ & -> & ->)]; [discriminate|auto]|intros [-> ->]; right; auto].
Qed.
