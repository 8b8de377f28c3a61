(** Property theorems for AccessControl (C22, C23), Ownable (C24), Ownable2Step (C25). *)
From Verif.Base Require Import Prelude Maps.
From Verif.Model Require AccessControl Ownable Ownable2Step.
From Verif.Spec Require Import Access_spec.
From stdpp Require Import gmap.
#[global] Open Scope Z_scope.

Module AC := AccessControl.
Module OW := Ownable.
Module O2 := Ownable2Step.

(** ** AccessControl *)
Lemma has_role_grant m ad l r x r' x' :
  AC.has_role (AC.mk (<[(r, x) := true]> m) ad l) r' x' =
  ((r =? r') && (x =? x')) || getd false m (r', x').
Proof.
  unfold AC.has_role; cbn. rewrite getd_set. destruct (decide ((r, x) = (r', x'))) as [E|E].
  - inversion E; subst. rewrite !Z.eqb_refl. reflexivity.
  - destruct ((r =? r') && (x =? x')) eqn:B; [|reflexivity].
    exfalso. apply E. f_equal; lia.
Qed.
Lemma has_role_revoke m ad l r x r' x' :
  AC.has_role (AC.mk (<[(r, x) := false]> m) ad l) r' x' =
  negb ((r =? r') && (x =? x')) && getd false m (r', x').
Proof.
  unfold AC.has_role; cbn. rewrite getd_set. destruct (decide ((r, x) = (r', x'))) as [E|E].
  - inversion E; subst. rewrite !Z.eqb_refl. reflexivity.
  - destruct ((r =? r') && (x =? x')) eqn:B; [|reflexivity].
    exfalso. apply E. f_equal; lia.
Qed.

(** Complete description of one transaction. *)
Definition ac_next (s : AC.state) (c : Z) (o : AC.op) : AC.state :=
  let grant r a := if AC.has_role s r a then s
    else AC.mk (<[(r, a) := true]> (AC.members s)) (AC.admins s) (AC.log s ++ [AC.RoleGranted r a c]) in
  let revoke r a := if AC.has_role s r a
    then AC.mk (<[(r, a) := false]> (AC.members s)) (AC.admins s) (AC.log s ++ [AC.RoleRevoked r a c]) else s in
  match o with
  | AC.OGrant r a => if AC.has_role s (AC.get_role_admin s r) c then grant r a else s
  | AC.ORevoke r a => if AC.has_role s (AC.get_role_admin s r) c then revoke r a else s
  | AC.ORenounce r a => if c =? a then revoke r a else s
  | AC.OSetRoleAdmin r n => AC.mk (AC.members s) (mset (AC.admins s) r n)
      (AC.log s ++ [AC.RoleAdminChanged r (AC.get_role_admin s r) n])
  | AC.OInternalGrant r a => grant r a
  | AC.OInternalRevoke r a => revoke r a
  end.
Lemma ac_step_eq s c o : AC.step s (c, o) = ac_next s c o.
Proof.
  unfold AC.step, tx, ac_next; cbn [fst snd].
  destruct o as [r a|r a|r a|r n|r a|r a]; cbn [AC.exec];
    unfold AC.grant_role, AC.revoke_role, AC.renounce_role, AC.only_role, AC._check_role,
      AC._grant_role, AC._revoke_role, AC._set_role_admin; mred;
    repeat (match goal with
      | |- context [if AC.has_role ?s ?x ?y then _ else _] => destruct (AC.has_role s x y) eqn:?
      | |- context [negb (AC.has_role ?s ?x ?y)] => destruct (AC.has_role s x y) eqn:?
      | |- context [negb (?u =? ?v)] => destruct (u =? v) eqn:?
      | E : AC.has_role ?s ?x ?y = _ |- context [AC.has_role ?s ?x ?y] => rewrite E
      end; cbn [negb]); try discriminate; reflexivity.
Qed.

Lemma ac_has_role_step s c o role a :
  AC.has_role (AC.step s (c, o)) role a =
  match o with
  | AC.OGrant r x => if AC.has_role s (AC.get_role_admin s r) c && (r =? role) && (x =? a) then true else AC.has_role s role a
  | AC.ORevoke r x => if AC.has_role s (AC.get_role_admin s r) c && (r =? role) && (x =? a) then false else AC.has_role s role a
  | AC.ORenounce r x => if (c =? x) && (r =? role) && (x =? a) then false else AC.has_role s role a
  | AC.OSetRoleAdmin _ _ => AC.has_role s role a
  | AC.OInternalGrant r x => if (r =? role) && (x =? a) then true else AC.has_role s role a
  | AC.OInternalRevoke r x => if (r =? role) && (x =? a) then false else AC.has_role s role a
  end.
Proof.
  rewrite ac_step_eq. destruct o as [r x|r x|r x|r n|r x|r x]; cbn [ac_next]; try reflexivity.
  all: try destruct (AC.has_role s (AC.get_role_admin s r) c); try reflexivity.
  all: try destruct (c =? x); try reflexivity; cbn [andb].
  all: destruct (AC.has_role s r x) eqn:E; rewrite ?has_role_grant, ?has_role_revoke.
  all: destruct ((r =? role) && (x =? a)) eqn:B; try reflexivity.
  all: assert (r = role /\ x = a) as [-> ->] by lia; exact E.
Qed.

Lemma ac_step_failed s c o :
  is_ok (fst (tx (AC.exec c o) s)) = false -> AC.step s (c, o) = s.
Proof.
  unfold AC.step. cbn [fst snd]. unfold tx. destruct (AC.exec c o s) as [[| |] ?]; cbn; congruence.
Qed.

(** One call, from any state: membership of (role, a) changes to true exactly by a grant
    of that role to that account by an admin, to false exactly by a revoke by an admin or
    by a's own renounce; hence only the named role and account are affected. *)
Theorem c22_membership_changes_exactly :
  forall s c o role a, guarded o ->
  (AC.has_role s role a = false ->
     (AC.has_role (AC.step s (c, o)) role a = true <-> gives s (c, o) role a)) /\
  (AC.has_role s role a = true ->
     (AC.has_role (AC.step s (c, o)) role a = false <-> takes s (c, o) role a)).
Proof.
  intros s c o role a Hg. unfold gives, takes, administers; cbn [fst snd]. rewrite ac_has_role_step.
  split; intros H0; rewrite H0.
  - destruct o as [r x|r x|r x|r n|r x|r x]; cbn in Hg; try contradiction.
    + destruct (AC.has_role s (AC.get_role_admin s r) c) eqn:E; cbn [andb].
      * destruct ((r =? role) && (x =? a)) eqn:B.
        -- assert (r = role /\ x = a) as [-> ->] by lia. tauto.
        -- split; [discriminate|]. intros [Hx _]. inversion Hx; subst. rewrite !Z.eqb_refl in B. discriminate.
      * split; [discriminate|]. intros [Hx Hy]. inversion Hx; subst. congruence.
    + destruct (_ && _); split; try discriminate; intros [Hx _]; discriminate.
    + destruct (_ && _); split; try discriminate; intros [Hx _]; discriminate.
    + split; [discriminate|]. intros [Hx _]; discriminate.
  - destruct o as [r x|r x|r x|r n|r x|r x]; cbn in Hg; try contradiction.
    + destruct (_ && _); split; try discriminate; intros [[Hx _]|[Hx _]]; discriminate.
    + destruct (AC.has_role s (AC.get_role_admin s r) c) eqn:E; cbn [andb].
      * destruct ((r =? role) && (x =? a)) eqn:B.
        -- assert (r = role /\ x = a) as [-> ->] by lia. tauto.
        -- split; [discriminate|]. intros [[Hx _]|[Hx _]]; inversion Hx; subst. rewrite !Z.eqb_refl in B. discriminate.
      * split; [discriminate|]. intros [[Hx Hy]|[Hx Hy]]; inversion Hx; subst. congruence.
    + destruct ((c =? x) && (r =? role) && (x =? a)) eqn:B.
      * split; [|reflexivity]. intros _. right. split; [f_equal; lia|lia].
      * split; [discriminate|]. intros [[Hx _]|[Hx Hy]]; inversion Hx; subst. rewrite !Z.eqb_refl in B. discriminate.
    + split; [discriminate|]. intros [[Hx _]|[Hx _]]; discriminate.
Qed.
Print Assumptions c22_membership_changes_exactly.

(** Outcomes: who may call what, the documented errors, and that failing calls have no
    effect (already at library level). *)
Theorem c22_outcomes :
  forall s c role a,
  let admin := AC.get_role_admin s role in
  (AC.has_role s admin c = true ->
     fst (AC.grant_role c role a s) = Ok tt /\ AC.has_role (snd (AC.grant_role c role a s)) role a = true /\
     fst (AC.revoke_role c role a s) = Ok tt /\ AC.has_role (snd (AC.revoke_role c role a s)) role a = false) /\
  (AC.has_role s admin c = false ->
     AC.grant_role c role a s = (Err (AC.UnauthorizedAccount c admin), s) /\
     AC.revoke_role c role a s = (Err (AC.UnauthorizedAccount c admin), s)) /\
  (c = a -> fst (AC.renounce_role c role a s) = Ok tt /\ AC.has_role (snd (AC.renounce_role c role a s)) role a = false) /\
  (c <> a -> AC.renounce_role c role a s = (Err AC.BadConfirmation, s)) /\
  AC.only_role c role s =
    (if AC.has_role s role c then Ok tt else Err (AC.UnauthorizedAccount c role), s).
Proof.
  intros s c role a admin.
  unfold AC.grant_role, AC.revoke_role, AC.renounce_role, AC.only_role, AC._check_role,
      AC._grant_role, AC._revoke_role; mred. fold admin.
  split; [|split; [|split; [|split]]].
  - intros ->. cbn [negb]. destruct (AC.has_role s role a) eqn:E; cbn [fst snd];
      rewrite ?has_role_grant, ?has_role_revoke, ?Z.eqb_refl; auto.
  - intros ->. cbn [negb]. auto.
  - intros ->. rewrite Z.eqb_refl. cbn [negb]. destruct (AC.has_role s role a) eqn:E; cbn [fst snd];
      rewrite ?has_role_revoke, ?Z.eqb_refl; auto.
  - intros Hne. replace (c =? a) with false by lia. reflexivity.
  - destruct (AC.has_role s role c); reflexivity.
Qed.
Print Assumptions c22_outcomes.

(** Every history: an account that has a role at the end but not at the start got it in a
    grant call by an account that, at that moment, held the role's admin role; and one that
    lost it lost it through an admin's revoke or its own renounce. *)
Theorem c22_gained_through_admin :
  forall h s role a, Forall (fun co => guarded (snd co)) h ->
  AC.has_role s role a = false -> AC.has_role (AC.run h s) role a = true ->
  exists h1 co h2, h = h1 ++ co :: h2 /\ gives (AC.run h1 s) co role a /\
    AC.has_role (AC.run h1 s) role a = false.
Proof.
  induction h as [|[c o] h IH]; intros s role a Hg H0 H1; [cbn in H1; congruence|].
  inversion Hg as [|? ? Hgo Hgh]; subst. cbn [snd] in Hgo.
  destruct (AC.has_role (AC.step s (c, o)) role a) eqn:E.
  - exists [], (c, o), h. split; [reflexivity|]. split; [|exact H0].
    destruct (c22_membership_changes_exactly s c o role a Hgo) as [HH _]. apply HH; assumption.
  - destruct (IH (AC.step s (c, o)) role a Hgh E H1) as (h1 & co & h2 & -> & HH).
    exists ((c, o) :: h1), co, h2. split; [reflexivity|]. exact HH.
Qed.
Print Assumptions c22_gained_through_admin.

Theorem c22_lost_through_admin_or_self :
  forall h s role a, Forall (fun co => guarded (snd co)) h ->
  AC.has_role s role a = true -> AC.has_role (AC.run h s) role a = false ->
  exists h1 co h2, h = h1 ++ co :: h2 /\ takes (AC.run h1 s) co role a /\
    AC.has_role (AC.run h1 s) role a = true.
Proof.
  induction h as [|[c o] h IH]; intros s role a Hg H0 H1; [cbn in H1; congruence|].
  inversion Hg as [|? ? Hgo Hgh]; subst. cbn [snd] in Hgo.
  destruct (AC.has_role (AC.step s (c, o)) role a) eqn:E.
  - destruct (IH (AC.step s (c, o)) role a Hgh E H1) as (h1 & co & h2 & -> & HH).
    exists ((c, o) :: h1), co, h2. split; [reflexivity|]. exact HH.
  - exists [], (c, o), h. split; [reflexivity|]. split; [|exact H0].
    destruct (c22_membership_changes_exactly s c o role a Hgo) as [_ HH]. apply HH; assumption.
Qed.
Print Assumptions c22_lost_through_admin_or_self.

(** The admin graph only changes through [_set_role_admin]. *)
Theorem c22_admin_graph_fixed_by_users :
  forall h s role,
  Forall (fun co => forall r n, snd co <> AC.OSetRoleAdmin r n) h ->
  AC.get_role_admin (AC.run h s) role = AC.get_role_admin s role.
Proof.
  induction h as [|[c o] h IH]; intros s role Hg; [reflexivity|].
  inversion Hg as [|? ? Hgo Hgh]; subst. cbn [snd] in Hgo.
  cbn [AC.run fold_left]. fold (AC.run h (AC.step s (c, o))). rewrite (IH _ role Hgh).
  rewrite ac_step_eq. unfold ac_next. destruct o as [r x|r x|r x|r n|r x|r x]; try (case_all; reflexivity).
  exfalso. apply (Hgo r n). reflexivity.
Qed.
Print Assumptions c22_admin_graph_fixed_by_users.

(** A set of roles that administer each other and that nobody holds stays empty for ever:
    for instance once the last DEFAULT_ADMIN_ROLE holder is gone. *)
Theorem c22_dead_roles_stay_dead :
  forall R h s, Forall (fun co => guarded (snd co) /\ forall r n, snd co <> AC.OSetRoleAdmin r n) h ->
  dead_roles R s -> dead_roles R (AC.run h s).
Proof.
  intros R h. induction h as [|[c o] h IH]; intros s Hg HD; [exact HD|].
  inversion Hg as [|? ? [Hgo Hno] Hgh]; subst. cbn [snd] in Hgo, Hno.
  cbn [AC.run fold_left]. fold (AC.run h (AC.step s (c, o))). apply (IH _ Hgh).
  destruct HD as [Hcl Hemp]. split.
  - intros r Hr.
    pose proof (c22_admin_graph_fixed_by_users [(c, o)] s r) as E. cbn [AC.run fold_left] in E.
    rewrite E by (constructor; [exact Hno|constructor]). apply Hcl, Hr.
  - intros r a Hr. destruct (AC.has_role (AC.step s (c, o)) r a) eqn:E; [exfalso|reflexivity].
    destruct (c22_membership_changes_exactly s c o r a Hgo) as [HH _].
    apply (HH (Hemp r a Hr)) in E. destruct E as [_ E]. unfold administers in E. cbn [fst] in E.
    rewrite (Hemp _ c (Hcl r Hr)) in E. discriminate.
Qed.
Print Assumptions c22_dead_roles_stay_dead.

Definition ac_demo : list (Z * AC.op) :=
  [(9, AC.OInternalGrant 0 1); (1, AC.OGrant 5 2); (1, AC.OGrant 5 2); (2, AC.OGrant 5 3);
   (9, AC.OSetRoleAdmin 5 6); (1, AC.OGrant 5 4); (1, AC.OGrant 6 7); (7, AC.OGrant 5 4);
   (2, AC.ORenounce 5 2); (2, AC.ORenounce 5 4); (7, AC.ORevoke 5 2); (7, AC.ORevoke 5 4)].
Example c22_nonvacuous :
  let s := AC.run ac_demo AC.init in
  AC.log s = [AC.RoleGranted 0 1 9; AC.RoleGranted 5 2 1; AC.RoleAdminChanged 5 0 6;
              AC.RoleGranted 6 7 1; AC.RoleGranted 5 4 7; AC.RoleRevoked 5 2 2; AC.RoleRevoked 5 4 7] /\
  AC.has_role s 6 7 = true /\ AC.has_role s 5 2 = false /\ AC.get_role_admin s 5 = 6.
Proof. vm_compute. repeat split. Qed.
Example c22_gained_nonvacuous :
  let s := AC.run (firstn 1 ac_demo) AC.init in let h := firstn 7 (skipn 1 ac_demo) in
  Forall (fun co => guarded (snd co)) h /\ AC.has_role s 5 4 = false /\ AC.has_role (AC.run h s) 5 4 = true.
Proof. cbn. split; [repeat constructor|]. split; vm_compute; reflexivity. Qed.
Example c22_dead_nonvacuous :
  dead_roles (fun r => r = 0) (AC.run [(9, AC.OInternalGrant 0 1); (1, AC.ORenounce 0 1)] AC.init).
Proof.
  split.
  - intros r ->. vm_compute. reflexivity.
  - intros r a ->. cbn [AC.run fold_left]. rewrite !ac_has_role_step. destruct (1 =? a); reflexivity.
Qed.

(** ** C23 *)
Lemma membership_events_app r a l l' :
  membership_events r a (l ++ l') = membership_events r a l ++ membership_events r a l'.
Proof. induction l as [|[] l IH]; cbn; rewrite ?IH, ?app_assoc; reflexivity. Qed.
Lemma member_by_events_app r a l l' : forall b,
  member_by_events r a b (l ++ l') = member_by_events r a (member_by_events r a b l) l'.
Proof. induction l as [|[] l IH]; intros b; cbn; rewrite ?IH; reflexivity. Qed.
Lemma admin_by_events_app r l l' : forall b,
  admin_by_events r b (l ++ l') = admin_by_events r (admin_by_events r b l) l'.
Proof. induction l as [|[] l IH]; intros b; cbn; rewrite ?IH; reflexivity. Qed.

Definition Mirror (s : AC.state) : Prop :=
  forall r a, AC.has_role s r a = member_by_events r a false (AC.log s) /\
    alternating true (membership_events r a (AC.log s)) /\
    AC.has_role s r a = Nat.odd (length (membership_events r a (AC.log s))) /\
    AC.get_role_admin s r = admin_by_events r 0 (AC.log s).

Lemma alternating_snoc l e : forall b,
  alternating b l -> e = xorb (negb b) (Nat.even (length l)) -> alternating b (l ++ [e]).
Proof.
  induction l as [|x l IH]; intros b H He; cbn [alternating app length] in *.
  - split; [|exact I]. rewrite He. destruct b; reflexivity.
  - destruct H as [H1 H2]. split; [exact H1|]. apply IH; [exact H2|]. rewrite He.
    rewrite Nat.even_succ, <- Nat.negb_even. destruct b, (Nat.even (length l)); reflexivity.
Qed.
Lemma mirror_grant s r x c :
  Mirror s -> AC.has_role s r x = false ->
  Mirror (AC.mk (<[(r, x) := true]> (AC.members s)) (AC.admins s) (AC.log s ++ [AC.RoleGranted r x c])).
Proof.
  intros HM H0 r' a'. destruct (HM r' a') as (H1 & H2 & H3 & H4). rewrite has_role_grant.
  change (getd false (AC.members s) (r', a')) with (AC.has_role s r' a').
  cbn [AC.log]. rewrite member_by_events_app, membership_events_app, admin_by_events_app. cbn.
  rewrite <- H1. destruct ((r =? r') && (x =? a')) eqn:B.
  - assert (r = r' /\ x = a') as [-> ->] by lia. cbn [app orb].
    rewrite H0 in H3. symmetry in H3. rewrite <- Nat.negb_even in H3.
    split; [reflexivity|]. split; [|split].
    + apply alternating_snoc; [exact H2|]. cbn. destruct (Nat.even _); [reflexivity|discriminate].
    + rewrite app_length, Nat.add_comm, Nat.add_1_l, Nat.odd_succ. destruct (Nat.even _); [reflexivity|discriminate].
    + exact H4.
  - cbn [app orb]. rewrite app_nil_r. auto.
Qed.
Lemma mirror_revoke s r x c :
  Mirror s -> AC.has_role s r x = true ->
  Mirror (AC.mk (<[(r, x) := false]> (AC.members s)) (AC.admins s) (AC.log s ++ [AC.RoleRevoked r x c])).
Proof.
  intros HM H0 r' a'. destruct (HM r' a') as (H1 & H2 & H3 & H4). rewrite has_role_revoke.
  change (getd false (AC.members s) (r', a')) with (AC.has_role s r' a').
  cbn [AC.log]. rewrite member_by_events_app, membership_events_app, admin_by_events_app. cbn.
  rewrite <- H1. destruct ((r =? r') && (x =? a')) eqn:B.
  - assert (r = r' /\ x = a') as [-> ->] by lia. cbn [app negb andb].
    rewrite H0 in H3. symmetry in H3. rewrite <- Nat.negb_even in H3.
    split; [reflexivity|]. split; [|split].
    + apply alternating_snoc; [exact H2|]. cbn. destruct (Nat.even _); [discriminate|reflexivity].
    + rewrite app_length, Nat.add_comm, Nat.add_1_l, Nat.odd_succ. destruct (Nat.even _); [discriminate|reflexivity].
    + exact H4.
  - cbn [app negb andb]. rewrite app_nil_r. auto.
Qed.
Lemma mirror_step s co : Mirror s -> Mirror (AC.step s co).
Proof.
  intros HM. destruct co as [c o]. rewrite ac_step_eq.
  destruct o as [r x|r x|r x|r n|r x|r x]; cbn [ac_next].
  - destruct (AC.has_role s _ c); [|exact HM]. destruct (AC.has_role s r x) eqn:E; [exact HM|apply mirror_grant; assumption].
  - destruct (AC.has_role s _ c); [|exact HM]. destruct (AC.has_role s r x) eqn:E; [apply mirror_revoke; assumption|exact HM].
  - destruct (c =? x); [|exact HM]. destruct (AC.has_role s r x) eqn:E; [apply mirror_revoke; assumption|exact HM].
  - intros r' a'. destruct (HM r' a') as (H1 & H2 & H3 & H4). unfold AC.has_role, AC.get_role_admin in *. cbn.
    rewrite member_by_events_app, membership_events_app, admin_by_events_app. cbn.
    rewrite app_nil_r. rewrite mget_set. rewrite <- H4.
    split; [exact H1|]. split; [exact H2|]. split; [exact H3|].
    destruct (decide (r = r')) as [->|Hne]; [rewrite Z.eqb_refl; reflexivity|].
    replace (r =? r') with false by lia. reflexivity.
  - destruct (AC.has_role s r x) eqn:E; [exact HM|apply mirror_grant; assumption].
  - destruct (AC.has_role s r x) eqn:E; [apply mirror_revoke; assumption|exact HM].
Qed.

(** Over every history (author-level calls included), replaying the log reconstructs the
    membership and the admin of every role, and for each (role, account) the events
    alternate grant, revoke, grant, ... - so one is emitted exactly when membership changes. *)
Theorem c23_events_mirror_membership :
  forall h r a,
  let s := AC.run h AC.init in
  AC.has_role s r a = member_by_events r a false (AC.log s) /\
  AC.get_role_admin s r = admin_by_events r 0 (AC.log s) /\
  alternating true (membership_events r a (AC.log s)).
Proof.
  intros h r a s. assert (HM : Mirror s).
  { unfold s. clear s. assert (G : forall s, Mirror s -> Mirror (AC.run h s)).
    { induction h as [|x h IH]; intros s Hs; [exact Hs|]. apply IH, mirror_step, Hs. }
    apply G. intros r' a'. cbn. unfold AC.has_role, AC.get_role_admin; cbn.
    rewrite getd_empty, mget_empty. auto. }
  destruct (HM r a) as (H1 & H2 & _ & H4). auto.
Qed.
Print Assumptions c23_events_mirror_membership.

(** One call emits at most one event; membership events exactly for actual changes. *)
Theorem c23_event_iff_change :
  forall s c o,
  exists l, AC.log (AC.step s (c, o)) = AC.log s ++ l /\ (length l <= 1)%nat /\
  (forall r a x, l = [AC.RoleGranted r a x] <->
     x = c /\ AC.has_role s r a = false /\ AC.has_role (AC.step s (c, o)) r a = true) /\
  (forall r a x, l = [AC.RoleRevoked r a x] <->
     x = c /\ AC.has_role s r a = true /\ AC.has_role (AC.step s (c, o)) r a = false).
Proof.
  intros s c o. rewrite ac_step_eq.
  assert (Hsame : exists l, AC.log s = AC.log s ++ l /\ (length l <= 1)%nat /\
    (forall r a x, l = [AC.RoleGranted r a x] <-> x = c /\ AC.has_role s r a = false /\ AC.has_role s r a = true) /\
    (forall r a x, l = [AC.RoleRevoked r a x] <-> x = c /\ AC.has_role s r a = true /\ AC.has_role s r a = false)).
  { exists []. rewrite app_nil_r. split; [reflexivity|]. split; [cbn; lia|].
    split; intros; split; try discriminate; intros (_ & H1 & H2); congruence. }
  assert (Hgrant : forall r a, AC.has_role s r a = false ->
    let s' := AC.mk (<[(r, a) := true]> (AC.members s)) (AC.admins s) (AC.log s ++ [AC.RoleGranted r a c]) in
    exists l, AC.log s' = AC.log s ++ l /\ (length l <= 1)%nat /\
    (forall r a x, l = [AC.RoleGranted r a x] <-> x = c /\ AC.has_role s r a = false /\ AC.has_role s' r a = true) /\
    (forall r a x, l = [AC.RoleRevoked r a x] <-> x = c /\ AC.has_role s r a = true /\ AC.has_role s' r a = false)).
  { intros r a H0 s'. eexists. split; [reflexivity|]. split; [cbn; lia|]. unfold s'.
    split; intros r' a' x; rewrite has_role_grant; change (getd false (AC.members s) (r', a')) with (AC.has_role s r' a'); split.
    - intros E; inversion E; subst. rewrite !Z.eqb_refl. auto.
    - intros (-> & H1 & H2). rewrite H1 in H2. assert (r = r' /\ a = a') as [-> ->] by lia. reflexivity.
    - discriminate.
    - intros (_ & H1 & H2). rewrite H1 in H2. destruct (_ && _) in H2; discriminate. }
  assert (Hrevoke : forall r a, AC.has_role s r a = true ->
    let s' := AC.mk (<[(r, a) := false]> (AC.members s)) (AC.admins s) (AC.log s ++ [AC.RoleRevoked r a c]) in
    exists l, AC.log s' = AC.log s ++ l /\ (length l <= 1)%nat /\
    (forall r a x, l = [AC.RoleGranted r a x] <-> x = c /\ AC.has_role s r a = false /\ AC.has_role s' r a = true) /\
    (forall r a x, l = [AC.RoleRevoked r a x] <-> x = c /\ AC.has_role s r a = true /\ AC.has_role s' r a = false)).
  { intros r a H0 s'. eexists. split; [reflexivity|]. split; [cbn; lia|]. unfold s'.
    split; intros r' a' x; rewrite has_role_revoke; change (getd false (AC.members s) (r', a')) with (AC.has_role s r' a'); split.
    - discriminate.
    - intros (_ & H1 & H2). rewrite H1 in H2. rewrite andb_false_r in H2. discriminate.
    - intros E; inversion E; subst. rewrite !Z.eqb_refl. auto.
    - intros (-> & H1 & H2). rewrite H1 in H2. assert (r = r' /\ a = a') as [-> ->] by lia. reflexivity. }
  destruct o as [r x|r x|r x|r n|r x|r x]; cbn [ac_next].
  - destruct (AC.has_role s _ c); [|exact Hsame]. destruct (AC.has_role s r x) eqn:E; [exact Hsame|apply Hgrant, E].
  - destruct (AC.has_role s _ c); [|exact Hsame]. destruct (AC.has_role s r x) eqn:E; [apply Hrevoke, E|exact Hsame].
  - destruct (c =? x); [|exact Hsame]. destruct (AC.has_role s r x) eqn:E; [apply Hrevoke, E|exact Hsame].
  - eexists. split; [reflexivity|]. split; [cbn; lia|].
    split; intros; (split; [discriminate|]); unfold AC.has_role; cbn; intros (_ & H1 & H2); congruence.
  - destruct (AC.has_role s r x) eqn:E; [exact Hsame|apply Hgrant, E].
  - destruct (AC.has_role s r x) eqn:E; [apply Hrevoke, E|exact Hsame].
Qed.
Print Assumptions c23_event_iff_change.
Example c23_nonvacuous :
  membership_events 5 2 (AC.log (AC.run ac_demo AC.init)) = [true; false].
Proof. vm_compute. reflexivity. Qed.

(** ** C24 *)
Lemma ow_step_eq s c o :
  OW.step s (c, o) =
  match o with
  | OW.OTransferOwnership n =>
      if (OW.owner s =? c) && negb (n =? 0) then OW.mk n (OW.log s ++ [OW.OwnershipTransferred (OW.owner s) n]) else s
  | OW.ORenounce =>
      if OW.owner s =? c then OW.mk 0 (OW.log s ++ [OW.OwnershipTransferred (OW.owner s) 0]) else s
  end.
Proof.
  unfold OW.step, tx; cbn [fst snd]. destruct o as [n|]; cbn [OW.exec];
    unfold OW.transfer_ownership, OW.renounce_ownership, OW.only_owner, OW._transfer_ownership; mred;
    destruct (OW.owner s =? c); cbn; try reflexivity. destruct (n =? 0); reflexivity.
Qed.

(** Outcomes of every call from every state: success conditions, effects, errors. *)
Theorem c24_outcomes :
  forall s c n,
  (c = OW.owner s -> n <> 0 ->
     OW.transfer_ownership c n s = (Ok tt, OW.mk n (OW.log s ++ [OW.OwnershipTransferred c n]))) /\
  (c = OW.owner s -> n = 0 -> OW.transfer_ownership c n s = (Err (OW.InvalidOwner 0), s)) /\
  (c = OW.owner s ->
     OW.renounce_ownership c s = (Ok tt, OW.mk 0 (OW.log s ++ [OW.OwnershipTransferred c 0]))) /\
  (c <> OW.owner s ->
     OW.transfer_ownership c n s = (Err (OW.UnauthorizedAccount c), s) /\
     OW.renounce_ownership c s = (Err (OW.UnauthorizedAccount c), s)) /\
  OW.only_owner c s = (if OW.owner s =? c then Ok tt else Err (OW.UnauthorizedAccount c), s).
Proof.
  intros [o l] c n. unfold OW.transfer_ownership, OW.renounce_ownership, OW.only_owner, OW._transfer_ownership; mred; cbn.
  repeat split; intros; subst; rewrite ?Z.eqb_refl; cbn; try reflexivity.
  - replace (n =? 0) with false by lia. reflexivity.
  - replace (o =? c) with false by lia. reflexivity.
  - replace (o =? c) with false by lia. reflexivity.
  - destruct (o =? c); reflexivity.
Qed.
Print Assumptions c24_outcomes.

(** Every history: the owner differs at the end only if some call in it was made by the
    owner in office; and the log is a faithful chain of custody. *)
Theorem c24_owner_changes_only_by_owner :
  forall h s, OW.owner (OW.run h s) <> OW.owner s ->
  exists h1 o h2, h = h1 ++ (OW.owner s, o) :: h2 /\ OW.owner (OW.run h1 s) = OW.owner s /\
    (o = OW.OTransferOwnership (OW.owner (OW.run (h1 ++ [(OW.owner s, o)]) s)) \/
     (o = OW.ORenounce /\ OW.owner (OW.run (h1 ++ [(OW.owner s, o)]) s) = 0)) /\
    OW.owner (OW.run (h1 ++ [(OW.owner s, o)]) s) <> OW.owner s.
Proof.
  induction h as [|[c o] h IH]; intros s H; [cbn in H; congruence|].
  destruct (Z.eq_dec (OW.owner (OW.step s (c, o))) (OW.owner s)) as [E|E].
  - cbn [OW.run fold_left] in H. fold (OW.run h (OW.step s (c, o))) in H. rewrite <- E in H.
    destruct (IH _ H) as (h1 & o' & h2 & -> & H1 & H2). rewrite E in *.
    exists ((c, o) :: h1), o', h2. split; [reflexivity|]. split; [exact H1|exact H2].
  - exists [], o, h. rewrite ow_step_eq in E.
    assert (Ec : OW.owner s = c). { destruct o; destruct (Z.eqb_spec (OW.owner s) c); cbn in E; congruence. }
    split; [rewrite Ec; reflexivity|]. split; [reflexivity|]. cbn [app OW.run fold_left].
    rewrite Ec, ow_step_eq. rewrite Ec in E. rewrite Ec. rewrite Z.eqb_refl in *. destruct o as [n|]; cbn in *.
    + destruct (n =? 0); cbn in *; [congruence|]. split; [left; reflexivity|exact E].
    + split; [right; split; reflexivity|exact E].
Qed.
Print Assumptions c24_owner_changes_only_by_owner.

(** Renouncing is final. The zero address cannot be a caller. *)
Theorem c24_renounced_forever :
  forall h s, Forall (fun co => fst co <> 0) h -> OW.owner s = 0 -> OW.run h s = s.
Proof.
  induction h as [|[c o] h IH]; intros s Hc H0; [reflexivity|].
  inversion Hc as [|? ? Hc0 Hch]; subst. cbn [fst] in Hc0.
  cbn [OW.run fold_left]. fold (OW.run h (OW.step s (c, o))).
  replace (OW.step s (c, o)) with s; [apply IH; assumption|].
  rewrite ow_step_eq, H0. replace (0 =? c) with false by lia. destruct o; reflexivity.
Qed.
Print Assumptions c24_renounced_forever.

Lemma owner_by_events_app l l' : forall b,
  owner_by_events b (l ++ l') = owner_by_events (owner_by_events b l) l'.
Proof. induction l as [|[] l IH]; intros b; cbn; rewrite ?IH; reflexivity. Qed.
Lemma chained_app l l' : forall b,
  chained b (l ++ l') <-> chained b l /\ chained (owner_by_events b l) l'.
Proof. induction l as [|[] l IH]; intros b; cbn; [tauto|]. rewrite IH. tauto. Qed.

Theorem c24_events_chain_of_custody :
  forall h o0, let s := OW.run h (OW.mk o0 []) in
  OW.owner s = owner_by_events o0 (OW.log s) /\ chained o0 (OW.log s).
Proof.
  intros h o0. set (s0 := OW.mk o0 []).
  assert (G : forall s, OW.owner s = owner_by_events o0 (OW.log s) /\ chained o0 (OW.log s) ->
    let s' := OW.run h s in OW.owner s' = owner_by_events o0 (OW.log s') /\ chained o0 (OW.log s')).
  { induction h as [|[c o] h IH]; intros s Hs; [exact Hs|]. apply IH. rewrite ow_step_eq.
    destruct Hs as [H1 H2]. destruct o; case_all; cbn;
      rewrite ?owner_by_events_app, ?chained_app; cbn; auto. }
  apply G. split; [reflexivity|exact I].
Qed.
Print Assumptions c24_events_chain_of_custody.

Example c24_nonvacuous :
  OW.run [(5, OW.ORenounce); (1, OW.OTransferOwnership 2); (1, OW.ORenounce); (2, OW.OTransferOwnership 0);
          (2, OW.ORenounce); (2, OW.OTransferOwnership 2)] (OW.mk 1 []) =
  OW.mk 0 [OW.OwnershipTransferred 1 2; OW.OwnershipTransferred 2 0].
Proof. reflexivity. Qed.

(** ** C25 *)
Definition o2_next (s : O2.state) (c : Z) (o : O2.op) : O2.state :=
  let w := O2.ownable s in
  match o with
  | O2.OTransferOwnership n =>
      if O2.owner s =? c then O2.mk w n (O2.log2 s ++ [O2.OwnershipTransferStarted (O2.owner s) n]) else s
  | O2.OAccept =>
      if c =? O2.pending_owner s
      then O2.mk (OW.mk c (OW.log w ++ [OW.OwnershipTransferred (O2.owner s) c])) 0 (O2.log2 s) else s
  | O2.ORenounce =>
      if O2.owner s =? c
      then O2.mk (OW.mk 0 (OW.log w ++ [OW.OwnershipTransferred (O2.owner s) 0])) 0 (O2.log2 s) else s
  end.
Lemma o2_step_eq s c o : O2.step s (c, o) = o2_next s c o.
Proof.
  destruct s as [[ow lg] p l2]. unfold O2.step, tx, o2_next, O2.owner; cbn [fst snd O2.ownable O2.pending_owner].
  destruct o as [n| |]; cbn [O2.exec];
    unfold O2.transfer_ownership, O2.renounce_ownership, O2.accept_ownership, O2.on_ownable,
      O2._transfer_ownership, OW.only_owner, OW._transfer_ownership; mred; cbn;
    [destruct (ow =? c)|destruct (c =? p)|destruct (ow =? c)]; reflexivity.
Qed.

(** Outcomes of each call in every state. *)
Theorem c25_outcomes :
  forall s c n,
  (c = O2.owner s ->
     exists s', O2.transfer_ownership c n s = (Ok tt, s') /\ O2.owner s' = O2.owner s /\
       O2.pending_owner s' = n /\ O2.log2 s' = O2.log2 s ++ [O2.OwnershipTransferStarted c n] /\
       OW.log (O2.ownable s') = OW.log (O2.ownable s)) /\
  (c <> O2.owner s -> O2.transfer_ownership c n s = (Err (OW.UnauthorizedAccount c), s)) /\
  (c = O2.pending_owner s ->
     exists s', O2.accept_ownership c s = (Ok tt, s') /\ O2.owner s' = c /\ O2.pending_owner s' = 0 /\
       OW.log (O2.ownable s') = OW.log (O2.ownable s) ++ [OW.OwnershipTransferred (O2.owner s) c] /\
       O2.log2 s' = O2.log2 s) /\
  (c <> O2.pending_owner s -> O2.accept_ownership c s = (Err (OW.UnauthorizedAccount c), s)) /\
  (c = O2.owner s ->
     exists s', O2.renounce_ownership c s = (Ok tt, s') /\ O2.owner s' = 0 /\ O2.pending_owner s' = 0 /\
       OW.log (O2.ownable s') = OW.log (O2.ownable s) ++ [OW.OwnershipTransferred c 0] /\
       O2.log2 s' = O2.log2 s) /\
  (c <> O2.owner s -> O2.renounce_ownership c s = (Err (OW.UnauthorizedAccount c), s)).
Proof.
  intros [[ow lg] p l2] c n. unfold O2.transfer_ownership, O2.renounce_ownership, O2.accept_ownership, O2.on_ownable,
      O2._transfer_ownership, OW.only_owner, OW._transfer_ownership, O2.owner; mred; cbn.
  repeat split; intros H; subst.
  - rewrite Z.eqb_refl. cbn. eexists; split; [reflexivity|]. cbn. auto.
  - replace (ow =? c) with false by lia. reflexivity.
  - rewrite Z.eqb_refl. cbn. eexists; split; [reflexivity|]. cbn. auto.
  - replace (c =? p) with false by lia. reflexivity.
  - rewrite Z.eqb_refl. cbn. eexists; split; [reflexivity|]. cbn. auto.
  - replace (ow =? c) with false by lia. reflexivity.
Qed.
Print Assumptions c25_outcomes.

Lemma o2_run_snoc h x s : O2.run (h ++ [x]) s = O2.step (O2.run h s) x.
Proof. unfold O2.run. rewrite fold_left_app. reflexivity. Qed.
Lemma visited_snoc h x : forall s, visited (h ++ [x]) s = visited h s ++ [O2.run (h ++ [x]) s].
Proof.
  induction h as [|y h IH]; intros s; cbn [visited app]; [reflexivity|].
  rewrite IH. reflexivity.
Qed.

(** Whoever is pending was nominated by the account that owned the contract then and still
    owns it now, and neither changed in between. *)
Theorem c25_pending_was_nominated_by_current_owner :
  forall h o0 a, let s := O2.run h (O2.init o0) in
  O2.pending_owner s = a -> a <> 0 ->
  exists h1 h2, h = h1 ++ (O2.owner s, O2.OTransferOwnership a) :: h2 /\
    O2.owner (O2.run h1 (O2.init o0)) = O2.owner s /\
    (forall t, In t (visited h2 (O2.run (h1 ++ [(O2.owner s, O2.OTransferOwnership a)]) (O2.init o0))) ->
       O2.owner t = O2.owner s /\ O2.pending_owner t = a).
Proof.
  intros h o0. induction h as [|[c o] h IH] using rev_ind; intros a s Hp Ha.
  - cbn in Hp. subst. congruence.
  - unfold s in *. clear s. rewrite o2_run_snoc in *. set (s := O2.run h (O2.init o0)) in *.
    specialize (IH a). cbn in IH.
    assert (Hsame : forall s', O2.step s (c, o) = s' -> O2.owner s' = O2.owner s -> O2.pending_owner s' = O2.pending_owner s ->
      O2.pending_owner s = a ->
      exists h1 h2, h ++ [(c, o)] = h1 ++ (O2.owner s', O2.OTransferOwnership a) :: h2 /\
        O2.owner (O2.run h1 (O2.init o0)) = O2.owner s' /\
        (forall t, In t (visited h2 (O2.run (h1 ++ [(O2.owner s', O2.OTransferOwnership a)]) (O2.init o0))) ->
           O2.owner t = O2.owner s' /\ O2.pending_owner t = a)).
    { intros s' Es' Ho Hpp Hpa. destruct (IH Hpa Ha) as (h1 & h2 & Eh & H1 & H2).
      rewrite Ho. exists h1, (h2 ++ [(c, o)]). split; [|split].
      - rewrite Eh at 1. rewrite <- app_assoc. reflexivity.
      - exact H1.
      - intros t Ht. rewrite visited_snoc in Ht. apply in_app_or in Ht. destruct Ht as [Ht|[<-|[]]].
        + apply H2, Ht.
        + rewrite o2_run_snoc. replace (O2.run h2 _) with s; [rewrite Es'; split; congruence|].
          unfold s. rewrite Eh at 1. unfold O2.run. rewrite !fold_left_app. reflexivity. }
    rewrite o2_step_eq in *. unfold o2_next in *. destruct o as [n| |].
    + destruct (Z.eqb_spec (O2.owner s) c) as [Ec|Ec].
      * cbn [O2.pending_owner O2.owner O2.ownable] in *. subst n. exists h, [].
        unfold O2.owner in Ec |- *. cbn [O2.ownable]. split; [rewrite Ec; reflexivity|].
        split; [reflexivity|]. intros t Ht. cbn [visited] in Ht. destruct Ht as [<-|[]].
        rewrite o2_run_snoc, o2_step_eq. fold s. unfold o2_next, O2.owner.
        rewrite Z.eqb_refl. cbn. auto.
      * apply (Hsame s); try reflexivity. exact Hp.
    + destruct (c =? O2.pending_owner s) eqn:Ec; [cbn in Hp; congruence|].
      apply (Hsame s); try reflexivity. exact Hp.
    + destruct (O2.owner s =? c) eqn:Ec; [cbn in Hp; congruence|].
      apply (Hsame s); try reflexivity. exact Hp.
Qed.
Print Assumptions c25_pending_was_nominated_by_current_owner.

(** An ownership change is either a renounce by the owner in office, or an acceptance by
    the new owner, who had been nominated by that owner with nothing in between; and right
    after it nobody is pending. Callers are non-zero. *)
Theorem c25_owner_changes_by_nomination_and_acceptance :
  forall h o0 c o, c <> 0 ->
  let s := O2.run h (O2.init o0) in let s' := O2.step s (c, o) in
  O2.owner s' <> O2.owner s ->
  O2.pending_owner s' = 0 /\
  ((o = O2.ORenounce /\ c = O2.owner s /\ O2.owner s' = 0) \/
   (o = O2.OAccept /\ O2.owner s' = c /\
    exists h1 h2, h = h1 ++ (O2.owner s, O2.OTransferOwnership c) :: h2 /\
      O2.owner (O2.run h1 (O2.init o0)) = O2.owner s /\
      (forall t, In t (visited h2 (O2.run (h1 ++ [(O2.owner s, O2.OTransferOwnership c)]) (O2.init o0))) ->
         O2.owner t = O2.owner s /\ O2.pending_owner t = c))).
Proof.
  intros h o0 c o Hc s s' Hne. unfold s' in *. rewrite o2_step_eq in *. destruct o as [n| |]; cbn [o2_next] in *.
  - destruct (O2.owner s =? c); unfold O2.owner in Hne; cbn in Hne; congruence.
  - destruct (Z.eqb_spec c (O2.pending_owner s)) as [Ec|Ec]; [|congruence].
    split; [reflexivity|]. right. split; [reflexivity|]. split; [reflexivity|].
    apply (c25_pending_was_nominated_by_current_owner h o0 c); [symmetry; exact Ec|exact Hc].
  - destruct (Z.eqb_spec (O2.owner s) c) as [Ec|Ec]; [|congruence].
    split; [reflexivity|]. left. auto.
Qed.
Print Assumptions c25_owner_changes_by_nomination_and_acceptance.

(** Re-nomination or renouncing cancels an earlier nomination: the earlier nominee's
    acceptance then fails. *)
Theorem c25_renomination_cancels :
  forall s a o, o = O2.ORenounce \/ (exists b, o = O2.OTransferOwnership b /\ b <> a) ->
  a <> 0 ->
  let s' := O2.step s (O2.owner s, o) in
  O2.accept_ownership a s' = (Err (OW.UnauthorizedAccount a), s').
Proof.
  intros s a o Ho Ha s'. destruct (c25_outcomes s' a 0) as (_ & _ & _ & H & _). apply H.
  unfold s'. rewrite o2_step_eq. destruct Ho as [->|(b & -> & Hb)]; cbn; rewrite Z.eqb_refl; cbn; congruence.
Qed.
Print Assumptions c25_renomination_cancels.

(** Once renounced and nobody pending, final for non-zero callers. *)
Theorem c25_renounced_forever :
  forall h s, Forall (fun co => fst co <> 0) h -> O2.owner s = 0 -> O2.pending_owner s = 0 ->
  O2.run h s = s.
Proof.
  induction h as [|[c o] h IH]; intros s Hc H0 H1; [reflexivity|].
  inversion Hc as [|? ? Hc0 Hch]; subst. cbn [fst] in Hc0.
  cbn [O2.run fold_left]. fold (O2.run h (O2.step s (c, o))).
  replace (O2.step s (c, o)) with s; [apply IH; assumption|].
  rewrite o2_step_eq. unfold o2_next. rewrite H0, H1.
  destruct o; [replace (0 =? c) with false by lia|replace (c =? 0) with false by lia|replace (0 =? c) with false by lia]; reflexivity.
Qed.
Print Assumptions c25_renounced_forever.

(** The [OwnershipTransferred] events are a chain of custody here too; every
    [OwnershipTransferStarted] names the nominating owner, who appears in that chain. *)
Theorem c25_events_chain_of_custody :
  forall h o0, let s := O2.run h (O2.init o0) in
  let transfers := OW.log (O2.ownable s) in
  O2.owner s = owner_by_events o0 transfers /\ chained o0 transfers /\
  (forall p n, In (O2.OwnershipTransferStarted p n) (O2.log2 s) ->
     exists k, p = owner_by_events o0 (firstn k transfers)) /\
  (forall p n, In (OW.OwnershipTransferred p n) transfers -> n <> 0 ->
     In (O2.OwnershipTransferStarted p n) (O2.log2 s)).
Proof.
  intros h o0.
  assert (G : forall s, (O2.owner s = owner_by_events o0 (OW.log (O2.ownable s)) /\
      chained o0 (OW.log (O2.ownable s)) /\
      (forall p n, In (O2.OwnershipTransferStarted p n) (O2.log2 s) ->
         exists k, p = owner_by_events o0 (firstn k (OW.log (O2.ownable s)))) /\
      (forall p n, In (OW.OwnershipTransferred p n) (OW.log (O2.ownable s)) -> n <> 0 ->
         In (O2.OwnershipTransferStarted p n) (O2.log2 s)) /\
      (O2.pending_owner s <> 0 ->
         In (O2.OwnershipTransferStarted (O2.owner s) (O2.pending_owner s)) (O2.log2 s))) ->
    let s := O2.run h s in (O2.owner s = owner_by_events o0 (OW.log (O2.ownable s)) /\
      chained o0 (OW.log (O2.ownable s)) /\
      (forall p n, In (O2.OwnershipTransferStarted p n) (O2.log2 s) ->
         exists k, p = owner_by_events o0 (firstn k (OW.log (O2.ownable s)))) /\
      (forall p n, In (OW.OwnershipTransferred p n) (OW.log (O2.ownable s)) -> n <> 0 ->
         In (O2.OwnershipTransferStarted p n) (O2.log2 s)) /\
      (O2.pending_owner s <> 0 ->
         In (O2.OwnershipTransferStarted (O2.owner s) (O2.pending_owner s)) (O2.log2 s)))).
  { induction h as [|[c o] h IH]; intros s Hs; [exact Hs|]. apply IH. rewrite o2_step_eq.
    destruct s as [[ow lg] pd l2]. unfold O2.owner in Hs.
    cbn [O2.ownable O2.pending_owner O2.log2 OW.owner OW.log] in Hs.
    destruct Hs as (H1 & H2 & H3 & H4 & H5).
    assert (grow : forall e p n, In (O2.OwnershipTransferStarted p n) l2 ->
      exists k, p = owner_by_events o0 (firstn k (lg ++ [e]))).
    { intros e p n Hin. destruct (H3 p n Hin) as [k ->].
      exists (Nat.min k (length lg)). rewrite firstn_app.
      replace (Nat.min k (length lg) - length lg)%nat with 0%nat by lia. cbn [firstn]. rewrite app_nil_r.
      destruct (Nat.le_ge_cases k (length lg)) as [L|L]; [rewrite Nat.min_l by lia; reflexivity|].
      rewrite Nat.min_r by lia. rewrite !firstn_all2 by lia. reflexivity. }
    unfold o2_next, O2.owner. cbn [O2.ownable O2.pending_owner O2.log2 OW.owner OW.log]. destruct o as [n| |].
    - destruct (Z.eqb_spec ow c) as [->|]; cbn [O2.ownable O2.pending_owner O2.log2 OW.owner OW.log];
        [|auto 10].
      split; [exact H1|]. split; [exact H2|]. split; [|split].
      + intros p n' Hin. apply in_app_or in Hin. destruct Hin as [Hin|[[= <- <-]|[]]]; [eauto|].
        exists (length lg). rewrite firstn_all. exact H1.
      + intros p n' Hin Hn. apply in_or_app. left. auto.
      + intros _. apply in_or_app. right. left. reflexivity.
    - destruct (Z.eqb_spec c pd) as [->|]; cbn [O2.ownable O2.pending_owner O2.log2 OW.owner OW.log];
        [|auto 10].
      rewrite owner_by_events_app, chained_app. cbn [owner_by_events chained].
      split; [reflexivity|]. split; [auto|]. split; [apply grow|]. split; [|congruence].
      intros p n' Hin Hn. apply in_app_or in Hin. destruct Hin as [Hin|[[= <- <-]|[]]]; auto.
    - destruct (Z.eqb_spec ow c) as [->|]; cbn [O2.ownable O2.pending_owner O2.log2 OW.owner OW.log];
        [|auto 10].
      rewrite owner_by_events_app, chained_app. cbn [owner_by_events chained].
      split; [reflexivity|]. split; [auto|]. split; [apply grow|]. split; [|congruence].
      intros p n' Hin Hn. apply in_app_or in Hin. destruct Hin as [Hin|[[= <- <-]|[]]]; [auto|congruence]. }
  intros s. destruct (G (O2.init o0)) as (A & B & C & D & _); [|auto].
  split; [reflexivity|]. split; [exact I|]. split; [intros p n []|]. split; [intros p n []|].
  cbn. congruence.
Qed.
Print Assumptions c25_events_chain_of_custody.

Definition o2_demo : list (Z * O2.op) :=
  [(1, O2.OTransferOwnership 2); (3, O2.OAccept); (1, O2.OTransferOwnership 3); (2, O2.OAccept);
   (5, O2.OTransferOwnership 5)].
Example c25_nonvacuous :
  let s := O2.run o2_demo (O2.init 1) in
  O2.owner s = 1 /\ O2.pending_owner s = 3 /\ O2.owner (O2.step s (3, O2.OAccept)) = 3 /\
  O2.owner (O2.run [(3, O2.OAccept); (3, O2.ORenounce)] s) = 0 /\
  OW.log (O2.ownable (O2.run [(3, O2.OAccept); (3, O2.ORenounce)] s)) =
    [OW.OwnershipTransferred 1 3; OW.OwnershipTransferred 3 0] /\
  O2.log2 s = [O2.OwnershipTransferStarted 1 2; O2.OwnershipTransferStarted 1 3].
Proof. repeat split. Qed.
