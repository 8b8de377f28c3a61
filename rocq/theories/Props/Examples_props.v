(** The example contracts: properties C73-C75. *)
From Coq Require Import String Ascii.
From Verif.Base Require Import Prelude Maps Bytes Keccak.
From Verif.Model Require Erc20 Erc1155 Erc1155Example AccessControl AccessExample Pausable.
From Verif.Spec Require Import Erc1155_spec Examples_spec.
From Verif.Proofs Require Import Erc1155_lemmas.
From Verif.Props Require Erc1155_props.
From stdpp Require Import gmap.
#[global] Open Scope Z_scope.

(** ** C73: examples/erc1155, a pausable ERC-1155 *)
(** While the contract is paused every call that would move tokens is refused, and nothing
    changes; *)
Theorem c73_paused_calls_refused hc c o s :
  is_paused s = true -> moves_tokens o ->
  E.exec hc c o s = (Err (E.PausableError Pausable.EnforcedPause), s).
Proof.
  intros Hp Ho. destruct s as [u [b l]]. cbn in Hp. subst b. destruct o; cbn in Ho; try contradiction; reflexivity.
Qed.
Print Assumptions c73_paused_calls_refused.
(** calls that are not paused, and approvals always, are exactly those of the plain contract; *)
Theorem c73_like_the_plain_contract hc c o t s :
  token_call o = Some t -> is_paused s = false \/ ~ moves_tokens o ->
  E.exec hc c o s =
    let '(r, u) := Erc1155.exec Erc1155.base hc c t (E.erc1155 s) in
    (match r with Ok _ => Ok tt | Err e => Err (E.Erc1155Error e) | Panic => Panic end, E.mk u (E.pausable s)).
Proof.
  intros Ht Hp. destruct s as [u [b l]].
  assert (Hb : moves_tokens o -> b = false) by (intros H; destruct Hp as [Hp|Hp]; [exact Hp|contradiction]). clear Hp.
  assert (G : forall (m : M Erc1155.state Erc1155.error unit) p,
    E.on_erc1155 m (E.mk u p) = let '(r, u') := m u in
    (match r with Ok _ => Ok tt | Err e => Err (E.Erc1155Error e) | Panic => Panic end, E.mk u' p)).
  { intros m p. unfold E.on_erc1155. mred. cbn [E.erc1155 E.pausable]. destruct (m u) as [[[]|e|] u']; reflexivity. }
  destruct o; cbn [token_call] in Ht; inversion Ht; subst t; cbn [moves_tokens] in Hb;
    try (rewrite (Hb I)); try (destruct fin); apply G.
Qed.
Print Assumptions c73_like_the_plain_contract.
(** no call but [unpause] ends a pause, and no history without one moves any token; *)
Theorem c73_paused_balances_frozen hc h s a id :
  is_paused s = true -> Forall (fun co => snd co <> E.Unpause) h ->
  is_paused (E.run hc h s) = true /\ token_balance (E.run hc h s) a id = token_balance s a id.
Proof.
  intros Hp H. revert s Hp. induction H as [|[c o] h Ho _ IH]; intros s Hp; [auto|].
  cbn [E.run fold_left]. fold (E.run hc h (E.step hc s (c, o))).
  assert (G : is_paused (E.step hc s (c, o)) = true /\ token_balance (E.step hc s (c, o)) a id = token_balance s a id).
  { unfold E.step. cbn [fst snd]. cbn in Ho.
    pose proof (c73_paused_calls_refused hc c o s Hp) as Q.
    destruct o; try (unfold tx; rewrite (Q I); split; [exact Hp|reflexivity]).
    - unfold tx. rewrite (c73_like_the_plain_contract hc c (E.SetApprovalForAll operator approved) _ s eq_refl (or_intror (fun x => x))).
      cbn [Erc1155.exec Erc1155.base Erc1155.sys_set_approval_for_all].
      destruct (Erc1155.set_approval_for_all c operator approved (E.erc1155 s)) as [[[]|e|] u] eqn:Eu; cbn [snd]; auto.
      apply set_all_inv in Eu. destruct Eu as [_ ->]. split; [exact Hp|reflexivity].
    - destruct s as [u [b l]]. cbn in Hp. subst b. split; reflexivity.
    - congruence. }
  destruct G as [G1 G2]. destruct (IH _ G1) as [I1 I2]. split; [exact I1|]. rewrite I2. exact G2.
Qed.
Print Assumptions c73_paused_balances_frozen.
(** and whatever happens, the tokens are in a state the plain contract can reach, so that
    all that is proved of it (C44-C48) holds here. *)
Theorem c73_tokens_reachable hc h :
  Forall call_wf h -> reachable (E.erc1155 (E.run hc h E.init)).
Proof.
  intros Hw. exists hc.
  assert (G : forall s, exists h', nodes node_wf h' /\ E.erc1155 (E.run hc h s) = Erc1155.run Erc1155.base hc h' (E.erc1155 s)).
  { induction Hw as [|[c o] h Ho _ IH]; intros s; [exists []; split; [exact I|reflexivity]|].
    cbn [E.run fold_left]. fold (E.run hc h (E.step hc s (c, o))). destruct (IH (E.step hc s (c, o))) as (h' & Hn & ->).
    assert (D : E.erc1155 (E.step hc s (c, o)) = E.erc1155 s \/
       exists t, token_call o = Some t /\ E.erc1155 (E.step hc s (c, o)) = snd (tx (Erc1155.exec Erc1155.base hc c t) (E.erc1155 s))).
    { unfold E.step. cbn [fst snd]. destruct (token_call o) as [t|] eqn:Et.
      - assert (C : (is_paused s = true /\ moves_tokens o) \/ (is_paused s = false \/ ~ moves_tokens o)).
        { destruct (is_paused s); [|auto]. destruct o; cbn [moves_tokens]; auto. }
        destruct C as [[C1 C2]|C].
        + left. unfold tx. rewrite (c73_paused_calls_refused hc c o s C1 C2). reflexivity.
        + right. exists t. split; [reflexivity|]. unfold tx. rewrite (c73_like_the_plain_contract hc c o t s Et C).
          destruct (Erc1155.exec Erc1155.base hc c t (E.erc1155 s)) as [[[]|e|] u]; reflexivity.
      - left. destruct s as [u [b l]]. destruct o; cbn in Et; try discriminate; destruct b; reflexivity. }
    destruct D as [D|(t & Et & D)].
    - exists h'. rewrite D. auto.
    - exists ((c, t) :: h'). split; [|rewrite D; reflexivity]. unfold call_wf in Ho. cbn [fst snd] in Ho. rewrite Et in Ho.
      unfold nodes. cbn [Erc1155.of_list calls_nodes]. split; [|exact Hn].
      destruct o; cbn in Et; try discriminate; inversion Et; subst t; cbn [op_nodes calls_nodes]; auto. }
  destruct (G E.init) as (h' & Hn & Eq). exists h'. auto.
Qed.
Print Assumptions c73_tokens_reachable.
(** A pause in the middle of a history. *)
Example c73_nonvacuous :
  let h := [(1, E.Mint 1 5 10 [] (Erc1155.Returned 0)); (7, E.Pause); (1, E.SafeTransferFrom 1 2 5 3 [] (Erc1155.Returned 0));
            (1, E.SetApprovalForAll 4 true)] in
  let s := E.run (fun _ => false) h E.init in
  is_paused s = true /\ token_balance s 1 5 = 10 /\ token_balance s 2 5 = 0 /\
  Erc1155.is_approved_for_all 1 4 (E.erc1155 s) = true /\
  token_balance (E.run (fun _ => false) [(8, E.Unpause); (4, E.SafeTransferFrom 1 2 5 3 [] (Erc1155.Returned 0))] s) 2 5 = 3.
Proof. cbv zeta. repeat match goal with |- _ /\ _ => split end; vm_compute; reflexivity. Qed.

(** ** C74: examples/access-control *)
(** The role is the hash the source computes. *)
Theorem c74_transfer_role_hash :
  AccessExample.TRANSFER_ROLE = keccak256 (map (fun a => Z.of_N (N_of_ascii a)) (list_ascii_of_string "TRANSFER_ROLE"%string)).
Proof. vm_compute. reflexivity. Qed.
Print Assumptions c74_transfer_role_hash.
(** [transfer_from] is the token's, for holders of the role only. *)
Theorem c74_transfer_from_guarded s c f t v :
  (holds s A.TRANSFER_ROLE c ->
     A.transfer_from c f t v s =
       let '(r, u) := Erc20.transfer_from c f t v (A.erc20 s) in
       (match r with Ok b => Ok b | Err e => Err (A.Erc20Error e) | Panic => Panic end, A.mk u (A.access s))) /\
  (~ holds s A.TRANSFER_ROLE c ->
     A.transfer_from c f t v s = (Err (A.AccessError (AccessControl.UnauthorizedAccount c A.TRANSFER_ROLE)), s)).
Proof.
  unfold holds, A.transfer_from, A.on_access, A.on_erc20, AccessControl.only_role, AccessControl._check_role. destruct s as [u x]. mred.
  cbn [A.access A.erc20]. destruct (AccessControl.has_role x A.TRANSFER_ROLE c); cbn [negb]; split; intros H; try congruence.
  cbn [A.erc20 A.access]. destruct (Erc20.transfer_from c f t v u) as [[b|e|] u']; reflexivity.
Qed.
Print Assumptions c74_transfer_from_guarded.
Lemma on_access_eq (m : M AccessControl.state AccessControl.error unit) s :
  A.on_access m s = let '(r, x) := m (A.access s) in
    (match r with Ok _ => Ok tt | Err e => Err (A.AccessError e) | Panic => Panic end, A.mk (A.erc20 s) x).
Proof. unfold A.on_access. mred. destruct (m (A.access s)) as [[[]|e|] x]; reflexivity. Qed.
Lemma grant_cases c r a x :
  (AccessControl.has_role x (AccessControl.get_role_admin x r) c = true /\
   exists x', AccessControl.grant_role c r a x = (Ok tt, x') /\ AccessControl.admins x' = AccessControl.admins x /\
     forall r' a', AccessControl.has_role x' r' a' = true <-> AccessControl.has_role x r' a' = true \/ (r' = r /\ a' = a)) \/
  (AccessControl.has_role x (AccessControl.get_role_admin x r) c = false /\
   AccessControl.grant_role c r a x = (Err (AccessControl.UnauthorizedAccount c (AccessControl.get_role_admin x r)), x)).
Proof.
  unfold AccessControl.grant_role, AccessControl.only_role, AccessControl._check_role, AccessControl._grant_role. mred.
  destruct (AccessControl.has_role x (AccessControl.get_role_admin x r) c) eqn:E1; cbn [negb]; [left|right; auto].
  split; [reflexivity|]. destruct (AccessControl.has_role x r a) eqn:E2.
  - eexists. split; [reflexivity|]. split; [reflexivity|]. intros r' a'. split; [auto|]. intros [H|[-> ->]]; assumption.
  - eexists. split; [reflexivity|]. split; [reflexivity|]. intros r' a'.
    unfold AccessControl.has_role, getd. cbn [AccessControl.members].
    destruct (decide ((r, a) = (r', a'))) as [E|E].
    + rewrite E, lookup_insert. inversion E; subst. cbn. tauto.
    + rewrite lookup_insert_ne by exact E. split; [auto|]. intros [H|[-> ->]]; [exact H|congruence].
Qed.
(** [make_admin] needs the default admin role and the role's current admin role, and then
    grants the transfer role and nothing else. *)
Theorem c74_make_admin s c a s' :
  A.make_admin c a s = (Ok tt, s') ->
  holds s AccessControl.DEFAULT_ADMIN_ROLE c /\ may_administer s c A.TRANSFER_ROLE /\
  A.erc20 s' = A.erc20 s /\ (forall r, admin_of s' r = admin_of s r) /\
  (forall r x, holds s' r x <-> holds s r x \/ (r = A.TRANSFER_ROLE /\ x = a)).
Proof.
  unfold A.make_admin. intros H. apply bind_ok in H. destruct H as ([] & s1 & H1 & H2).
  rewrite on_access_eq in H1, H2. unfold AccessControl.only_role, AccessControl._check_role in H1. mred_in H1.
  destruct (AccessControl.has_role (A.access s) AccessControl.DEFAULT_ADMIN_ROLE c) eqn:E1; cbn [negb] in H1; inversion H1; subst s1.
  split; [exact E1|]. cbn [A.access A.erc20] in H2.
  destruct (grant_cases c A.TRANSFER_ROLE a (A.access s)) as [(G1 & x & Gx & Ga & Gr)|(G1 & Gx)]; rewrite Gx in H2; [|discriminate].
  inversion H2; subst s'. split; [exact G1|]. split; [reflexivity|]. unfold admin_of, AccessControl.get_role_admin. cbn [A.access].
  rewrite Ga. split; [reflexivity|]. exact Gr.
Qed.
Print Assumptions c74_make_admin.
Theorem c74_make_admin_iff s c a :
  (exists s', A.make_admin c a s = (Ok tt, s')) <->
  holds s AccessControl.DEFAULT_ADMIN_ROLE c /\ may_administer s c A.TRANSFER_ROLE.
Proof.
  split.
  - intros (s' & H). apply c74_make_admin in H. tauto.
  - intros [H1 H2]. unfold A.make_admin. destruct (grant_cases c A.TRANSFER_ROLE a (A.access s)) as [(G1 & x & Gx & _)|(G1 & _)].
    + exists (A.mk (A.erc20 s) x). apply bind_ok. exists tt, s. rewrite !on_access_eq, Gx. split; [|reflexivity].
      unfold AccessControl.only_role, AccessControl._check_role. mred. unfold holds in H1. rewrite H1. destruct s; reflexivity.
    + unfold may_administer, holds, admin_of in H2. congruence.
Qed.
Print Assumptions c74_make_admin_iff.

(** Somebody who holds no role can change no membership, in spite of the public
    [set_role_admin]: *)
Theorem c74_outsiders_change_no_membership s h :
  Forall (fun co => forall r, ~ holds s r (fst co)) h ->
  forall r a, holds (A.run h s) r a <-> holds s r a.
Proof.
  intros H.
  assert (S1 : forall s1 c o, (forall r, ~ holds s1 r c) -> forall r a, holds (A.step s1 (c, o)) r a <-> holds s1 r a).
  { clear. intros s c o Hc r a. unfold A.step. cbn [fst snd]. 
    assert (Hf : forall r, AccessControl.has_role (A.access s) r c = false).
    { intros r0. specialize (Hc r0). unfold holds in Hc. destruct (AccessControl.has_role (A.access s) r0 c); congruence. }
    assert (E20 : forall (m : M Erc20.state Erc20.error bool), A.access (snd (tx (A.on_erc20 m ;;; ret tt) s)) = A.access s).
    { intros m. unfold tx, A.on_erc20. mred. destruct (m (A.erc20 s)) as [[b|e|] u]; reflexivity. }
    unfold holds. destruct o; cbn [A.exec].
    - unfold A.make_admin. unfold tx, bind. rewrite on_access_eq. unfold AccessControl.only_role, AccessControl._check_role. mred.
      rewrite Hf. cbn. tauto.
    - unfold A.transfer_from, tx. unfold A.on_access, AccessControl.only_role, AccessControl._check_role. mred.
      rewrite Hf. cbn. tauto.
    - unfold A.set_role_admin, tx. rewrite on_access_eq. unfold AccessControl._set_role_admin. mred. cbn. tauto.
    - rewrite E20. tauto.
    - rewrite E20. tauto.
    - unfold tx. rewrite on_access_eq. destruct (grant_cases c role account (A.access s)) as [(G1 & _)|(_ & Gx)].
      + rewrite Hf in G1. discriminate.
      + rewrite Gx. cbn. tauto.
    - unfold tx. rewrite on_access_eq. unfold AccessControl.revoke_role, AccessControl.only_role, AccessControl._check_role. mred.
      rewrite Hf. cbn. tauto.
    - unfold tx. rewrite on_access_eq. unfold AccessControl.renounce_role, AccessControl._revoke_role. mred.
      destruct (Z.eqb_spec c confirmation) as [<-|]; cbn [negb]; [|cbn; tauto]. rewrite Hf. cbn. tauto. }
  assert (G : forall s1, (forall r a, holds s1 r a <-> holds s r a) -> forall r a, holds (A.run h s1) r a <-> holds s r a).
  { induction H as [|[c o] h Hc _ IH]; intros s1 Hs1; [exact Hs1|].
    cbn [A.run fold_left]. fold (A.run h (A.step s1 (c, o))). apply IH. intros r a. rewrite S1; [apply Hs1|].
    intros r'. rewrite Hs1. apply Hc. }
  apply G. tauto.
Qed.
Print Assumptions c74_outsiders_change_no_membership.
(** but whoever holds any role at all can give every role to everybody in two calls, *)
Theorem c74_any_member_takes_over s c r x a :
  holds s r c -> holds (A.run [(c, A.SetRoleAdmin x r); (c, A.Grant x a)] s) x a.
Proof.
  intros H. cbn [A.run fold_left]. unfold A.step. cbn [fst snd A.exec].
  unfold tx at 2. unfold A.set_role_admin. rewrite on_access_eq. unfold AccessControl._set_role_admin. mred. cbn [snd].
  unfold tx. rewrite on_access_eq. cbn [A.access].
  match goal with |- context [AccessControl.grant_role c x a ?y] => destruct (grant_cases c x a y) as [(_ & x' & -> & _ & G)|(G & _)] end.
  - cbn [snd]. unfold holds. cbn [A.access]. apply G. auto.
  - exfalso. unfold AccessControl.get_role_admin in G. cbn [AccessControl.admins] in G. rewrite mget_set_eq in G.
    unfold holds in H. unfold AccessControl.has_role in *. cbn [AccessControl.members] in G. congruence.
Qed.
Print Assumptions c74_any_member_takes_over.
(** so it is not true that a role is only ever gained from an account that held its admin
    role: the transfer role suffices to become default admin. *)
Theorem c74_role_admins_decide_refuted :
  exists deployer s c r, arrived deployer s /\ ~ may_administer s c r /\ ~ holds s r c /\
    holds (A.run [(c, A.SetRoleAdmin r A.TRANSFER_ROLE); (c, A.Grant r c)] s) r c.
Proof.
  exists 1, (A.run [(1, A.MakeAdmin 2)] (A.init 1)), 2, AccessControl.DEFAULT_ADMIN_ROLE.
  split; [eexists; reflexivity|]. split; [vm_compute; discriminate|]. split; [vm_compute; discriminate|].
  apply c74_any_member_takes_over. vm_compute. reflexivity.
Qed.
Print Assumptions c74_role_admins_decide_refuted.
Example c74_nonvacuous :
  let s := A.run [(1, A.MakeAdmin 2)] (A.init 1) in
  holds s A.TRANSFER_ROLE 2 /\ fst (A.transfer_from 2 3 4 0 s) = Ok true /\
  fst (A.transfer_from 1 3 4 0 s) = Err (A.AccessError (AccessControl.UnauthorizedAccount 1 A.TRANSFER_ROLE)) /\
  fst (A.transfer_from 2 3 4 1 s) <> Ok true.
Proof. cbv zeta. repeat match goal with |- _ /\ _ => split end; vm_compute; try reflexivity; discriminate. Qed.

(** ** C75: examples/erc1155-supply exposes [_burn] and [_burn_batch] as they are *)
Import Erc1155.
(** Anybody can burn anybody's tokens: the call succeeds exactly if they are there, *)
Theorem c75_anybody_can_burn s has_code c a id v :
  supply_reachable supply_entry s -> is_u256 v ->
  (exists s', exec supply has_code c (IBurn a id v) s = (Ok tt, s')) <->
  a <> 0 /\ v <= balance_of a id (erc1155 s).
Proof.
  intros HR Hv. apply Erc1155_props.supply_tracked in HR. destruct HR as (HI & _). pose proof (inv_range _ HI a id) as HB.
  assert (Hx : forall s0, exec supply has_code c (IBurn a id v) s0 =
     (fail_if (a =? 0) (InvalidSender a) ;;; supply_update c a 0 [id] [v] ;;; ret tt) s0) by reflexivity.
  rewrite Hx. unfold bind at 1, fail_if at 1. destruct (Z.eqb_spec a 0) as [->|Ha].
  { split; [intros (s' & H); discriminate|intros [H _]; contradiction]. }
  unfold supply_update, on_base, _update, require_equal_arrays_length. cbn [combine do_updates length Nat.eqb]. unfold do_update, emit, supply_sub.
  mred. cbn [negb Z.eqb]. destruct (Z.eqb_spec a 0); [contradiction|]. cbn [negb].
  destruct (Z.ltb_spec (balance_of a id (erc1155 s)) v) as [Hl|Hl].
  - split; [intros (s' & H); discriminate|intros [_ H]; lia].
  - split; [auto|]. intros _. eexists. reflexivity.
Qed.
Print Assumptions c75_anybody_can_burn.
(** so "only a holder or its operator can burn" fails. *)
Theorem c75_only_holder_or_operator_refuted :
  exists s has_code c a id v s',
    supply_reachable supply_entry s /\ c <> a /\ ~ operator (erc1155 s) a c /\ 0 < v /\
    balance_of a id (erc1155 s) = v /\ exec supply has_code c (IBurn a id v) s = (Ok tt, s') /\
    balance_of a id (erc1155 s') = 0.
Proof.
  pose (h := [(1, IMint 1 5 10 [] CNil (Returned 0))]).
  eexists (run supply (fun _ => false) h supply_init), (fun _ => false), 2, 1, 5, 10, _. split.
  - exists (fun _ => false), h. split; [|reflexivity]. assert (two256 > 1000) by reflexivity.
    cbn. unfold node_wf, is_u256; cbn. repeat split; try discriminate; repeat constructor; unfold is_u256; lia.
  - split; [lia|]. split; [vm_compute; discriminate|]. split; [lia|]. split; [vm_compute; reflexivity|].
    split; [reflexivity|]. vm_compute. reflexivity.
Qed.
Print Assumptions c75_only_holder_or_operator_refuted.
(** What does hold: tokens leave a holder, otherwise than by these burns, only in a transfer
    by the holder or an operator (receivers only answer: the example is not re-entrant). *)
Theorem c75_transfers_authorized_partial s has_code c o s' a id :
  supply_reachable supply_entry s -> supply_entry o -> node_wf c o -> op_body o = CNil ->
  exec supply has_code c o s = (Ok tt, s') ->
  balance_of a id (erc1155 s') < balance_of a id (erc1155 s) ->
  (exists t ids vs, op_move o = Some (a, t, ids, vs)) /\
  ((exists i v, o = IBurn a i v) \/ (exists is vs, o = IBurnBatch a is vs) \/ c = a \/ operator (erc1155 s) a c).
Proof.
  intros HR Hs Hcw Hb H Hlt. pose proof Hcw as [_ Hw]. apply Erc1155_props.supply_tracked in HR. pose proof HR as (HI & _).
  apply exec_front in H. destruct H as (s1 & Hf & Hs').
  pose proof (tracked_front _ _ _ _ Hcw Hs HR Hf) as (HI1 & _).
  assert (s' = s1) as -> by (destruct Hs' as [->| ->]; [reflexivity|rewrite Hb; reflexivity]). clear Hs' Hb.
  assert (U : forall f t is vs, Forall is_u256 vs -> supply_update c f t is vs s = (Ok tt, s1) -> f = a).
  { intros f t is vs Hv Hu. unfold supply_update in Hu. apply bind_ok in Hu. destruct Hu as ([] & s2 & H1 & H2).
    apply on_base_ok in H1. destruct H1 as (b & Hb & ->).
    assert (Eb : erc1155 s1 = b).
    { apply bind_ok in H2. destruct H2 as ([] & s3 & H2 & H3).
      assert (Eadd : forall l x x', supply_add l x = (Ok tt, x') -> erc1155 x' = erc1155 x).
      { clear. induction l as [|[i v] l IH]; intros x x' H; [inversion H; reflexivity|].
        cbn [supply_add] in H. unfold cadd in H. mred_in H. destruct (_ <? _); [|discriminate].
        apply IH in H. rewrite H. reflexivity. }
      assert (Esub : forall l x x', supply_sub l x = (Ok tt, x') -> erc1155 x' = erc1155 x).
      { clear. induction l as [|[i v] l IH]; intros x x' H; [inversion H; reflexivity|].
        cbn [supply_sub] in H. mred_in H. apply IH in H. rewrite H. reflexivity. }
      assert (E3 : erc1155 s3 = b).
      { destruct (f =? 0); [|inversion H2; reflexivity]. apply bind_ok in H2. destruct H2 as ([] & s4 & H4 & H2).
        apply Eadd in H4. mred_in H2. destruct (_ <? _); [|discriminate]. inversion H2. cbn. exact H4. }
      destruct (t =? 0); [|inversion H3; subst; reflexivity]. apply bind_ok in H3. destruct H3 as ([] & s4 & H4 & H3).
      apply Esub in H4. mred_in H3. inversion H3. cbn. congruence. }
    rewrite Eb in Hlt. apply update_ok in Hb; [|exact Hv|apply HI]. destruct Hb as (_ & (B & _) & _).
    rewrite B in Hlt. unfold share in Hlt. pose proof (amount_nonneg (combine is vs) id (combine_snd _ _ _ Hv)).
    destruct (Z.eqb_spec f a) as [->|]; [reflexivity|]. cbn [andb] in Hlt. destruct ((t =? a) && negb (a =? 0)); lia. }
  assert (Au : forall f x, on_base (authorize_transfer c f) s = (Ok tt, x) -> x = s /\ authorized (erc1155 s) c f).
  { intros f x Hx. apply on_base_ok in Hx. destruct Hx as (y & Hy & ->). apply authorize_ok in Hy. destruct Hy as [Hy ->].
    destruct s; auto. }
  destruct o; cbn [supply_entry] in Hs; try contradiction;
    cbn [front op_move supply sys_update sys_authorize sys_set_approval_for_all] in Hf, Hw |- *.
  1,2: apply bind_ok in Hf; destruct Hf as ([] & s0 & Ha & Hf); apply Au in Ha; destruct Ha as [-> Ha];
    apply bind_fail_if in Hf; destruct Hf as [Ht Hf]; apply bind_fail_if in Hf; destruct Hf as [Hf0 Hf];
    apply U in Hf; [|exact Hw]; subst from; split; [eauto|]; right; right; destruct Ha as [->|Ha]; auto.
  1: apply on_base_ok in Hf; destruct Hf as (x & Hx & ->); apply set_all_inv in Hx; destruct Hx as [_ ->]; cbn in Hlt;
    unfold balance_of in Hlt; cbn in Hlt; lia.
  1,2: apply bind_fail_if in Hf; destruct Hf as [Ht Hf]; apply U in Hf; [|exact Hw]; subst a; exfalso;
    rewrite (inv_zero _ HI), (inv_zero _ HI1) in Hlt; lia.
  1,2: apply bind_fail_if in Hf; destruct Hf as [Ht Hf]; apply U in Hf; [|exact Hw]; subst from; (split; [eauto|]).
  - left. eauto.
  - right; left. eauto.
Qed.
Print Assumptions c75_transfers_authorized_partial.
