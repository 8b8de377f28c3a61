(** ERC-721: properties C32-C37. *)
From Verif.Base Require Import Prelude Maps.
From Verif.Model Require Erc721.
From Verif.Spec Require Import Erc721_spec.
From Verif.Proofs Require Import Erc721_lemmas.
From stdpp Require Import gmap.
Import Erc721.
#[global] Open Scope Z_scope.

(** ** C32 *)
Theorem c32_balance_counts_tokens s a :
  reachable s -> a <> 0 ->
  exists l, tokens_of s a l /\ balance s a (Z.of_nat (length l) mod two256) /\
            ((exists j, is_u256 j /\ ~ owner s j a) ->
             Z.of_nat (length l) < two256 /\ balance s a (Z.of_nat (length l))).
Proof.
  intros HR Ha. apply reachable_inv in HR.
  destruct (inv_count s HR a Ha) as (l & Hn & Hl & Hb). exists l.
  split; [|split].
  - split; [exact Hn|]. intros id. rewrite Hl, owner_iff. tauto.
  - apply balance_iff. auto.
  - intros (j & Hj & Hnj). rewrite owner_iff in Hnj.
    assert (B : Z.of_nat (length l) < two256).
    { apply (ids_bound_strict l j); auto.
      - intros i Hi. apply (inv_ids s HR). apply Hl in Hi. congruence.
      - rewrite Hl. tauto. }
    split; [exact B|]. apply balance_iff. split; [exact Ha|]. rewrite Hb. apply Z.mod_small. lia.
Qed.
Print Assumptions c32_balance_counts_tokens.

Theorem c32_unique_owner s id a b : owner s id a -> owner s id b -> a = b.
Proof. apply owner_fun. Qed.
Print Assumptions c32_unique_owner.

Theorem c32_zero_address_owns_nothing s id : ~ owner s id 0.
Proof. rewrite owner_iff. tauto. Qed.
Print Assumptions c32_zero_address_owns_nothing.

(** A history with a re-entrant receiver: account 9 (a contract) gets token 5 from 1 and
    during the callback passes it on to 2 and approves 3 for token 6. *)
Definition demo_code (a : Z) : bool := a =? 9.
Definition demo : history :=
  [(1, IMint 1 5); (1, IMint 9 6); (1, Approve 4 5);
   (4, SafeTransferFrom 1 9 5 [7] (CCons 9 (TransferFrom 9 2 5) (CCons 9 (Approve 3 6) CNil))
                        (Returned RECEIVER_FN_SELECTOR));
   (3, SafeTransferFrom 9 9 6 [] CNil (Returned 0))].
Lemma demo_wf : well_formed demo.
Proof.
  assert (two256 > 1000) by reflexivity.
  cbn. unfold node_wf, is_u256; cbn. repeat split; try lia; try discriminate.
Qed.
Example c32_demo :
  let s := run demo_code demo init in
  reachable s /\ owner s 5 2 /\ owner s 6 9 /\ balance s 1 0 /\ balance s 9 1 /\ balance s 2 1
  /\ approved s 6 3.
Proof.
  split; [exists demo_code, demo; split; [apply demo_wf|reflexivity]|].
  repeat split; vm_compute; reflexivity.
Qed.

(** ** C33 *)
Theorem c33_transfer_from_iff s caller from to id :
  reachable s -> caller <> 0 ->
  (exists s', tx (transfer_from caller from to id) s = (Ok tt, s')) <->
  owner s id from /\ to <> 0 /\ may_move s id from caller.
Proof.
  intros HR Hc. apply reachable_inv in HR. split.
  - intros [s' H]. rewrite tx_ok in H; apply transfer_from_ok in H; [|exact Hc]. destruct H as (Ht & Ho & Ha & _).
    apply (auth_iff s from caller id HR Hc Ho) in Ha. rewrite owner_iff. tauto.
  - intros (Ho & Ht & Hm). apply owner_iff in Ho. exists (upd_state to id s).
    apply tx_ok, transfer_from_ok; [exact Hc|]. destruct Ho as [H0 Ho].
    split; [exact Ht|]. split; [exact Ho|]. split; [|reflexivity].
    apply (auth_iff s from caller id HR Hc Ho). auto.
Qed.
Print Assumptions c33_transfer_from_iff.

Theorem c33_transfer_from_effect s s' caller from to id :
  reachable s -> caller <> 0 ->
  tx (transfer_from caller from to id) s = (Ok tt, s') ->
  owner s' id to /\ approved s' id 0 /\
  (forall j a, j <> id -> (owner s' j a <-> owner s j a) /\ (approved s' j a <-> approved s j a)) /\
  (forall o p, operator s' o p <-> operator s o p) /\
  log s' = log s ++ [Transfer from to id] /\
  (forall a n, a <> from -> a <> to -> balance s' a n <-> balance s a n) /\
  (forall n, from = to -> room s -> balance s' from n <-> balance s from n) /\
  (forall n, from <> to -> room s -> balance s from n -> balance s' from (n - 1) /\ 0 < n) /\
  (forall n, from <> to -> room s -> balance s to n -> balance s' to (n + 1) /\ n + 1 < two256).
Proof.
  intros HR Hc H. apply reachable_inv in HR. rewrite tx_ok in H; apply transfer_from_ok in H; [|exact Hc].
  destruct H as (Ht & Ho & Ha & ->). apply (auth_iff s from caller id HR Hc Ho) in Ha. destruct Ha as [Hf Hm].
  assert (Hown : forall i, _owner_of i (upd_state to id s) = if decide (id = i) then to else _owner_of i s)
    by (intros; apply owner_upd).
  assert (Happ : forall i, _get_approved i (upd_state to id s) = if decide (id = i) then 0 else _get_approved i s)
    by (intros; apply approved_upd; apply (inv_appr s HR)).
  assert (Hid : is_u256 id) by (apply (inv_ids s HR); congruence).
  pose proof (inv_upd to id s Hid HR) as HR'.
  assert (Bal : forall a, a <> 0 -> mget (balances (upd_state to id s)) a mod two256 =
     (mget (balances s) a - (if from =? a then 1 else 0) + (if to =? a then 1 else 0)) mod two256).
  { intros a Ha. rewrite balances_upd by exact Ha. rewrite Ho. reflexivity. }
  assert (Rg : forall s0 a, Inv s0 -> a <> 0 -> is_u256 (mget (balances s0) a)).
  { intros s0 a HI Ha. destruct (inv_count s0 HI a Ha) as (l & _ & _ & ->). unfold is_u256.
    apply Z.mod_pos_bound. reflexivity. }
  assert (Bs : forall a, a <> 0 -> mget (balances (upd_state to id s)) a =
     (mget (balances s) a - (if from =? a then 1 else 0) + (if to =? a then 1 else 0)) mod two256).
  { intros a Ha. rewrite <- Bal by exact Ha. symmetry. apply Z.mod_small. apply (Rg _ a HR' Ha). }
  split; [apply owner_iff; rewrite Hown, decide_True by reflexivity; auto|].
  split; [apply approved_iff; rewrite Hown, Happ, !decide_True by reflexivity; auto|].
  split.
  { intros j a Hj. rewrite !owner_iff, !approved_iff, Hown, Happ, !decide_False by congruence. tauto. }
  split; [intros; unfold operator, is_approved_for_all; reflexivity|].
  split; [unfold upd_state; cbn; rewrite Ho; reflexivity|].
  split.
  { intros a n Ha1 Ha2. rewrite !balance_iff. destruct (Z.eq_dec a 0) as [E0|E0]; [tauto|].
    rewrite Bs by exact E0.
    rewrite (proj2 (Z.eqb_neq from a)), (proj2 (Z.eqb_neq to a)) by congruence.
    rewrite Z.sub_0_r, Z.add_0_r, Z.mod_small by (apply Rg; assumption). tauto. }
  split.
  { intros n -> _. rewrite !balance_iff. rewrite Bs by exact Hf. rewrite Z.eqb_refl.
    replace (mget (balances s) to - 1 + 1) with (mget (balances s) to) by lia.
    rewrite Z.mod_small by (apply Rg; assumption). tauto. }
  assert (Hroom : room s -> forall a, a <> 0 -> exists l : list Z, NoDup l /\ (forall i, i ∈ l <-> _owner_of i s = a) /\
     mget (balances s) a = Z.of_nat (length l)).
  { intros (j & Hj & Hnj) a Ha. rewrite exists_iff in Hnj.
    destruct (inv_exact s a j HR Ha Hj) as (l & ? & ? & ? & ?); [intros E; apply Hnj; congruence|].
    exists l. auto. }
  split.
  - intros n Hne Hr. rewrite !balance_iff. intros [_ <-]. rewrite Bs by exact Hf.
    rewrite Z.eqb_refl, (proj2 (Z.eqb_neq to from)) by congruence.
    destruct (Hroom Hr from Hf) as (l & Hn & Hl & E).
    assert (Hin : id ∈ l) by (apply Hl; exact Ho).
    assert (0 < Z.of_nat (length l)) by (destruct l; [inversion Hin|cbn [length]; lia]).
    pose proof (Rg s from HR Hf) as R. unfold is_u256 in R.
    split; [|lia]. split; [exact Hf|]. rewrite Z.mod_small by lia. lia.
  - intros n Hne Hr. rewrite !balance_iff. intros [_ <-]. rewrite Bs by exact Ht.
    rewrite Z.eqb_refl, (proj2 (Z.eqb_neq from to)) by congruence.
    destruct Hr as (j & Hj & Hnj). rewrite exists_iff in Hnj.
    destruct (inv_exact s to id HR Ht Hid) as (l & Hn & Hl & E & B); [congruence|].
    (* [id] and [j] are both missing from [l] *)
    assert (B2 : Z.of_nat (length (id :: l)) < two256).
    { apply (ids_bound_strict _ j).
      - constructor; [|exact Hn]. rewrite Hl. congruence.
      - intros i Hi. apply (inv_ids s HR). apply elem_of_cons in Hi. destruct Hi as [->|Hi]; [congruence|].
        apply Hl in Hi. congruence.
      - exact Hj.
      - rewrite elem_of_cons, Hl. intros [->|H]; [|apply Hnj; congruence]. apply Hnj. congruence. }
    cbn [length] in B2. split; [|lia]. split; [exact Ht|]. rewrite Z.mod_small by lia. lia.
Qed.
Print Assumptions c33_transfer_from_effect.

(** The safe variants do what [transfer_from] does, then call the receiver. *)
Theorem c33_safe_transfer_from has_code h s s' caller from to id data :
  reachable s -> caller <> 0 ->
  tx (safe_transfer_from_with_data has_code h caller from to id data) s = (Ok tt, s') ->
  owner s id from /\ to <> 0 /\ may_move s id from caller /\
  exists s1, tx (transfer_from caller from to id) s = (Ok tt, s1) /\
             (if has_code to then snd (h to caller from id data s1) = s' else s' = s1).
Proof.
  intros HR Hc H. rewrite tx_ok in H. apply bind_ok in H. destruct H as ([] & s1 & H1 & H2).
  assert (E : exists s2, tx (transfer_from caller from to id) s = (Ok tt, s2)) by (exists s1; rewrite tx_ok; exact H1).
  apply (c33_transfer_from_iff s caller from to id HR Hc) in E. destruct E as (? & ? & ?).
  split; [assumption|]. split; [assumption|]. split; [assumption|]. exists s1.
  split; [rewrite tx_ok; exact H1|]. apply check_received_ok in H2.
  destruct H2 as [[-> ->]|[-> ->]]; reflexivity.
Qed.
Print Assumptions c33_safe_transfer_from.

(** Over whole histories, re-entrancy included: a token stays where it is as long as
    none of the accounts entitled to move it makes a call. *)
Theorem c33_token_stays_without_authorised_call has_code s id a l :
  reachable s -> owner s id a ->
  nodes (fun c o => node_wf c o /\ is_public o /\ ~ may_move s id a c) l ->
  owner (run has_code l s) id a.
Proof.
  intros HR Ho Hl. apply reachable_inv in HR.
  pose (P := fun s' => Inv s' /\ owner s' id a /\ forall c, may_move s' id a c -> c = 0 \/ may_move s id a c).
  assert (HP : P (run has_code l s)); [|apply HP].
  eapply (run_P P); [|exact Hl|].
  - intros c o s0 s1 (Hw & Hpub & Hno) (HI & Ho0 & Hm) Hf.
    split; [eapply inv_front; eauto|].
    pose proof Hw as [Hc _]. apply owner_iff in Ho0. destruct Ho0 as [Ha Ho0].
    assert (Hno0 : ~ may_move s0 id a c) by (intros X; apply Hm in X; destruct X; [congruence|contradiction]).
    assert (Upd : forall t i, i <> id ->
      owner (upd_state t i s0) id a /\
      forall c', may_move (upd_state t i s0) id a c' -> c' = 0 \/ may_move s id a c').
    { intros t i Hi. split.
      - apply owner_iff. rewrite owner_upd, decide_False by exact Hi. auto.
      - intros c' Hc'. apply Hm. unfold may_move in *. rewrite approved_iff in *.
        rewrite owner_upd, (approved_upd t i s0 id (inv_appr s0 HI id)), !decide_False in Hc' by exact Hi.
        exact Hc'. }
    assert (Auth : forall i, _is_authorized (_owner_of i s0) c i s0 = true -> i <> id).
    { intros i Hau ->. rewrite Ho0 in Hau. apply (auth_iff s0 a c id HI Hc Ho0) in Hau. tauto. }
    destruct o; cbn [front] in Hf; try contradiction.
    + apply transfer_from_ok in Hf; [|exact Hc]. destruct Hf as (_ & E & Hau & ->).
      apply Upd, Auth. rewrite E. exact Hau.
    + apply transfer_from_ok in Hf; [|exact Hc]. destruct Hf as (_ & E & Hau & ->).
      apply Upd, Auth. rewrite E. exact Hau.
    + apply approve_ok in Hf; [|exact Hc]. destruct Hf as ((_ & Hau) & ->).
      assert (Hi : token_id <> id).
      { intros ->. rewrite Ho0 in Hau. apply Hno0. unfold may_move, Erc721_spec.operator. tauto. }
      split; [apply owner_iff; auto|].
      intros c' Hc'. apply Hm. unfold may_move in *. rewrite approved_iff in *.
      unfold _get_approved in *. unfold appr_state in Hc'; cbn in Hc'. rewrite mget_set_ne in Hc' by exact Hi. exact Hc'.
    + apply set_all_ok in Hf. destruct Hf as (_ & ->).
      assert (Hi : c <> a) by (intros ->; apply Hno0; left; reflexivity).
      split; [apply owner_iff; auto|].
      intros c' Hc'. apply Hm. unfold may_move, Erc721_spec.operator in *. rewrite approved_iff in *.
      unfold is_approved_for_all in *. unfold all_state in Hc'; cbn in Hc'. rewrite getd_set in Hc'.
      rewrite decide_False in Hc' by congruence. exact Hc'.
    + apply burn_ok in Hf; [|exact Hc]. destruct Hf as (Hau & ->). apply Upd, Auth. exact Hau.
  - split; [exact HR|]. split; [exact Ho|]. auto.
Qed.
Print Assumptions c33_token_stays_without_authorised_call.

Example c33_demo :
  let s := run demo_code [(1, IMint 1 5); (1, Approve 4 5)] init in
  reachable s /\ room s /\ may_move s 5 1 4 /\ ~ may_move s 5 1 3 /\
  is_ok (fst (tx (transfer_from 4 1 2 5) s)) = true /\
  is_ok (fst (tx (transfer_from 3 1 2 5) s)) = false.
Proof.
  assert (two256 > 1000) by reflexivity.
  split.
  { exists demo_code. eexists. split; [|reflexivity]. cbn. unfold node_wf, is_u256; cbn.
    repeat split; try lia; try discriminate. }
  split.
  { exists 6. split; [unfold is_u256; lia|]. rewrite exists_iff. vm_compute. intros E. apply E. reflexivity. }
  split; [right; right; vm_compute; reflexivity|].
  split; [intros [E|[E|E]]; vm_compute in E; discriminate E|].
  split; vm_compute; reflexivity.
Qed.

(** ** C34 *)
Theorem c34_approval_cleared_on_move s s' caller id :
  reachable s -> caller <> 0 ->
  (exists from to, tx (transfer_from caller from to id) s = (Ok tt, s')
                   \/ tx (_transfer from to id) s = (Ok tt, s'))
  \/ tx (burn caller id) s = (Ok tt, s') \/ tx (_burn id) s = (Ok tt, s') ->
  forall x, approved s' id x -> x = 0.
Proof.
  intros HR Hc H x Hx. apply reachable_inv in HR. apply approved_iff in Hx. destruct Hx as [_ <-].
  assert (E : exists t, s' = upd_state t id s).
  { destruct H as [(f & t & [H|H])|[H|H]]; rewrite tx_ok in H.
    - apply transfer_from_ok in H; [|exact Hc]. exists t. tauto.
    - apply transfer_ok in H. exists t. tauto.
    - apply burn_ok in H; [|exact Hc]. exists 0. tauto.
    - apply iburn_ok in H. exists 0. tauto. }
  destruct E as [t ->]. rewrite (approved_upd t id s id (inv_appr s HR id)), decide_True by reflexivity. reflexivity.
Qed.
Print Assumptions c34_approval_cleared_on_move.

(** ... and it stays cleared through every later history in which nobody calls
    [approve] for this token. *)
Theorem c34_stays_cleared has_code s id l :
  reachable s -> (forall x, approved s id x -> x = 0) ->
  nodes (fun c o => node_wf c o /\ forall to, o <> Approve to id) l ->
  forall x, approved (run has_code l s) id x -> x = 0.
Proof.
  intros HR H0 Hl. apply reachable_inv in HR.
  pose (P := fun s' => Inv s' /\ _get_approved id s' = 0).
  assert (HP : P (run has_code l s)).
  { eapply (run_P P); [|exact Hl|].
    - intros c o s0 s1 (Hw & Hno) (HI & Hg) Hf. split; [eapply inv_front; eauto|].
      assert (Upd : forall t i, _get_approved id (upd_state t i s0) = 0).
      { intros t i. rewrite (approved_upd t i s0 id (inv_appr s0 HI id)). destruct (decide (i = id)); auto. }
      destruct o; cbn [front] in Hf.
      + apply transfer_from_ok in Hf; [|apply Hw]. destruct Hf as (_ & _ & _ & ->). apply Upd.
      + apply transfer_from_ok in Hf; [|apply Hw]. destruct Hf as (_ & _ & _ & ->). apply Upd.
      + apply approve_ok in Hf; [|apply Hw]. destruct Hf as (_ & ->).
        unfold _get_approved, appr_state; cbn. rewrite mget_set_ne; [exact Hg|].
        intros ->. apply (Hno to). reflexivity.
      + apply set_all_ok in Hf. destruct Hf as (_ & ->). exact Hg.
      + apply burn_ok in Hf; [|apply Hw]. destruct Hf as (_ & ->). apply Upd.
      + apply mint_ok in Hf. destruct Hf as (_ & _ & ->). apply Upd.
      + apply mint_ok in Hf. destruct Hf as (_ & _ & ->). apply Upd.
      + apply iburn_ok in Hf. destruct Hf as (_ & ->). apply Upd.
      + apply transfer_ok in Hf. destruct Hf as (_ & _ & _ & ->). apply Upd.
      + apply transfer_ok in Hf. destruct Hf as (_ & _ & _ & ->). apply Upd.
    - split; [exact HR|]. destruct (Z.eq_dec (_owner_of id s) 0) as [E|E]; [apply (inv_appr s HR id E)|].
      apply H0. apply approved_iff. auto. }
  intros x Hx. apply approved_iff in Hx. destruct Hx as [_ <-]. apply HP.
Qed.
Print Assumptions c34_stays_cleared.

Theorem c34_approve_iff s caller to id :
  reachable s -> caller <> 0 ->
  (exists s', tx (approve caller to id) s = (Ok tt, s')) <->
  exists o, owner s id o /\ (caller = o \/ operator s o caller).
Proof.
  intros HR Hc. split.
  - intros [s' H]. rewrite tx_ok in H; apply approve_ok in H; [|exact Hc]. destruct H as ((H0 & H1) & _).
    exists (_owner_of id s). rewrite owner_iff. auto.
  - intros (o & Ho & H). apply owner_iff in Ho. destruct Ho as [H0 <-].
    exists (appr_state to id s). apply tx_ok, approve_ok; auto.
Qed.
Print Assumptions c34_approve_iff.

Theorem c34_approve_effect s s' caller to id :
  caller <> 0 -> tx (approve caller to id) s = (Ok tt, s') ->
  approved s' id to /\
  (forall j a, j <> id -> approved s' j a <-> approved s j a) /\
  (forall j a, owner s' j a <-> owner s j a) /\ (forall a n, balance s' a n <-> balance s a n) /\
  (forall o p, operator s' o p <-> operator s o p) /\
  exists o, owner s id o /\ log s' = log s ++ [Approval o to id].
Proof.
  intros Hc H. rewrite tx_ok in H; apply approve_ok in H; [|exact Hc]. destruct H as ((H0 & _) & ->).
  split; [apply approved_iff; split; [exact H0|]; unfold _get_approved, appr_state; cbn; apply mget_set_eq|].
  split.
  { intros j a Hj. rewrite !approved_iff. unfold _get_approved, appr_state, _owner_of; cbn.
    rewrite mget_set_ne by congruence. tauto. }
  split; [intros; rewrite !owner_iff; tauto|]. split; [intros; rewrite !balance_iff; tauto|].
  split; [intros; unfold operator; tauto|]. exists (_owner_of id s). rewrite owner_iff. auto.
Qed.
Print Assumptions c34_approve_effect.

(** Operator approvals are the granting owner's: they change only when that account
    itself calls [set_approval_for_all]. *)
Theorem c34_operators_set_only_by_owner has_code s o l :
  nodes (fun c op => node_wf c op /\ (c = o -> forall p b, op <> SetApprovalForAll p b)) l ->
  forall p, operator (run has_code l s) o p <-> operator s o p.
Proof.
  intros Hl p. pose (P := fun s' => is_approved_for_all o p s' = is_approved_for_all o p s).
  assert (HP : P (run has_code l s)).
  { eapply (run_P P); [|exact Hl|reflexivity].
    intros c op s0 s1 (Hw & Hno) H0 Hf. unfold P in *. rewrite <- H0. clear H0.
    destruct op; cbn [front] in Hf.
    - apply transfer_from_ok in Hf; [|apply Hw]. destruct Hf as (_ & _ & _ & ->). reflexivity.
    - apply transfer_from_ok in Hf; [|apply Hw]. destruct Hf as (_ & _ & _ & ->). reflexivity.
    - apply approve_ok in Hf; [|apply Hw]. destruct Hf as (_ & ->). reflexivity.
    - apply set_all_ok in Hf. destruct Hf as (_ & ->). unfold is_approved_for_all, all_state; cbn.
      rewrite getd_set, decide_False; [reflexivity|]. intros E. inversion E; subst. eapply Hno; reflexivity.
    - apply burn_ok in Hf; [|apply Hw]. destruct Hf as (_ & ->). reflexivity.
    - apply mint_ok in Hf. destruct Hf as (_ & _ & ->). reflexivity.
    - apply mint_ok in Hf. destruct Hf as (_ & _ & ->). reflexivity.
    - apply iburn_ok in Hf. destruct Hf as (_ & ->). reflexivity.
    - apply transfer_ok in Hf. destruct Hf as (_ & _ & _ & ->). reflexivity.
    - apply transfer_ok in Hf. destruct Hf as (_ & _ & _ & ->). reflexivity. }
  unfold operator. rewrite HP. tauto.
Qed.
Print Assumptions c34_operators_set_only_by_owner.

Theorem c34_set_approval_for_all s caller p b :
  (p = 0 -> tx (set_approval_for_all caller p b) s = (Err (InvalidOperator 0), s)) /\
  (p <> 0 -> exists s', tx (set_approval_for_all caller p b) s = (Ok tt, s') /\
     (operator s' caller p <-> b = true) /\
     (forall o q, (o, q) <> (caller, p) -> operator s' o q <-> operator s o q) /\
     (forall j a, owner s' j a <-> owner s j a) /\ (forall j a, approved s' j a <-> approved s j a) /\
     (forall a n, balance s' a n <-> balance s a n) /\
     log s' = log s ++ [ApprovalForAll caller p b]).
Proof.
  split; [intros ->; reflexivity|]. intros Hp. exists (all_state caller p b s).
  split; [apply tx_ok, set_all_ok; auto|]. unfold operator, is_approved_for_all, all_state; cbn.
  split; [rewrite getd_set, decide_True by reflexivity; tauto|].
  split; [intros o q Hne; rewrite getd_set, decide_False by congruence; tauto|].
  split; [intros; rewrite !owner_iff; tauto|]. split; [intros; rewrite !approved_iff; tauto|].
  split; [intros; rewrite !balance_iff; tauto|reflexivity].
Qed.
Print Assumptions c34_set_approval_for_all.

(** The approvals in force are exactly what the event log says: an approval lasts until
    the next [Transfer] or [Approval] event of its token. *)
Theorem c34_approvals_from_events s :
  reachable s ->
  (forall id x, approved s id x <-> exists_token s id /\ x = log_approved (log s) id 0) /\
  (forall o p, operator s o p <-> log_operator (log s) o p false = true).
Proof.
  intros HR. apply reachable_inv in HR. split.
  - intros id x. rewrite approved_iff, exists_iff, (inv_log_appr s HR). intuition congruence.
  - intros o p. unfold operator. rewrite (inv_log_op s HR). tauto.
Qed.
Print Assumptions c34_approvals_from_events.

Example c34_demo :
  let s := run demo_code [(1, IMint 1 5); (1, Approve 4 5); (1, SetApprovalForAll 6 true)] init in
  let s' := snd (tx (transfer_from 4 1 2 5) s) in
  approved s 5 4 /\ approved s' 5 0 /\ operator s' 1 6 /\
  is_ok (fst (tx (approve 6 7 5) s)) = true /\ is_ok (fst (tx (approve 6 7 5) s')) = false /\
  is_ok (fst (tx (approve 4 7 5) s)) = false.
Proof. repeat split; vm_compute; reflexivity. Qed.

(** ** C35 *)
Theorem c35_mint_iff s to id :
  (exists s', tx (_mint to id) s = (Ok tt, s')) <-> to <> 0 /\ ~ exists_token s id.
Proof.
  rewrite exists_iff. split.
  - intros [s' H]. rewrite tx_ok in H; apply mint_ok in H. destruct H as (? & ? & _). split; [assumption|congruence].
  - intros [H1 H2]. exists (upd_state to id s). apply tx_ok, mint_ok. split; [exact H1|]. split; [lia|reflexivity].
Qed.
Print Assumptions c35_mint_iff.

Theorem c35_mint_errors s to id :
  (to = 0 -> fst (tx (_mint to id) s) = Err (InvalidReceiver 0)) /\
  (to <> 0 -> exists_token s id -> fst (tx (_mint to id) s) = Err (InvalidSender 0)).
Proof.
  split; [intros ->; reflexivity|]. intros Ht He. apply exists_iff in He.
  unfold tx, _mint. mred. rewrite (proj2 (Z.eqb_neq to 0) Ht), update_eq. cbn [Z.eqb orb].
  rewrite (proj2 (Z.eqb_neq _ 0) He). reflexivity.
Qed.
Print Assumptions c35_mint_errors.

Theorem c35_burn_iff s id :
  (exists s', tx (_burn id) s = (Ok tt, s')) <-> exists_token s id.
Proof.
  rewrite exists_iff. split.
  - intros [s' H]. rewrite tx_ok in H; apply iburn_ok in H. tauto.
  - intros H. exists (upd_state 0 id s). apply tx_ok, iburn_ok. auto.
Qed.
Print Assumptions c35_burn_iff.

(** [burn] of the burnable extension: for everybody entitled to move the token. *)
Theorem c35_public_burn_iff s caller id :
  reachable s -> caller <> 0 ->
  (exists s', tx (burn caller id) s = (Ok tt, s')) <->
  exists o, owner s id o /\ may_move s id o caller.
Proof.
  intros HR Hc. apply reachable_inv in HR. split.
  - intros [s' H]. rewrite tx_ok in H; apply burn_ok in H; [|exact Hc]. destruct H as [H _].
    apply (auth_iff s _ caller id HR Hc eq_refl) in H. exists (_owner_of id s). rewrite owner_iff. tauto.
  - intros (o & Ho & H). apply owner_iff in Ho. destruct Ho as [H0 Ho].
    exists (upd_state 0 id s). apply tx_ok, burn_ok; [exact Hc|]. split; [|reflexivity].
    rewrite Ho. apply (auth_iff s o caller id HR Hc Ho). auto.
Qed.
Print Assumptions c35_public_burn_iff.

(** The exact effect of minting and burning. *)
Theorem c35_mint_effect s s' to id :
  reachable s -> is_u256 id -> tx (_mint to id) s = (Ok tt, s') ->
  owner s' id to /\ approved s' id 0 /\
  (forall j a, j <> id -> (owner s' j a <-> owner s j a) /\ (approved s' j a <-> approved s j a)) /\
  (forall o p, operator s' o p <-> operator s o p) /\
  log s' = log s ++ [Transfer 0 to id] /\
  (forall a n, a <> to -> balance s' a n <-> balance s a n) /\
  (forall n, balance s to n -> balance s' to ((n + 1) mod two256)).
Proof.
  intros HR Hid H. apply reachable_inv in HR. rewrite tx_ok in H; apply mint_ok in H. destruct H as (Ht & Ho & ->).
  pose proof (approved_upd to id s) as Happ.
  split; [apply owner_iff; rewrite owner_upd, decide_True by reflexivity; auto|].
  split; [apply approved_iff; rewrite owner_upd, Happ, !decide_True by (reflexivity || apply (inv_appr s HR)); auto|].
  split.
  { intros j a Hj. rewrite !owner_iff, !approved_iff, owner_upd, Happ, !decide_False by
      (congruence || apply (inv_appr s HR)). tauto. }
  split; [intros; unfold operator, is_approved_for_all; reflexivity|].
  split; [unfold upd_state; cbn; rewrite Ho; reflexivity|].
  unfold upd_state; cbn. rewrite Ho, (proj2 (Z.eqb_neq to 0) Ht). cbn [Z.eqb].
  split.
  - intros a n Ha. rewrite !balance_iff; cbn. rewrite mget_set_ne by congruence. tauto.
  - intros n. rewrite !balance_iff; cbn. rewrite mget_set_eq. intros [_ <-]. auto.
Qed.
Print Assumptions c35_mint_effect.

Theorem c35_burn_effect s s' id o :
  reachable s -> owner s id o -> tx (_burn id) s = (Ok tt, s') ->
  ~ exists_token s' id /\
  (forall j a, j <> id -> (owner s' j a <-> owner s j a) /\ (approved s' j a <-> approved s j a)) /\
  (forall o p, operator s' o p <-> operator s o p) /\
  log s' = log s ++ [Transfer o 0 id] /\
  (forall a n, a <> o -> balance s' a n <-> balance s a n) /\
  (forall n, balance s o n -> balance s' o ((n - 1) mod two256)).
Proof.
  intros HR Ho H. apply reachable_inv in HR. apply owner_iff in Ho. destruct Ho as [H0 Ho].
  rewrite tx_ok in H; apply iburn_ok in H. destruct H as (_ & ->).
  pose proof (approved_upd 0 id s) as Happ.
  split; [rewrite exists_iff, owner_upd, decide_True by reflexivity; auto|].
  split.
  { intros j a Hj. rewrite !owner_iff, !approved_iff, owner_upd, Happ, !decide_False by
      (congruence || apply (inv_appr s HR)). tauto. }
  split; [intros; unfold operator, is_approved_for_all; reflexivity|].
  split; [unfold upd_state; cbn; rewrite Ho; reflexivity|].
  unfold upd_state; cbn. rewrite Ho, (proj2 (Z.eqb_neq o 0) H0). cbn [Z.eqb].
  split.
  - intros a n Ha. rewrite !balance_iff; cbn. rewrite mget_set_ne by congruence. tauto.
  - intros n. rewrite !balance_iff; cbn. rewrite mget_set_eq. intros [_ <-]. auto.
Qed.
Print Assumptions c35_burn_effect.

(** A minted token cannot be minted again before somebody burns it. *)
Theorem c35_no_second_mint has_code s id l to :
  exists_token s id ->
  nodes (fun c o => node_wf c o /\ o <> Burn id /\ o <> IBurn id) l ->
  exists_token (run has_code l s) id /\
  is_ok (fst (tx (_mint to id) (run has_code l s))) = false.
Proof.
  intros He Hl. assert (HP : exists_token (run has_code l s) id).
  { eapply (run_P (fun s => exists_token s id)); [|exact Hl|exact He].
    intros c o s0 s1 (Hw & Hb1 & Hb2). rewrite !exists_iff. intros H0 Hf.
    assert (Upd : forall t i, (i = id -> t <> 0) -> _owner_of id (upd_state t i s0) <> 0).
    { intros t i Hi. rewrite owner_upd. destruct (decide (i = id)); auto. }
    destruct o; cbn [front] in Hf.
    - apply transfer_from_ok in Hf; [|apply Hw]. destruct Hf as (? & _ & _ & ->). apply Upd. auto.
    - apply transfer_from_ok in Hf; [|apply Hw]. destruct Hf as (? & _ & _ & ->). apply Upd. auto.
    - apply approve_ok in Hf; [|apply Hw]. destruct Hf as (_ & ->). exact H0.
    - apply set_all_ok in Hf. destruct Hf as (_ & ->). exact H0.
    - apply burn_ok in Hf; [|apply Hw]. destruct Hf as (_ & ->). apply Upd. congruence.
    - apply mint_ok in Hf. destruct Hf as (? & _ & ->). apply Upd. auto.
    - apply mint_ok in Hf. destruct Hf as (? & _ & ->). apply Upd. auto.
    - apply iburn_ok in Hf. destruct Hf as (_ & ->). apply Upd. congruence.
    - apply transfer_ok in Hf. destruct Hf as (? & _ & _ & ->). apply Upd. auto.
    - apply transfer_ok in Hf. destruct Hf as (? & _ & _ & ->). apply Upd. auto. }
  split; [exact HP|]. destruct (tx (_mint to id) (run has_code l s)) as [[[]|e|] s'] eqn:E; auto.
  assert (X : exists s', tx (_mint to id) (run has_code l s) = (Ok tt, s')) by eauto.
  apply c35_mint_iff in X. tauto.
Qed.
Print Assumptions c35_no_second_mint.

Theorem c35_nonexistent s id :
  ~ exists_token s id ->
  owner_of id s = (Err (NonexistentToken id), s) /\ get_approved id s = (Err (NonexistentToken id), s) /\
  (reachable s -> forall caller from to, caller <> 0 -> to <> 0 ->
     tx (transfer_from caller from to id) s = (Err (NonexistentToken id), s) /\
     tx (burn caller id) s = (Err (NonexistentToken id), s) /\
     tx (_burn id) s = (Err (NonexistentToken id), s) /\
     tx (_transfer from to id) s = (Err (NonexistentToken id), s) /\
     tx (approve caller to id) s = (Err (NonexistentToken id), s)).
Proof.
  rewrite exists_iff. intros H. assert (E : _owner_of id s = 0) by lia. clear H.
  split; [|split].
  - unfold owner_of, _require_owned. mred. rewrite E. reflexivity.
  - unfold get_approved, _require_owned. mred. rewrite E. reflexivity.
  - intros HR caller from to Hc Ht. apply reachable_inv in HR.
    assert (Hna : _is_authorized 0 caller id s = false).
    { destruct (_is_authorized 0 caller id s) eqn:Ea; [|reflexivity].
      apply (auth_iff s 0 caller id HR Hc E) in Ea. tauto. }
    unfold tx, transfer_from, burn, _burn, _transfer, approve, _approve, _require_owned. mred.
    assert (Uc : forall t, _update t id caller s = (Err (NonexistentToken id), s)).
    { intros t. rewrite update_eq, E, Hna, (proj2 (Z.eqb_neq caller 0) Hc). reflexivity. }
    assert (U0 : forall t, _update t id 0 s = (Ok 0, upd_state t id s)).
    { intros t. rewrite update_eq, E. reflexivity. }
    rewrite (proj2 (Z.eqb_neq to 0) Ht), !Uc, !U0. repeat split; try reflexivity.
    cbn [orb]. rewrite E. reflexivity.
Qed.
Print Assumptions c35_nonexistent.

Example c35_demo :
  let s := run demo_code [(1, IMint 1 5)] init in
  exists_token s 5 /\ is_ok (fst (tx (_mint 2 5) s)) = false /\ is_ok (fst (tx (_mint 2 6) s)) = true /\
  is_ok (fst (tx (_mint 2 5) (snd (tx (_burn 5) s)))) = true.
Proof. split; [exists 1; reflexivity|]. repeat split; vm_compute; reflexivity. Qed.

(** ** C36 *)
Theorem c36_events_determine_ownership s :
  reachable s ->
  (forall id a, owner s id a <-> a <> 0 /\ log_owner (log s) id 0 = a) /\
  truthful (log s) (fun _ => 0).
Proof.
  intros HR. pose proof HR as HI. apply reachable_inv in HI. split.
  - intros id a. rewrite owner_iff, (inv_log_owner s HI). tauto.
  - destruct HR as (hc & l & Hw & ->). apply truthful_run; [exact Hw|apply inv_init|exact I].
Qed.
Print Assumptions c36_events_determine_ownership.

Example c36_demo :
  let s := run demo_code demo init in
  log s = [Transfer 0 1 5; Transfer 0 9 6; Approval 1 4 5; Transfer 1 9 5; Transfer 9 2 5; Approval 9 3 6]
  /\ log_owner (log s) 5 0 = 2 /\ log_owner (log s) 7 0 = 0.
Proof. repeat split; vm_compute; reflexivity. Qed.

(** ** C37 *)
Theorem c37_accepting_receivers_only has_code h caller from to id data s s' :
  (tx (safe_transfer_from_with_data has_code h caller from to id data) s = (Ok tt, s') <->
   exists s1, tx (transfer_from caller from to id) s = (Ok tt, s1) /\
     ((has_code to = false /\ s' = s1) \/
      (has_code to = true /\ h to caller from id data s1 = (Returned RECEIVER_FN_SELECTOR, s')))) /\
  (tx (_safe_mint has_code h caller to id data) s = (Ok tt, s') <->
   exists s1, tx (_mint to id) s = (Ok tt, s1) /\
     ((has_code to = false /\ s' = s1) \/
      (has_code to = true /\ h to caller 0 id data s1 = (Returned RECEIVER_FN_SELECTOR, s')))) /\
  (tx (_safe_transfer has_code h caller from to id data) s = (Ok tt, s') <->
   exists s1, tx (_transfer from to id) s = (Ok tt, s1) /\
     ((has_code to = false /\ s' = s1) \/
      (has_code to = true /\ h to caller from id data s1 = (Returned RECEIVER_FN_SELECTOR, s')))).
Proof.
  unfold safe_transfer_from_with_data, _safe_mint, _safe_transfer. rewrite !tx_ok, !bind_ok.
  repeat split.
  all: try (intros ([] & s1 & H1 & H2); exists s1; rewrite tx_ok; split; [exact H1|];
            apply check_received_ok in H2; exact H2).
  all: intros (s1 & H1 & H2); exists tt, s1; rewrite tx_ok in H1; split; [exact H1|];
    apply check_received_ok; exact H2.
Qed.
Print Assumptions c37_accepting_receivers_only.

(** Any other answer undoes everything, with the error of mod.rs:1016-1032. *)
Theorem c37_rejection_reverts has_code h caller from to id data s s1 :
  has_code to = true ->
  tx (transfer_from caller from to id) s = (Ok tt, s1) ->
  fst (h to caller from id data s1) <> Returned RECEIVER_FN_SELECTOR ->
  tx (safe_transfer_from_with_data has_code h caller from to id data) s =
  (Err (match fst (h to caller from id data s1) with
        | Failed (x :: r) => InvalidReceiverWithReason (x :: r)
        | _ => InvalidReceiver to
        end), s).
Proof.
  intros Hc H1 Hne. rewrite tx_ok in H1. unfold tx at 1, safe_transfer_from_with_data.
  mred. rewrite H1. unfold _check_on_erc721_received. rewrite Hc. cbn [negb]. mred.
  destruct (h to caller from id data s1) as [[v|[|x r]] s2]; cbn [fst] in *; try reflexivity.
  destruct (Z.eqb_spec v RECEIVER_FN_SELECTOR) as [->|E]; [congruence|reflexivity].
Qed.
Print Assumptions c37_rejection_reverts.

Theorem c37_mint_rejection_reverts has_code h caller to id data s s1 :
  has_code to = true ->
  tx (_mint to id) s = (Ok tt, s1) ->
  fst (h to caller 0 id data s1) <> Returned RECEIVER_FN_SELECTOR ->
  tx (_safe_mint has_code h caller to id data) s =
  (Err (match fst (h to caller 0 id data s1) with
        | Failed (x :: r) => InvalidReceiverWithReason (x :: r)
        | _ => InvalidReceiver to
        end), s).
Proof.
  intros Hc H1 Hne. rewrite tx_ok in H1. unfold tx, _safe_mint.
  mred. rewrite H1. unfold _check_on_erc721_received. rewrite Hc. cbn [negb]. mred.
  destruct (h to caller 0 id data s1) as [[v|[|x r]] s2]; cbn [fst] in *; try reflexivity.
  destruct (Z.eqb_spec v RECEIVER_FN_SELECTOR) as [->|E]; [congruence|reflexivity].
Qed.
Print Assumptions c37_mint_rejection_reverts.

(** [safe_transfer_from] without data sends empty data. *)
Theorem c37_no_data has_code h caller from to id s :
  safe_transfer_from has_code h caller from to id s =
  safe_transfer_from_with_data has_code h caller from to id [] s.
Proof. reflexivity. Qed.
Print Assumptions c37_no_data.

(** While the receiver runs, it already owns the token. *)
Theorem c37_receiver_called_after_transfer has_code h caller from to id data s s' :
  caller <> 0 -> has_code to = true ->
  tx (safe_transfer_from_with_data has_code h caller from to id data) s = (Ok tt, s') ->
  exists s1, owner s1 id to /\ h to caller from id data s1 = (Returned RECEIVER_FN_SELECTOR, s').
Proof.
  intros Hc Hcode H. apply c37_accepting_receivers_only in H. destruct H as (s1 & H1 & [[? _]|[_ H2]]); [congruence|].
  exists s1. split; [|exact H2]. rewrite tx_ok in H1; apply transfer_from_ok in H1; [|exact Hc].
  destruct H1 as (Ht & _ & _ & ->). apply owner_iff. rewrite owner_upd, decide_True by reflexivity. auto.
Qed.
Print Assumptions c37_receiver_called_after_transfer.

Example c37_demo :
  let s := run demo_code [(1, IMint 1 5)] init in
  let accept : handler := fun _ _ _ _ _ s => (Returned RECEIVER_FN_SELECTOR, s) in
  let refuse : handler := fun _ _ _ _ _ s => (Failed [], s) in
  is_ok (fst (tx (safe_transfer_from demo_code accept 1 1 9 5) s)) = true /\
  tx (safe_transfer_from demo_code refuse 1 1 9 5) s = (Err (InvalidReceiver 9), s) /\
  is_ok (fst (tx (safe_transfer_from demo_code refuse 1 1 8 5) s)) = true.
Proof. repeat split; vm_compute; reflexivity. Qed.
