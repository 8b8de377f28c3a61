From Verif.Base Require Import Prelude Maps.
From Verif.Model Require Import Erc20.
From Verif.Spec Require Import Erc20_spec.
From Verif.Proofs Require Import Erc20_inv.
From stdpp Require Import gmap.
#[global] Open Scope Z_scope.

Lemma reachable_inv s : reachable s -> Inv s.
Proof. intros (h & Hh & ->). apply inv_run; [exact Hh|apply inv_init]. Qed.

Lemma sum_balances_lsum s l : sum_balances s l = lsum (mget (balances s)) l.
Proof. induction l as [|a l IH]; cbn; [reflexivity|]. rewrite IH. reflexivity. Qed.

Lemma conservation_inv s l : Inv s -> covers s l -> total_supply s = sum_balances s l.
Proof.
  intros HI [Hnd Hsup]. unfold total_supply. rewrite <- (inv_sum s HI), sum_balances_lsum.
  apply msum_lsum.
  - apply NoDup_ListNoDup. exact Hnd.
  - intros k Hk. apply elem_of_list_In. apply Hsup. exact Hk.
Qed.

Lemma covers_exists s : exists l, covers s l.
Proof.
  exists (elements (dom (balances s))). split.
  - apply NoDup_ListNoDup. apply NoDup_elements.
  - intros a Ha. apply elem_of_list_In, elem_of_elements, elem_of_dom.
    unfold balance_of, mget in Ha. destruct (balances s !! a); [eauto|]. cbn in Ha. lia.
Qed.

Lemma balance_of_emit e s a : balance_of (emit e s) a = balance_of s a.
Proof. reflexivity. Qed.
Lemma balance_of_set_supply v s a : balance_of (set_supply v s) a = balance_of s a.
Proof. reflexivity. Qed.
Lemma balance_of_set_allowance o sp v s a : balance_of (set_allowance o sp v s) a = balance_of s a.
Proof. reflexivity. Qed.

(** Effect of a successful [_update] on observables. *)
Lemma update_ok from to v s s' :
  Inv s -> is_u256 v -> _update from to v s = (Ok tt, s') ->
  balances_moved s s' from to v /\ same_allowances s s' /\
  total_supply s' = total_supply s + delta from 0 v - delta to 0 v /\
  log s' = log s ++ [Transfer from to v].
Proof.
  intros HI Hv H. rewrite update_ideal in H by assumption. unfold ideal_update in H.
  unfold balances_moved, same_allowances, total_supply, delta.
  destruct (from =? 0) eqn:Hf.
  - destruct (supply s + v <? two256); [|discriminate].
    destruct (to =? 0) eqn:Ht; inversion H; subst; clear H.
    + repeat split; cbn; try lia. intros a Ha. rewrite balance_of_emit.
      destruct (a =? from) eqn:?, (a =? to) eqn:?; lia.
    + repeat split; cbn; try lia. intros a Ha.
      rewrite balance_of_emit, balance_of_set_supply, balance_of_set_balance.
      destruct (decide (to = a)), (a =? from) eqn:?, (a =? to) eqn:?; try lia. subst; lia.
  - destruct (balance_of s from <? v) eqn:Hb; [discriminate|].
    destruct (to =? 0) eqn:Ht; inversion H; subst; clear H.
    + repeat split; cbn; try lia. intros a Ha.
      rewrite balance_of_emit, balance_of_set_supply, balance_of_set_balance.
      destruct (decide (from = a)), (a =? from) eqn:?, (a =? to) eqn:?; try lia. subst; lia.
    + repeat split; cbn; try lia. intros a Ha.
      rewrite balance_of_emit, !balance_of_set_balance.
      destruct (decide (from = to)), (decide (to = a)), (decide (from = a)), (a =? from) eqn:?, (a =? to) eqn:?; subst; try lia.
Qed.

(** When it succeeds, when it fails. *)
Lemma update_cases from to v s :
  Inv s -> is_u256 v ->
  (from = 0 /\ supply s + v < two256 /\ exists s', _update from to v s = (Ok tt, s')) \/
  (from = 0 /\ two256 <= supply s + v /\ _update from to v s = (Panic, s)) \/
  (from <> 0 /\ v <= balance_of s from /\ exists s', _update from to v s = (Ok tt, s')) \/
  (from <> 0 /\ balance_of s from < v /\
   _update from to v s = (Err (InsufficientBalance from (balance_of s from) v), s)).
Proof.
  intros HI Hv. rewrite update_ideal by assumption. unfold ideal_update.
  destruct (from =? 0) eqn:Hf.
  - destruct (supply s + v <? two256) eqn:Hov.
    + left. repeat split; try lia. destruct (to =? 0); eauto.
    + right; left. repeat split; try lia.
  - destruct (balance_of s from <? v) eqn:Hb.
    + right; right; right. repeat split; try lia.
    + right; right; left. repeat split; try lia. destruct (to =? 0); eauto.
Qed.

Lemma delta_0 v a : a <> 0 -> delta a 0 v = 0.
Proof. intros. unfold delta. destruct (a =? 0) eqn:?; lia. Qed.
Lemma delta_same v a : delta a a v = v.
Proof. unfold delta. rewrite Z.eqb_refl. reflexivity. Qed.

(** [_transfer]: exact domain and effect. *)
Lemma transfer__spec from to v s :
  Inv s -> is_u256 v ->
  (from <> 0 /\ to <> 0 /\ v <= balance_of s from /\
   exists s', _transfer from to v s = (Ok tt, s') /\ Inv s' /\
     balances_moved s s' from to v /\ same_allowances s s' /\
     total_supply s' = total_supply s /\ log s' = log s ++ [Transfer from to v]) \/
  (~ (from <> 0 /\ to <> 0 /\ v <= balance_of s from) /\
   exists e, _transfer from to v s = (Err e, s) /\ forall c, error_justified s c from to v e /\
     match e with InsufficientAllowance _ _ _ | InvalidSpender _ | InvalidApprover _ => False | _ => True end).
Proof.
  intros HI Hv. unfold _transfer. mred.
  destruct (from =? 0) eqn:Hf.
  { right. split; [lia|]. eexists. split; [reflexivity|]. cbn. split; auto. lia. }
  destruct (to =? 0) eqn:Ht.
  { right. split; [lia|]. eexists. split; [reflexivity|]. cbn. split; auto. lia. }
  destruct (update_cases from to v s HI Hv) as [(?&?&?)|[(?&?&?)|[(_&Hle&s'&Hs')|(_&Hlt&Hs')]]]; try lia.
  - left. repeat split; try lia. exists s'. split; [exact Hs'|].
    pose proof (inv_update from to v s HI Hv) as HI'. rewrite Hs' in HI'.
    destruct (update_ok _ _ _ _ _ HI Hv Hs') as (H1&H2&H3&H4).
    repeat split; auto; try apply HI'.
    rewrite H3. rewrite !delta_0 by lia. lia.
  - right. split; [lia|]. eexists. split; [exact Hs'|]. cbn. auto.
Qed.

Lemma inv_transfer__eq from to v s s' r :
  Inv s -> is_u256 v -> _transfer from to v s = (r, s') -> Inv s'.
Proof. intros HI Hv H. pose proof (inv_transfer_ from to v s HI Hv) as HX. rewrite H in HX. exact HX. Qed.

(** [transfer]: success iff, effect, frame, error. *)
Lemma transfer_spec s c to v :
  Inv s -> is_u256 v ->
  (fst (transfer c to v s) = Ok true <-> (c <> 0 /\ to <> 0 /\ v <= balance_of s c)) /\
  (forall s', transfer c to v s = (Ok true, s') ->
     balances_moved s s' c to v /\ same_allowances s s' /\
     total_supply s' = total_supply s /\ log s' = log s ++ [Transfer c to v]) /\
  (forall r s', transfer c to v s = (r, s') -> r <> Ok true ->
     s' = s /\ exists e, r = Err e /\ error_justified s c c to v e).
Proof.
  intros HI Hv. unfold transfer. mred.
  destruct (transfer__spec c to v s HI Hv) as
    [(H1&H2&H3&s'&E&HI'&Hb&Ha&Hs&Hl)|(Hn&e&E&Hj)]; rewrite E.
  - split; [tauto|]. split; [intros s1 Hs1; inversion Hs1; subst; auto|].
    intros r s1 Hr Hne. inversion Hr; subst. congruence.
  - split; [cbn; split; [discriminate|tauto]|].
    split; [intros ? HH; inversion HH|].
    intros r s1 Hr _. inversion Hr; subst. split; [reflexivity|].
    exists e. split; [reflexivity|]. apply Hj.
Qed.

(** [_spend_allowance] for any owner/spender in an invariant state. *)
Lemma spend_spec o sp v s :
  Inv s -> is_u256 v ->
  (o <> 0 /\ sp <> 0 /\ allowance s o sp = U256_MAX /\ _spend_allowance o sp v s = (Ok tt, s)) \/
  (o <> 0 /\ sp <> 0 /\ allowance s o sp <> U256_MAX /\ v <= allowance s o sp /\
   _spend_allowance o sp v s = (Ok tt, set_allowance o sp (allowance s o sp - v) s)) \/
  ((o = 0 \/ sp = 0 \/ (allowance s o sp <> U256_MAX /\ allowance s o sp < v)) /\
   exists e, _spend_allowance o sp v s = (Err e, s) /\
     match e with
     | InsufficientAllowance x al n => x = sp /\ al = allowance s o sp /\ n = v /\ al < v
     | InvalidSpender x => x = 0 /\ sp = 0
     | InvalidApprover x => x = 0 /\ o = 0
     | _ => False
     end).
Proof.
  intros HI Hv.
  destruct (Z.eq_dec o 0) as [->|Ho].
  { right; right. split; [auto|]. unfold _spend_allowance, _approve. mred.
    rewrite (inv_allow_owner0 s HI). destruct (0 =? U256_MAX) eqn:E; [vm_compute in E; discriminate|].
    destruct (0 <? v) eqn:E'.
    - eexists. split; [reflexivity|]. cbn. repeat split; auto. lia.
    - cbn. eexists. split; [reflexivity|]. cbn. auto. }
  destruct (Z.eq_dec sp 0) as [->|Hsp].
  { right; right. split; [auto|]. unfold _spend_allowance, _approve. mred.
    rewrite (inv_allow_spender0 s HI). destruct (0 =? U256_MAX) eqn:E; [vm_compute in E; discriminate|].
    destruct (0 <? v) eqn:E'.
    - eexists. split; [reflexivity|]. cbn. repeat split; auto. lia.
    - destruct (o =? 0) eqn:?; [lia|]. cbn. eexists. split; [reflexivity|]. cbn. auto. }
  rewrite spend_ideal by assumption.
  destruct (allowance s o sp =? U256_MAX) eqn:E.
  - left. repeat split; auto. lia.
  - destruct (allowance s o sp <? v) eqn:E'.
    + right; right. split; [right; right; lia|]. eexists. split; [reflexivity|]. cbn. repeat split; auto. lia.
    + right; left. repeat split; auto; lia.
Qed.

Definition can_spend (s : state) (o sp v : Z) : Prop :=
  o <> 0 /\ sp <> 0 /\ (allowance s o sp = U256_MAX \/ v <= allowance s o sp).

(** A later step after spending sees the same balances. *)
Lemma transfer_from_spec s c from to v :
  Inv s -> is_u256 v ->
  (fst (transfer_from c from to v s) = Ok true <->
     (c <> 0 /\ from <> 0 /\ to <> 0 /\ v <= balance_of s from /\
      (allowance s from c = U256_MAX \/ v <= allowance s from c))) /\
  (forall s', transfer_from c from to v s = (Ok true, s') ->
     balances_moved s s' from to v /\
     allowance s' from c = allowance_after s from c v /\
     other_allowances_same s s' from c /\
     total_supply s' = total_supply s /\ log s' = log s ++ [Transfer from to v]) /\
  (forall r s', transfer_from c from to v s = (r, s') -> r <> Ok true ->
     same_balances s s' /\ total_supply s' = total_supply s /\ log s' = log s /\
     other_allowances_same s s' from c /\
     (allowance s' from c = allowance s from c \/
      (can_spend s from c v /\ allowance s' from c = allowance_after s from c v)) /\
     exists e, r = Err e /\ error_justified s c from to v e).
Proof.
  intros HI Hv. unfold transfer_from. mred. unfold allowance_after, can_spend.
  destruct (spend_spec from c v s HI Hv) as
    [(Ho&Hc&Hmax&E)|[(Ho&Hc&Hnm&Hle&E)|(Hbad&e&E&Hj)]]; rewrite E; clear E.
  - rewrite Hmax, Z.eqb_refl.
    destruct (transfer__spec from to v s HI Hv) as
      [(H1&H2&H3&s'&E&HI'&Hb&Ha&Hs&Hl)|(Hn&e&E&Hj)]; rewrite E.
    + split; [cbn; tauto|]. split.
      * intros s1 Hs1; inversion Hs1; subst s1; clear Hs1. split; [auto|].
        split; [rewrite Ha; auto|]. split; [intros ? ? _; apply Ha|]. auto.
      * intros r s1 Hr Hne. inversion Hr; subst. congruence.
    + split; [cbn; split; [discriminate|tauto]|]. split; [intros ? HH; inversion HH|].
      intros r s1 Hr _. inversion Hr; subst; clear Hr.
      repeat split; auto. exists e. split; [reflexivity|apply Hj].
  - set (s1 := set_allowance from c (allowance s from c - v) s).
    assert (HI1 : Inv s1).
    { apply inv_set_allowance; auto. pose proof (inv_allow s HI from c). unfold is_u256 in *. lia. }
    destruct (allowance s from c =? U256_MAX) eqn:Emax; [lia|].
    assert (Hal : allowance s1 from c = allowance s from c - v).
    { unfold s1. rewrite allowance_set. rewrite decide_True by auto. reflexivity. }
    assert (Hoth : other_allowances_same s s1 from c).
    { intros o sp Hne. unfold s1. rewrite allowance_set. rewrite decide_False; [reflexivity|].
      intros [-> ->]. congruence. }
    destruct (transfer__spec from to v s1 HI1 Hv) as
      [(H1&H2&H3&s'&E&HI'&Hb&Ha&Hs&Hl)|(Hn&e&E&Hj)]; rewrite E.
    + split; [cbn; change (balance_of s1 from) with (balance_of s from) in H3; tauto|]. split.
      * intros s2 Hs2; inversion Hs2; subst s2; clear Hs2. split; [exact Hb|].
        split; [rewrite Ha; exact Hal|].
        split; [intros o sp Hne; rewrite Ha; apply Hoth; exact Hne|]. auto.
      * intros r s2 Hr Hne. inversion Hr; subst. congruence.
    + change (balance_of s1 from) with (balance_of s from) in Hn.
      split; [cbn; split; [discriminate|tauto]|]. split; [intros ? HH; inversion HH|].
      intros r s2 Hr _. inversion Hr; subst s2 r; clear Hr.
      split; [intros a; reflexivity|]. split; [reflexivity|]. split; [reflexivity|].
      split; [exact Hoth|]. split; [right; auto|].
      exists e. split; [reflexivity|]. specialize (Hj c). destruct e; cbn in *; tauto.
  - split.
    { cbn. split; [discriminate|]. intros (Hc&Ho&_&_&Hal). destruct Hbad as [?|[?|[? ?]]]; try tauto. lia. }
    split; [intros ? HH; inversion HH|].
    intros r s1 Hr _. inversion Hr; subst; clear Hr.
    repeat split; auto. exists e. split; [reflexivity|]. destruct e; cbn in *; tauto.
Qed.

(** [approve]. *)
Lemma approve_spec s c sp v :
  (fst (approve c sp v s) = Ok true <-> (c <> 0 /\ sp <> 0)) /\
  (forall s', approve c sp v s = (Ok true, s') ->
     same_balances s s' /\ total_supply s' = total_supply s /\
     allowance s' c sp = v /\ other_allowances_same s s' c sp /\
     log s' = log s ++ [Approval c sp v]) /\
  (forall r s', approve c sp v s = (r, s') -> r <> Ok true ->
     s' = s /\ (r = Err (InvalidApprover 0) \/ r = Err (InvalidSpender 0))).
Proof.
  unfold approve, _approve. mred.
  destruct (c =? 0) eqn:Hc.
  { split; [cbn; split; [discriminate|lia]|]. split; [intros ? HH; inversion HH|].
    intros r s1 Hr _. inversion Hr; subst; auto. }
  destruct (sp =? 0) eqn:Hsp.
  { split; [cbn; split; [discriminate|lia]|]. split; [intros ? HH; inversion HH|].
    intros r s1 Hr _. inversion Hr; subst; auto. }
  split; [cbn; split; [lia|reflexivity]|]. split.
  - intros s' HH; inversion HH; subst; clear HH.
    split; [intros a; reflexivity|]. split; [reflexivity|].
    split.
    + change (allowance (set_allowance c sp v s) c sp = v). rewrite allowance_set. rewrite decide_True; auto.
    + split; [|reflexivity]. intros o sp' Hne.
      change (allowance (set_allowance c sp v s) o sp' = allowance s o sp'). rewrite allowance_set.
      rewrite decide_False; [reflexivity|]. intros [-> ->]; congruence.
  - intros r s1 Hr Hne. inversion Hr; subst. congruence.
Qed.

(** [_mint] and [_burn]. *)
Lemma mint_spec s a v :
  Inv s -> is_u256 v ->
  (fst (_mint a v s) = Ok tt <-> (a <> 0 /\ total_supply s + v < two256)) /\
  (forall s', _mint a v s = (Ok tt, s') ->
     balance_of s' a = balance_of s a + v /\
     (forall b, b <> a -> balance_of s' b = balance_of s b) /\
     total_supply s' = total_supply s + v /\ same_allowances s s' /\
     log s' = log s ++ [Transfer 0 a v]) /\
  (forall r s', _mint a v s = (r, s') -> r <> Ok tt ->
     s' = s /\ (r = if a =? 0 then Err (InvalidReceiver 0) else Panic)).
Proof.
  intros HI Hv. unfold _mint. mred.
  destruct (a =? 0) eqn:Ha.
  { split; [cbn; split; [discriminate|lia]|]. split; [intros ? HH; inversion HH|].
    intros r s1 Hr _. inversion Hr; subst; auto. }
  destruct (update_cases 0 a v s HI Hv) as [(_&Hlt&s'&E)|[(_&Hge&E)|[(?&_)|(?&_)]]]; try lia; rewrite E.
  - split; [cbn; split; [unfold total_supply; lia|reflexivity]|]. split.
    + intros s1 Hs1. inversion Hs1; subst s1; clear Hs1.
      pose proof (inv_update 0 a v s HI Hv) as HI'. rewrite E in HI'. cbn in HI'.
      destruct (update_ok _ _ _ _ _ HI Hv E) as (H1&H2&H3&H4).
      assert (Ha0 : a <> 0) by lia.
      split; [rewrite H1 by lia; rewrite delta_0, delta_same by lia; lia|].
      split.
      * intros b Hb. destruct (Z.eq_dec b 0) as [->|Hb0].
        -- rewrite (inv_zero _ HI'), (inv_zero _ HI). reflexivity.
        -- rewrite H1 by lia. rewrite delta_0 by lia. unfold delta. destruct (b =? a) eqn:?; lia.
      * split; [rewrite H3; rewrite delta_same, delta_0 by lia; lia|]. auto.
    + intros r s1 Hr Hne. inversion Hr; subst. congruence.
  - split; [cbn; split; [discriminate|unfold total_supply; lia]|]. split; [intros ? HH; inversion HH|].
    intros r s1 Hr _. inversion Hr; subst; auto.
Qed.

Lemma burn_spec s a v :
  Inv s -> is_u256 v ->
  (fst (_burn a v s) = Ok tt <-> (a <> 0 /\ v <= balance_of s a)) /\
  (forall s', _burn a v s = (Ok tt, s') ->
     balance_of s' a = balance_of s a - v /\
     (forall b, b <> a -> balance_of s' b = balance_of s b) /\
     total_supply s' = total_supply s - v /\ same_allowances s s' /\
     log s' = log s ++ [Transfer a 0 v]) /\
  (forall r s', _burn a v s = (r, s') -> r <> Ok tt ->
     s' = s /\ (r = if a =? 0 then Err (InvalidSender 0)
                    else Err (InsufficientBalance a (balance_of s a) v))).
Proof.
  intros HI Hv. unfold _burn. mred.
  destruct (a =? 0) eqn:Ha.
  { split; [cbn; split; [discriminate|lia]|]. split; [intros ? HH; inversion HH|].
    intros r s1 Hr _. inversion Hr; subst; auto. }
  destruct (update_cases a 0 v s HI Hv) as [(?&_)|[(?&_)|[(_&Hle&s'&E)|(_&Hlt&E)]]]; try lia; rewrite E.
  - split; [cbn; split; [lia|reflexivity]|]. split.
    + intros s1 Hs1. inversion Hs1; subst s1; clear Hs1.
      pose proof (inv_update a 0 v s HI Hv) as HI'. rewrite E in HI'. cbn in HI'.
      destruct (update_ok _ _ _ _ _ HI Hv E) as (H1&H2&H3&H4).
      assert (Ha0 : a <> 0) by lia.
      split; [rewrite H1 by lia; rewrite delta_0, delta_same by lia; lia|].
      split.
      * intros b Hb. destruct (Z.eq_dec b 0) as [->|Hb0].
        -- rewrite (inv_zero _ HI'), (inv_zero _ HI). reflexivity.
        -- rewrite H1 by lia. rewrite delta_0 by lia. unfold delta. destruct (b =? a) eqn:?; lia.
      * split; [rewrite H3; rewrite delta_same, delta_0 by lia; lia|]. auto.
    + intros r s1 Hr Hne. inversion Hr; subst. congruence.
  - split; [cbn; split; [discriminate|lia]|]. split; [intros ? HH; inversion HH|].
    intros r s1 Hr _. inversion Hr; subst; auto.
Qed.

Lemma burn_from_spec s c a v :
  Inv s -> is_u256 v ->
  (fst (burn_from c a v s) = Ok tt <->
     (c <> 0 /\ a <> 0 /\ v <= balance_of s a /\
      (allowance s a c = U256_MAX \/ v <= allowance s a c))) /\
  (forall s', burn_from c a v s = (Ok tt, s') ->
     balance_of s' a = balance_of s a - v /\
     (forall b, b <> a -> balance_of s' b = balance_of s b) /\
     total_supply s' = total_supply s - v /\
     allowance s' a c = allowance_after s a c v /\
     other_allowances_same s s' a c /\
     log s' = log s ++ [Transfer a 0 v]).
Proof.
  intros HI Hv. unfold burn_from. mred. unfold allowance_after.
  destruct (spend_spec a c v s HI Hv) as
    [(Ho&Hc&Hmax&E)|[(Ho&Hc&Hnm&Hle&E)|(Hbad&e&E&Hj)]]; rewrite E; clear E.
  - destruct (burn_spec s a v HI Hv) as (B1&B2&_).
    split; [rewrite B1; tauto|].
    intros s' Hs'. destruct (B2 s' Hs') as (H1&H2&H3&H4&H5).
    rewrite Hmax, Z.eqb_refl. repeat split; auto; [rewrite H4; exact Hmax|intros ? ? _; apply H4].
  - set (s1 := set_allowance a c (allowance s a c - v) s).
    assert (HI1 : Inv s1).
    { apply inv_set_allowance; auto. pose proof (inv_allow s HI a c). unfold is_u256 in *. lia. }
    destruct (allowance s a c =? U256_MAX) eqn:Emax; [lia|].
    destruct (burn_spec s1 a v HI1 Hv) as (B1&B2&_).
    split; [rewrite B1; change (balance_of s1 a) with (balance_of s a); tauto|].
    intros s' Hs'. destruct (B2 s' Hs') as (H1&H2&H3&H4&H5).
    repeat split; auto.
    + rewrite H4. unfold s1. rewrite allowance_set. rewrite decide_True by auto. reflexivity.
    + intros o sp Hne. rewrite H4. unfold s1. rewrite allowance_set. rewrite decide_False; [reflexivity|].
      intros [-> ->]; congruence.
  - split; [|intros ? HH; inversion HH].
    cbn. split; [discriminate|]. intros (Hc&Ho&_&Hal). destruct Hbad as [?|[?|[? ?]]]; try tauto. lia.
Qed.
