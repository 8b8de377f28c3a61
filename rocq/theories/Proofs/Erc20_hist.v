From Verif.Base Require Import Prelude Maps.
From Verif.Model Require Import Erc20.
From Verif.Spec Require Import Erc20_spec.
From Verif.Proofs Require Import Erc20_inv Erc20_api.
From stdpp Require Import gmap.
#[global] Open Scope Z_scope.

(** Outcome of a transaction. *)
Lemma tx_cases {A} (m : M state error A) s :
  (exists a s', m s = (Ok a, s') /\ tx m s = (Ok a, s')) \/
  (is_ok (fst (tx m s)) = false /\ snd (tx m s) = s).
Proof. unfold tx. destruct (m s) as [[a|e|] s']; cbn; eauto. Qed.

Lemma ignore_ok {A} (m : M state error A) s s' :
  ignore m s = (Ok tt, s') <-> exists a, m s = (Ok a, s').
Proof.
  unfold ignore, bind. destruct (m s) as [[a|e|] s1]; cbn; split; intros H.
  - inversion H; subst; eauto.
  - destruct H as [a' H]; inversion H; subst; auto.
  - inversion H.
  - destruct H as [a' H]; inversion H.
  - inversion H.
  - destruct H as [a' H]; inversion H.
Qed.

Lemma transfer_ret c to v s b s' : transfer c to v s = (Ok b, s') -> b = true.
Proof. unfold transfer. mred. destruct (_transfer c to v s) as [[?|?|] ?]; intros H; inversion H; auto. Qed.
Lemma approve_ret c sp v s b s' : approve c sp v s = (Ok b, s') -> b = true.
Proof.
  unfold approve, _approve. mred. destruct (c =? 0); [discriminate|]. destruct (sp =? 0); [discriminate|].
  intros H; inversion H; auto.
Qed.
Lemma transfer_from_ret c f to v s b s' : transfer_from c f to v s = (Ok b, s') -> b = true.
Proof.
  unfold transfer_from. mred. destruct (_spend_allowance f c v s) as [[?|?|] s1]; try discriminate.
  destruct (_transfer f to v s1) as [[?|?|] ?]; intros H; inversion H; auto.
Qed.

(** ** Allowance budget *)

Lemma allowance_step_public o sp c x s :
  Inv s -> op_wf x -> public_op x ->
  match x with OApprove sp' _ => ~ (c = o /\ sp' = sp) | _ => True end ->
  allowance (step s (c, x)) o sp =
    if allowance s o sp =? U256_MAX then U256_MAX
    else allowance s o sp -
         (if is_ok (fst (tx (exec c x) s)) then taken_by o sp c x else 0).
Proof.
  intros HI Hwf Hpub Hna. unfold step. cbn [fst snd].
  destruct (tx_cases (exec c x) s) as [(u & s' & E & Et)|[Hf Hs]].
  2:{ rewrite Hf, Hs. destruct (allowance s o sp =? U256_MAX) eqn:?; lia. }
  rewrite Et. cbn [fst snd is_ok]. destruct u. unfold op_wf in Hwf.
  destruct x as [to v|sp' v|f to v|v|a v| | | |]; cbn in Hpub; try tauto; cbn [exec op_value taken_by] in *.
  - apply ignore_ok in E. destruct E as [b E]. pose proof (transfer_ret _ _ _ _ _ _ E); subst b.
    destruct (transfer_spec s c to v HI Hwf) as (_&H2&_). destruct (H2 _ E) as (_&Ha&_).
    rewrite Ha. destruct (allowance s o sp =? U256_MAX) eqn:?; lia.
  - apply ignore_ok in E. destruct E as [b E]. pose proof (approve_ret _ _ _ _ _ _ E); subst b.
    destruct (approve_spec s c sp' v) as (_&H2&_). destruct (H2 _ E) as (_&_&_&Ho&_).
    rewrite Ho; [destruct (allowance s o sp =? U256_MAX) eqn:?; lia|]. intros Heq; inversion Heq; subst; tauto.
  - apply ignore_ok in E. destruct E as [b E]. pose proof (transfer_from_ret _ _ _ _ _ _ _ E); subst b.
    destruct (transfer_from_spec s c f to v HI Hwf) as (_&H2&_). destruct (H2 _ E) as (_&Ha&Ho&_).
    destruct ((c =? sp) && (f =? o)) eqn:Heq.
    + assert (c = sp /\ f = o) as [-> ->] by lia. rewrite Ha. reflexivity.
    + rewrite Ho; [destruct (allowance s o sp =? U256_MAX) eqn:?; lia|]. intros Hx; inversion Hx; subst. lia.
  - unfold burn in E. destruct (burn_spec s c v HI Hwf) as (_&H2&_). destruct (H2 _ E) as (_&_&_&Ha&_).
    rewrite Ha. destruct (allowance s o sp =? U256_MAX) eqn:?; lia.
  - destruct (burn_from_spec s c a v HI Hwf) as (_&H2). destruct (H2 _ E) as (_&_&_&Ha&Ho&_).
    destruct ((c =? sp) && (a =? o)) eqn:Heq.
    + assert (c = sp /\ a = o) as [-> ->] by lia. rewrite Ha. reflexivity.
    + rewrite Ho; [destruct (allowance s o sp =? U256_MAX) eqn:?; lia|]. intros Hx; inversion Hx; subst. lia.
Qed.

Lemma taken_bounds o sp c x s :
  Inv s -> op_wf x -> public_op x -> is_ok (fst (tx (exec c x) s)) = true ->
  0 <= taken_by o sp c x /\
  (taken_by o sp c x <> 0 -> allowance s o sp = U256_MAX \/ taken_by o sp c x <= allowance s o sp).
Proof.
  intros HI Hwf Hpub Hok. unfold op_wf, is_u256 in Hwf.
  assert (H0 : 0 <= taken_by o sp c x).
  { destruct x; cbn in *; try lia; destruct (_ && _); lia. }
  split; [exact H0|]. intros Hne.
  destruct (tx_cases (exec c x) s) as [(u & s' & E & Et)|[Hf Hs]]; [|congruence]. destruct u.
  destruct x as [to v|sp' v|f to v|v|a v| | | |]; cbn in Hpub; try tauto; cbn [exec op_value taken_by] in *; try lia.
  - apply ignore_ok in E. destruct E as [b E]. pose proof (transfer_from_ret _ _ _ _ _ _ _ E); subst b.
    destruct (transfer_from_spec s c f to v HI Hwf) as ((H1&_)&_&_). rewrite E in H1.
    destruct (H1 eq_refl) as (_&_&_&_&Hal).
    destruct ((c =? sp) && (f =? o)) eqn:Heq; [|lia]. assert (c = sp /\ f = o) as [-> ->] by lia. exact Hal.
  - destruct (burn_from_spec s c a v HI Hwf) as ((H1&_)&_). rewrite E in H1.
    destruct (H1 eq_refl) as (_&_&_&Hal).
    destruct ((c =? sp) && (a =? o)) eqn:Heq; [|lia]. assert (c = sp /\ a = o) as [-> ->] by lia. exact Hal.
Qed.

Lemma no_approval_cons o sp cx h :
  no_approval o sp (cx :: h) ->
  match snd cx with OApprove sp' _ => ~ (fst cx = o /\ sp' = sp) | _ => True end /\ no_approval o sp h.
Proof. intros H. inversion H; subst. auto. Qed.

Lemma budget_run o sp h s :
  Inv s -> hist_wf h -> Forall (fun cx => public_op (snd cx)) h -> no_approval o sp h ->
  (allowance s o sp = U256_MAX -> allowance (run h s) o sp = U256_MAX) /\
  (allowance s o sp <> U256_MAX ->
     allowance (run h s) o sp + total_taken o sp h s = allowance s o sp /\
     0 <= total_taken o sp h s /\ allowance (run h s) o sp <> U256_MAX).
Proof.
  revert s. induction h as [|[c x] h IH]; intros s HI Hwf Hpub Hna.
  { cbn. split; auto. intros. lia. }
  inversion Hwf; subst. inversion Hpub; subst.
  apply no_approval_cons in Hna. destruct Hna as [Hna1 Hna2]. cbn [fst snd] in *.
  assert (HI' : Inv (step s (c, x))) by (apply inv_step; auto).
  pose proof (allowance_step_public o sp c x s HI ltac:(assumption) ltac:(assumption) Hna1) as Hst.
  destruct (IH (step s (c, x)) HI' ltac:(assumption) ltac:(assumption) Hna2) as [IHm IHn].
  cbn [run fold_left total_taken]. fold (run h (step s (c, x))).
  pose proof (inv_allow s HI o sp) as Hr. unfold is_u256 in Hr.
  assert (Hb : 0 <= (if is_ok (fst (tx (exec c x) s)) then taken_by o sp c x else 0) /\
    (allowance s o sp = U256_MAX \/ (if is_ok (fst (tx (exec c x) s)) then taken_by o sp c x else 0) <= allowance s o sp)).
  { destruct (is_ok (fst (tx (exec c x) s))) eqn:Hok; [|lia].
    destruct (taken_bounds o sp c x s HI ltac:(assumption) ltac:(assumption) Hok) as [T1 T2].
    split; [exact T1|]. destruct (Z.eq_dec (taken_by o sp c x) 0); [lia|auto]. }
  set (t := if is_ok (fst (tx (exec c x) s)) then taken_by o sp c x else 0) in *.
  split.
  - intros Hm. apply IHm. rewrite Hst, Hm, Z.eqb_refl. reflexivity.
  - intros Hn. destruct (allowance s o sp =? U256_MAX) eqn:E; [lia|].
    assert (Hn' : allowance (step s (c, x)) o sp <> U256_MAX) by (unfold U256_MAX in *; lia).
    destruct (IHn Hn') as (I1&I2&I3). lia.
Qed.

(** ** Who can debit an account *)
Lemma debit_authorised o c x s :
  Inv s -> op_wf x -> public_op x -> o <> 0 ->
  balance_of (step s (c, x)) o < balance_of s o ->
  let d := balance_of s o - balance_of (step s (c, x)) o in
  (c = o /\ (exists to, x = OTransfer to d) \/ c = o /\ x = OBurn d) \/
  ((exists to, x = OTransferFrom o to d) \/ x = OBurnFrom o d) /\
   (allowance s o c = U256_MAX \/ d <= allowance s o c).
Proof.
  intros HI Hwf Hpub Ho0 Hlt d.
  assert (Hd : d = balance_of s o - balance_of (step s (c, x)) o) by reflexivity. clearbody d.
  unfold step in *. cbn [fst snd] in *.
  destruct (tx_cases (exec c x) s) as [(u & s' & E & Et)|[Hf Hs]]; [|rewrite Hs in Hlt; lia].
  rewrite Et in *. cbn [fst snd] in *. destruct u. unfold op_wf in Hwf.
  destruct x as [to v|sp' v|f to v|v|a v| | | |]; cbn in Hpub; try tauto; cbn [exec op_value] in *.
  - apply ignore_ok in E. destruct E as [b E]. pose proof (transfer_ret _ _ _ _ _ _ E); subst b.
    destruct (transfer_spec s c to v HI Hwf) as (_&H2&_). destruct (H2 _ E) as (Hb&_).
    specialize (Hb o Ho0). unfold delta, is_u256 in *.
    left. left. destruct (o =? c) eqn:?, (o =? to) eqn:?; try lia. split; [lia|]. exists to. f_equal. lia.
  - apply ignore_ok in E. destruct E as [b E]. pose proof (approve_ret _ _ _ _ _ _ E); subst b.
    destruct (approve_spec s c sp' v) as (_&H2&_). destruct (H2 _ E) as (Hb&_). rewrite Hb in Hlt. lia.
  - apply ignore_ok in E. destruct E as [b E]. pose proof (transfer_from_ret _ _ _ _ _ _ _ E); subst b.
    destruct (transfer_from_spec s c f to v HI Hwf) as ((H1&_)&H2&_). rewrite E in H1.
    destruct (H1 eq_refl) as (_&_&_&_&Hal). destruct (H2 _ E) as (Hb&_).
    specialize (Hb o Ho0). unfold delta, is_u256 in *.
    right. destruct (o =? f) eqn:?, (o =? to) eqn:?; try lia.
    assert (o = f) by lia; subst f. assert (d = v) by lia. split; [left; exists to; f_equal; lia|].
    destruct Hal; [left; auto|right; lia].
  - unfold burn in E. destruct (burn_spec s c v HI Hwf) as (_&H2&_). destruct (H2 _ E) as (Hb&Hoth&_).
    destruct (Z.eq_dec o c) as [->|Hne].
    + left. right. split; [reflexivity|]. f_equal. lia.
    + rewrite Hoth in Hlt by auto. lia.
  - destruct (burn_from_spec s c a v HI Hwf) as ((H1&_)&H2). rewrite E in H1.
    destruct (H1 eq_refl) as (_&_&_&Hal). destruct (H2 _ E) as (Hb&Hoth&_).
    destruct (Z.eq_dec o a) as [->|Hne].
    + right. assert (d = v) by lia. split; [right; f_equal; lia|]. destruct Hal; [left; auto|right; lia].
    + rewrite Hoth in Hlt by auto. lia.
Qed.

(** ** Event ledger *)
Lemma sum_events_app f l l' : sum_events f (l ++ l') = sum_events f l + sum_events f l'.
Proof. induction l as [|e l IH]; cbn; [lia|]. rewrite IH. lia. Qed.

Record Ledger (s : state) : Prop := {
  led_bal : forall a, a <> 0 -> balance_of s a = sum_events (event_balance a) (log s);
  led_sup : total_supply s = sum_events event_supply (log s)
}.

Lemma ledger_update from to v s s' :
  Inv s -> is_u256 v -> Ledger s -> _update from to v s = (Ok tt, s') -> Ledger s'.
Proof.
  intros HI Hv [LB LS] H. destruct (update_ok _ _ _ _ _ HI Hv H) as (Hb&_&Hs&Hl).
  split.
  - intros a Ha. rewrite Hb, Hl, sum_events_app by exact Ha. cbn. rewrite LB by exact Ha. lia.
  - rewrite Hs, Hl, sum_events_app. cbn. rewrite LS. lia.
Qed.

Lemma ledger_same s s' :
  Ledger s -> same_balances s s' -> total_supply s' = total_supply s ->
  (log s' = log s \/ exists o sp v, log s' = log s ++ [Approval o sp v]) -> Ledger s'.
Proof.
  intros [LB LS] Hb Hs Hl. split.
  - intros a Ha. rewrite Hb. destruct Hl as [->|(o&sp&v&->)]; [auto|].
    rewrite sum_events_app. cbn. rewrite LB by auto. lia.
  - rewrite Hs. destruct Hl as [->|(o&sp&v&->)]; [auto|]. rewrite sum_events_app. cbn. lia.
Qed.

Lemma transfer__as_update f t v s s' : _transfer f t v s = (Ok tt, s') -> _update f t v s = (Ok tt, s').
Proof. unfold _transfer. mred. destruct (f =? 0); [discriminate|]. destruct (t =? 0); [discriminate|]. auto. Qed.
Lemma mint_as_update a v s s' : _mint a v s = (Ok tt, s') -> _update 0 a v s = (Ok tt, s').
Proof. unfold _mint. mred. destruct (a =? 0); [discriminate|]. auto. Qed.
Lemma burn_as_update a v s s' : _burn a v s = (Ok tt, s') -> _update a 0 v s = (Ok tt, s').
Proof. unfold _burn. mred. destruct (a =? 0); [discriminate|]. auto. Qed.

Lemma spend_ok o sp v s s' :
  _spend_allowance o sp v s = (Ok tt, s') ->
  same_balances s s' /\ total_supply s' = total_supply s /\ log s' = log s.
Proof.
  unfold _spend_allowance, _approve. mred.
  destruct (allowance s o sp =? U256_MAX); [intros H; inversion H; subst; repeat split; auto|].
  destruct (allowance s o sp <? v); [discriminate|].
  destruct (o =? 0); [discriminate|]. destruct (sp =? 0); [discriminate|].
  intros H; inversion H; subst. repeat split; auto.
Qed.

(** [_update] is the only way balances change; every successful entry point is a
    (possibly empty) allowance manipulation followed by at most one update. *)
Lemma exec_ok_shape c x s s' :
  Inv s -> op_wf x -> exec c x s = (Ok tt, s') ->
  exists s1, Inv s1 /\ same_balances s s1 /\ total_supply s1 = total_supply s /\
    ((log s1 = log s \/ exists o sp v, log s1 = log s ++ [Approval o sp v]) /\ s1 = s' \/
     (log s1 = log s /\ exists f t v, is_u256 v /\ _update f t v s1 = (Ok tt, s'))).
Proof.
  intros HI Hwf E. unfold op_wf in Hwf.
  destruct x as [to v|sp' v|f to v|v|a v|a v|a v|f t v|o sp v]; cbn [exec op_value] in *.
  - apply ignore_ok in E. destruct E as [b E]. exists s. repeat split; try apply HI.
    right. split; [auto|]. unfold transfer in E. apply bind_ok in E. destruct E as ([]&s1&E1&E2).
    inversion E2; subst. apply transfer__as_update in E1. eauto 6.
  - apply ignore_ok in E. destruct E as [b E]. pose proof (approve_ret _ _ _ _ _ _ E); subst b.
    pose proof (inv_approve c sp' v true s HI Hwf) as HI'. unfold approve in E. rewrite E in HI'. cbn in HI'.
    destruct (approve_spec s c sp' v) as (_&H2&_). destruct (H2 _ E) as (Hb&Hs&_&_&Hl).
    exists s'. split; [exact HI'|]. split; [exact Hb|]. split; [exact Hs|]. left. split; [eauto|auto].
  - apply ignore_ok in E. destruct E as [b E]. unfold transfer_from in E.
    apply bind_ok in E. destruct E as ([]&s1&E1&E2). apply bind_ok in E2. destruct E2 as ([]&s2&E2&E3).
    inversion E3; subst. pose proof (inv_spend f c v s HI Hwf) as HI'. rewrite E1 in HI'. cbn in HI'.
    destruct (spend_ok _ _ _ _ _ E1) as (Hb&Hs&Hl). apply transfer__as_update in E2.
    exists s1. repeat split; auto; try apply HI'. right. eauto 6.
  - unfold burn in E. apply burn_as_update in E. exists s. repeat split; auto; try apply HI. right. eauto 6.
  - unfold burn_from in E. apply bind_ok in E. destruct E as ([]&s1&E1&E2).
    pose proof (inv_spend a c v s HI Hwf) as HI'. rewrite E1 in HI'. cbn in HI'.
    destruct (spend_ok _ _ _ _ _ E1) as (Hb&Hs&Hl). apply burn_as_update in E2.
    exists s1. repeat split; auto; try apply HI'. right. eauto 6.
  - apply mint_as_update in E. exists s. repeat split; auto; try apply HI. right. eauto 6.
  - apply burn_as_update in E. exists s. repeat split; auto; try apply HI. right. eauto 6.
  - exists s. repeat split; auto; try apply HI. right. eauto 6.
  - pose proof (inv_spend o sp v s HI Hwf) as HI'. rewrite E in HI'. cbn in HI'.
    destruct (spend_ok _ _ _ _ _ E) as (Hb&Hs&Hl).
    exists s'. repeat split; auto; try apply HI'.
Qed.

Lemma ledger_step s cx : Inv s -> op_wf (snd cx) -> Ledger s -> Ledger (step s cx).
Proof.
  intros HI Hwf HL. destruct cx as [c x]. unfold step. cbn [fst snd] in *.
  destruct (tx_cases (exec c x) s) as [(u & s' & E & Et)|[Hf Hs]]; [|rewrite Hs; exact HL].
  rewrite Et. cbn [snd]. destruct u.
  destruct (exec_ok_shape c x s s' HI Hwf E) as (s1&HI1&Hb&Hs&[[Hl <-]|(Hl&f&t&v&Hv&Hu)]).
  - apply (ledger_same s); auto.
  - apply (ledger_update f t v s1); auto. apply (ledger_same s); auto.
Qed.

Lemma ledger_run h s : hist_wf h -> Inv s -> Ledger s -> Ledger (run h s).
Proof.
  revert s. induction h as [|cx h IH]; intros s Hwf HI HL; [exact HL|].
  inversion Hwf; subst. cbn. apply IH; auto; [apply inv_step|apply ledger_step]; auto.
Qed.

Lemma ledger_init : Ledger init.
Proof. split; [intros a _; cbn; unfold balance_of; cbn; apply mget_empty|reflexivity]. Qed.

(** ** Approval events bound allowances *)
Lemma last_approval_app o sp l l' acc :
  last_approval o sp (l ++ l') acc = last_approval o sp l' (last_approval o sp l acc).
Proof. revert acc. induction l as [|[?|?] l IH]; intros acc; cbn; auto. Qed.

Definition Bounded (s : state) : Prop :=
  forall o sp, allowance s o sp <= last_approval o sp (log s) 0.

Lemma bounded_update f t v s s' :
  Inv s -> is_u256 v -> Bounded s -> _update f t v s = (Ok tt, s') -> Bounded s'.
Proof.
  intros HI Hv HB H o sp. destruct (update_ok _ _ _ _ _ HI Hv H) as (_&Ha&_&Hl).
  rewrite Ha, Hl, last_approval_app. cbn. apply HB.
Qed.

Lemma bounded_spend o sp v s s' :
  Inv s -> is_u256 v -> Bounded s -> _spend_allowance o sp v s = (Ok tt, s') -> Bounded s'.
Proof.
  intros HI Hv HB E.
  destruct (spend_spec o sp v s HI Hv) as [(_&_&_&E')|[(_&_&_&Hle&E')|(_&e&E'&_)]]; rewrite E' in E; inversion E; subst; auto.
  intros o' sp'. rewrite allowance_set. change (log (set_allowance o sp (allowance s o sp - v) s)) with (log s).
  specialize (HB o' sp'). unfold is_u256 in Hv. case_decide as Hd; [destruct Hd; subst|]; lia.
Qed.

Lemma bounded_step s cx : Inv s -> op_wf (snd cx) -> Bounded s -> Bounded (step s cx).
Proof.
  intros HI Hwf HB. destruct cx as [c x]. unfold step. cbn [fst snd] in *.
  destruct (tx_cases (exec c x) s) as [(u & s' & E & Et)|[Hf Hs]]; [|rewrite Hs; exact HB].
  rewrite Et. cbn [snd]. destruct u. unfold op_wf in Hwf.
  destruct x as [to v|sp' v|f to v|v|a v|a v|a v|f t v|o sp v]; cbn [exec op_value] in *.
  - apply ignore_ok in E. destruct E as [b E]. unfold transfer in E. apply bind_ok in E.
    destruct E as ([]&s1&E1&E2). inversion E2; subst. apply transfer__as_update in E1.
    exact (bounded_update _ _ _ _ _ HI Hwf HB E1).
  - apply ignore_ok in E. destruct E as [b E]. pose proof (approve_ret _ _ _ _ _ _ E); subst b.
    destruct (approve_spec s c sp' v) as (_&H2&_). destruct (H2 _ E) as (_&_&Hv&Ho&Hl).
    intros o sp. rewrite Hl, last_approval_app. cbn.
    destruct ((c =? o) && (sp' =? sp)) eqn:Heq.
    + assert (c = o /\ sp' = sp) as [-> ->] by lia. rewrite Hv. lia.
    + rewrite Ho; [apply HB|]. intros Hx; inversion Hx; subst; lia.
  - apply ignore_ok in E. destruct E as [b E]. unfold transfer_from in E.
    apply bind_ok in E. destruct E as ([]&s1&E1&E2). apply bind_ok in E2. destruct E2 as ([]&s2&E2&E3).
    inversion E3; subst. pose proof (inv_spend f c v s HI Hwf) as HI'. rewrite E1 in HI'. cbn in HI'.
    apply transfer__as_update in E2. refine (bounded_update _ _ _ _ _ HI' Hwf _ E2). exact (bounded_spend _ _ _ _ _ HI Hwf HB E1).
  - unfold burn in E. apply burn_as_update in E. exact (bounded_update _ _ _ _ _ HI Hwf HB E).
  - unfold burn_from in E. apply bind_ok in E. destruct E as ([]&s1&E1&E2).
    pose proof (inv_spend a c v s HI Hwf) as HI'. rewrite E1 in HI'. cbn in HI'.
    apply burn_as_update in E2. refine (bounded_update _ _ _ _ _ HI' Hwf _ E2). exact (bounded_spend _ _ _ _ _ HI Hwf HB E1).
  - apply mint_as_update in E. exact (bounded_update _ _ _ _ _ HI Hwf HB E).
  - apply burn_as_update in E. exact (bounded_update _ _ _ _ _ HI Hwf HB E).
  - exact (bounded_update _ _ _ _ _ HI Hwf HB E).
  - exact (bounded_spend _ _ _ _ _ HI Hwf HB E).
Qed.

Lemma bounded_run h s : hist_wf h -> Inv s -> Bounded s -> Bounded (run h s).
Proof.
  revert s. induction h as [|cx h IH]; intros s Hwf HI HL; [exact HL|].
  inversion Hwf; subst. cbn. apply IH; auto; [apply inv_step|apply bounded_step]; auto.
Qed.
Lemma bounded_init : Bounded init.
Proof. intros o sp. cbn. unfold allowance; cbn. rewrite mget_empty. lia. Qed.
