(** Property theorems for the ERC-20 wrapper (C10). *)
From Verif.Base Require Import Prelude Maps.
From Verif.Model Require Erc20 SafeErc20 Erc20World Wrapper.
From Verif.Spec Require Import Erc20_spec World_spec.
From Verif.Proofs Require Import Erc20_inv Erc20_api Erc20_hist World_lemmas.
From stdpp Require Import gmap.
Import SafeErc20 Erc20World Wrapper.
#[global] Open Scope Z_scope.

(** Calls that can occur: 256-bit amounts; the wrapper contract does not call itself and
    only calls the underlying through the modelled functions; the wrapped token is only
    used through its public API (no extra mint). *)
Definition call_wf (this : Z) (c : call) : Prop :=
  match c with
  | DepositFor s _ v => is_u256 v
  | WithdrawTo s _ v => s <> this /\ is_u256 v
  | Recover _ => True
  | Token s o => Erc20.op_wf o /\ public_op o
  | Underlying s o => s <> this /\ Erc20.op_wf o /\ third_party_op o
  end.

Section wrapper.
  Context (this under : Z) (Hthis : this <> 0).
  Notation x := (honest_ext this under).

  Definition reachable (w : world) : Prop :=
    exists h, Forall (call_wf this) h /\ w = run x under h winit.

  Record WInv (w : world) : Prop := {
    wi_a : Inv (asset_st w);
    wi_t : Inv (tok w);
    wi_n : approves_nobody (asset_st w) this;
    wi_b : share_supply w <= asset_bal w this
  }.

  (** The three operations, completely. *)
  Lemma deposit_cases s a v w : WInv w -> is_u256 v ->
    let pre := s <> this /\ a <> this /\ s <> 0 /\ a <> 0 /\ v <= asset_bal w s /\ can_take (asset_st w) s this v in
    (pre /\ exists u' t', deposit_for x under s a v w = (Ok true, set_tok t' (set_asset u' w)) /\
       Inv u' /\ Inv t' /\
       moved (asset_st w) u' s this v /\ Erc20.allowance u' s this = allowance_after (asset_st w) s this v /\
       other_allowances_same (asset_st w) u' s this /\
       Erc20.balance_of t' a = Erc20.balance_of (tok w) a + v /\
       (forall b, b <> a -> Erc20.balance_of t' b = Erc20.balance_of (tok w) b) /\
       Erc20.total_supply t' = Erc20.total_supply (tok w) + v /\ same_allowances (tok w) t' /\
       Erc20.log t' = Erc20.log (tok w) ++ [Erc20.Transfer 0 a v]) \/
    (~ pre /\ exists e, fst (deposit_for x under s a v w) = Err e).
  Proof.
    intros HW Hv pre. destruct HW as [HA HT HN HB]. unfold deposit_for, bind, fail_if. cbn [self honest_ext].
    destruct (Z.eqb_spec s this) as [->|Hs]; [right; split; [unfold pre; tauto|eexists; reflexivity]|].
    destruct (Z.eqb_spec a this) as [->|Ha]; [right; split; [unfold pre; tauto|eexists; reflexivity]|].
    unfold map_err.
    destruct (safe_transfer_from_honest this under s v w HA Hv) as
      [(_ & B1 & B2 & B3 & u' & E & HI' & Hm & Hal & Hoa)|(Hno & E)]; rewrite E.
    2: { right. split; [unfold pre; intros (_ & _ & P1 & _ & P2 & P3); apply Hno; tauto|eexists; reflexivity]. }
    unfold on_tok, zoom. cbn [tok set_asset].
    destruct (mint_spec (tok w) a v HT Hv) as (M1 & M2 & M3). pose proof (inv_mint a v (tok w) HT Hv) as HT'.
    destruct (Erc20._mint a v (tok w)) as [r t'] eqn:EM. cbn [snd fst] in *.
    destruct (Z.eq_dec a 0) as [->|Ha0].
    { right. split; [unfold pre; tauto|]. destruct r as [[]|e|].
      - exfalso. destruct (proj1 M1 eq_refl); congruence.
      - eexists; reflexivity.
      - destruct (M3 Panic t' eq_refl ltac:(discriminate)) as [_ Q]. discriminate Q. }
    assert (Hr : r = Ok tt).
    { apply M1. split; [exact Ha0|]. unfold share_supply, asset_bal in HB. unfold asset_bal in B2.
      pose proof (bal2_le_supply _ HA s this Hs). pose proof (inv_max _ HA). lia. }
    subst r. left. split; [unfold pre; tauto|].
    destruct (M2 t' eq_refl) as (Q1 & Q2 & Q3 & Q4 & Q5). exists u', t'.
    split; [reflexivity|]. split; [exact HI'|]. split; [exact HT'|]. split; [exact Hm|]. split; [exact Hal|].
    split; [exact Hoa|]. repeat split; assumption.
  Qed.

  Lemma withdraw_cases s a v w : WInv w -> s <> this -> is_u256 v ->
    let pre := a <> this /\ s <> 0 /\ a <> 0 /\ v <= share_bal w s in
    (pre /\ exists u' t', withdraw_to x under s a v w = (Ok true, set_asset u' (set_tok t' w)) /\
       Inv u' /\ Inv t' /\
       moved (asset_st w) u' this a v /\ same_allowances (asset_st w) u' /\
       Erc20.balance_of t' s = Erc20.balance_of (tok w) s - v /\
       (forall b, b <> s -> Erc20.balance_of t' b = Erc20.balance_of (tok w) b) /\
       Erc20.total_supply t' = Erc20.total_supply (tok w) - v /\ same_allowances (tok w) t' /\
       Erc20.log t' = Erc20.log (tok w) ++ [Erc20.Transfer s 0 v]) \/
    (~ pre /\ exists e, fst (withdraw_to x under s a v w) = Err e).
  Proof.
    intros HW Hs Hv pre. destruct HW as [HA HT HN HB]. unfold withdraw_to, bind, fail_if. cbn [self honest_ext].
    destruct (Z.eqb_spec a this) as [->|Ha]; [right; split; [unfold pre; tauto|eexists; reflexivity]|].
    unfold map_err, on_tok, zoom.
    destruct (burn_spec (tok w) s v HT Hv) as (M1 & M2 & M3). pose proof (inv_burn_ s v (tok w) HT Hv) as HT'.
    destruct (Erc20._burn s v (tok w)) as [r t'] eqn:EB. cbn [fst snd] in *.
    assert (Hr : r = Ok tt \/ r <> Ok tt) by (destruct r as [[]|e|]; [left; reflexivity|right; discriminate|right; discriminate]).
    destruct Hr as [->|Hr].
    2: { right. split; [intros (_ & P1 & _ & P2); apply Hr, M1; split; assumption|].
         destruct (M3 r t' eq_refl Hr) as [_ ->]. destruct (s =? 0); eexists; reflexivity. }
    destruct (proj1 M1 eq_refl) as [Hs0 Hle]. destruct (M2 t' eq_refl) as (Q1 & Q2 & Q3 & Q4 & Q5).
    destruct (safe_transfer_honest this under a v (set_tok t' w) HA Hv) as
      [(_ & B1 & B2 & u' & E & HI' & Hm & Hal)|(Hno & E)]; rewrite E.
    - left. split; [unfold pre; tauto|]. exists u', t'. split; [reflexivity|]. split; [exact HI'|]. split; [exact HT'|].
      split; [exact Hm|]. split; [exact Hal|]. repeat split; assumption.
    - right. split; [|eexists; reflexivity]. intros (_ & _ & P1 & P2). apply Hno. split; [exact Hthis|]. split; [exact P1|].
      cbn [asset_st set_tok]. unfold share_supply, asset_bal, share_bal in *.
      pose proof (bal_le_supply _ HT s). unfold Erc20.total_supply in HB. lia.
  Qed.

  Lemma recover_cases a w : WInv w ->
    let excess := asset_bal w this - share_supply w in
    0 <= excess /\
    (((a <> 0 \/ excess = 0) /\ exists t', _recover x under a w = (Ok excess, set_tok t' w) /\ Inv t' /\
       Erc20.balance_of t' a = Erc20.balance_of (tok w) a + excess /\
       (forall b, b <> a -> Erc20.balance_of t' b = Erc20.balance_of (tok w) b) /\
       Erc20.total_supply t' = asset_bal w this /\ same_allowances (tok w) t' /\
       Erc20.log t' = Erc20.log (tok w) ++ (if 0 <? excess then [Erc20.Transfer 0 a excess] else [])) \/
     (a = 0 /\ excess <> 0) /\ exists e, fst (_recover x under a w) = Err e).
  Proof.
    intros HW excess. destruct HW as [HA HT HN HB]. split; [unfold excess; lia|].
    unfold _recover. cbn [self honest_ext]. rewrite (balance_of_honest this under this w HA).
    unfold bind, csub. unfold share_supply, asset_bal in *.
    replace (Erc20.total_supply (tok w) <=? Erc20.balance_of (asset_st w) this) with true by lia.
    fold excess. destruct (Z.ltb_spec 0 excess) as [He|He].
    - unfold map_err, on_tok, zoom.
      assert (Hv : is_u256 excess). { pose proof (bal_u256 (asset_st w) this HA) as B. pose proof (supply_nonneg _ HT) as B2.
        unfold is_u256, excess, Erc20.total_supply in *. lia. }
      destruct (mint_spec (tok w) a excess HT Hv) as (M1 & M2 & M3). pose proof (inv_mint a excess (tok w) HT Hv) as HT'.
      destruct (Erc20._mint a excess (tok w)) as [r t'] eqn:EM. cbn [snd fst] in *.
      destruct (Z.eq_dec a 0) as [->|Ha0].
      { right. split; [split; [reflexivity|lia]|]. destruct r as [[]|e|].
        - exfalso. destruct (proj1 M1 eq_refl); congruence.
        - eexists; reflexivity.
        - destruct (M3 Panic t' eq_refl ltac:(discriminate)) as [_ Q]. discriminate Q. }
      assert (Hr : r = Ok tt).
      { apply M1. split; [exact Ha0|]. pose proof (bal_u256 (asset_st w) this HA) as B. unfold is_u256 in B. unfold excess. lia. }
      subst r. left. split; [left; exact Ha0|]. destruct (M2 t' eq_refl) as (Q1 & Q2 & Q3 & Q4 & Q5).
      exists t'. split; [reflexivity|]. split; [exact HT'|]. split; [exact Q1|]. split; [exact Q2|].
      split; [rewrite Q3; unfold excess; lia|]. split; assumption.
    - left. assert (E0 : excess = 0) by (unfold excess in *; lia). split; [right; exact E0|].
      exists (tok w). split; [destruct w; reflexivity|]. split; [exact HT|]. rewrite E0, Z.add_0_r, app_nil_r.
      split; [reflexivity|]. split; [reflexivity|]. split; [unfold excess in E0; lia|]. split; [intros ? ?; reflexivity|reflexivity].
  Qed.

  Lemma winv_init : WInv winit.
  Proof. split; [apply inv_init|apply inv_init| |]; cbn; [intros sp; reflexivity|apply Z.le_refl]. Qed.

  Lemma moved_other u u' f t v b : moved u u' f t v -> b <> 0 -> Erc20.balance_of u' b = Erc20.balance_of u b - delta b f v + delta b t v.
  Proof. intros [H _] Hb. exact (H b Hb). Qed.

  Lemma winv_step w c : WInv w -> call_wf this c -> WInv (step x under w c).
  Proof.
    intros HW Hc. unfold step. pose proof HW as [HA HT HN HB].
    destruct c as [s a v|s a v|a|s o|s o]; cbn [call_wf] in Hc; cbn [exec].
    - unfold tx, Erc20.ignore, bind.
      destruct (deposit_cases s a v w HW Hc) as [((P1 & _) & u' & t' & E & I1 & I2 & Hm & Ha1 & Ha2 & Q1 & Q2 & Q3 & _)|(_ & e & E)].
      + rewrite E. cbn. split; cbn; [exact I1|exact I2| |].
        * intros sp. rewrite Ha2; [apply HN|congruence].
        * unfold share_supply, asset_bal in *; cbn. rewrite Q3, (moved_other _ _ _ _ _ this Hm Hthis).
          unfold delta. rewrite Z.eqb_refl. replace (this =? s) with false by lia. lia.
      + destruct (deposit_for x under s a v w) as [r w']. cbn [fst] in E. subst r. exact HW.
    - destruct Hc as [Hs Hv]. unfold tx, Erc20.ignore, bind.
      destruct (withdraw_cases s a v w HW Hs Hv) as [((P1 & _) & u' & t' & E & I1 & I2 & Hm & Ha & Q1 & Q2 & Q3 & _)|(_ & e & E)].
      + rewrite E. cbn. split; cbn; [exact I1|exact I2| |].
        * intros sp. rewrite Ha. apply HN.
        * unfold share_supply, asset_bal in *; cbn. rewrite Q3, (moved_other _ _ _ _ _ this Hm Hthis).
          unfold delta. rewrite Z.eqb_refl. replace (this =? a) with false by lia. lia.
      + destruct (withdraw_to x under s a v w) as [r w']. cbn [fst] in E. subst r. exact HW.
    - unfold tx, Erc20.ignore, bind.
      destruct (recover_cases a w HW) as (Hx & [(_ & t' & E & I2 & _ & _ & Q3 & _)|(_ & e & E)]).
      + rewrite E. cbn. split; cbn; [exact HA|exact I2|exact HN|].
        unfold share_supply, asset_bal in *; cbn. lia.
      + destruct (_recover x under a w) as [r w']. cbn [fst] in E. subst r. exact HW.
    - destruct Hc as [Hw Hp].
      assert (E : snd (tx (map_err ErrErc20 (on_tok (Erc20.exec s o))) w) = set_tok (Erc20.step (tok w) (s, o)) w).
      { unfold Erc20.step, tx, map_err, on_tok, zoom. cbn [fst snd]. destruct w as [u t ev]; cbn.
        destruct (Erc20.exec s o t) as [[[]|e|] t']; reflexivity. }
      rewrite E. pose proof (inv_step (tok w) (s, o) HT Hw) as HT'.
      split; cbn; [exact HA|exact HT'|exact HN|]. unfold share_supply, asset_bal in *; cbn.
      assert (Hsup : Erc20.total_supply (Erc20.step (tok w) (s, o)) <= Erc20.total_supply (tok w)); [|lia].
      apply public_supply_le; assumption.
    - destruct Hc as (Hs & Hw & Ho).
      assert (E : snd (tx (map_err ErrErc20 (on_asset (Erc20.exec s o))) w) = set_asset (Erc20.step (asset_st w) (s, o)) w).
      { unfold Erc20.step, tx, map_err, on_asset, zoom. cbn [fst snd]. destruct w as [u t ev]; cbn.
        destruct (Erc20.exec s o u) as [[[]|e|] u']; reflexivity. }
      rewrite E. destruct (third_party_step this (asset_st w) s o HA HN Hthis Hs Hw Ho) as (I1 & I2 & I3).
      split; cbn; [exact I1|exact HT|exact I2|]. unfold share_supply, asset_bal in *; cbn. lia.
  Qed.

  Lemma reachable_winv w : reachable w -> WInv w.
  Proof.
    intros (h & Hh & ->). assert (G : forall w, WInv w -> WInv (run x under h w)); [|apply G, winv_init].
    induction Hh as [|c h Hc Hh IH]; intros w HW; [exact HW|]. apply IH. apply winv_step; assumption.
  Qed.

  (** ** C10 *)

  (** After every interleaving of calls on the wrapper and on the underlying token, the
      wrapped supply is covered by the wrapper's underlying balance; and so is every
      individual holder. *)
  Theorem c10_always_backed :
    forall w, reachable w ->
    share_supply w <= asset_bal w this /\ (forall a, share_bal w a <= asset_bal w this).
  Proof.
    intros w Hr. destruct (reachable_winv w Hr) as [HA HT HN HB]. split; [exact HB|].
    intros a. pose proof (bal_le_supply _ HT a). unfold share_supply, share_bal, Erc20.total_supply in *. lia.
  Qed.

  (** deposit_for succeeds exactly under the obvious conditions and swaps one for one. *)
  Theorem c10_deposit_one_for_one :
    forall w s a v, reachable w -> is_u256 v ->
    let pre := s <> this /\ a <> this /\ s <> 0 /\ a <> 0 /\ v <= asset_bal w s /\ can_take (asset_st w) s this v in
    (fst (deposit_for x under s a v w) = Ok true <-> pre) /\
    forall w', deposit_for x under s a v w = (Ok true, w') ->
      moved (asset_st w) (asset_st w') s this v /\
      Erc20.allowance (asset_st w') s this = allowance_after (asset_st w) s this v /\
      other_allowances_same (asset_st w) (asset_st w') s this /\
      (forall b, share_bal w' b = share_bal w b + delta b a v) /\
      share_supply w' = share_supply w + v /\ same_allowances (tok w) (tok w') /\
      Erc20.log (tok w') = Erc20.log (tok w) ++ [Erc20.Transfer 0 a v].
  Proof.
    intros w s a v Hr Hv pre. apply reachable_winv in Hr.
    destruct (deposit_cases s a v w Hr Hv) as [(P & u' & t' & E & I1 & I2 & Hm & Ha1 & Ha2 & Q1 & Q2 & Q3 & Q4 & Q5)|(P & e & E)].
    - rewrite E. split; [split; [intros _; exact P|reflexivity]|]. intros w' HH. injection HH as <-. cbn.
      split; [exact Hm|]. split; [exact Ha1|]. split; [exact Ha2|]. split.
      { intros b. unfold share_bal, delta; cbn. destruct (Z.eqb_spec b a) as [->|Hne]; [exact Q1|rewrite Q2 by exact Hne; lia]. }
      split; [exact Q3|]. split; assumption.
    - split; [split; [rewrite E; discriminate|contradiction]|].
      intros w' HH. rewrite HH in E. discriminate.
  Qed.

  (** withdraw_to succeeds exactly if the holder has the tokens, and swaps back. *)
  Theorem c10_withdraw_one_for_one :
    forall w s a v, reachable w -> s <> this -> is_u256 v ->
    let pre := a <> this /\ s <> 0 /\ a <> 0 /\ v <= share_bal w s in
    (fst (withdraw_to x under s a v w) = Ok true <-> pre) /\
    forall w', withdraw_to x under s a v w = (Ok true, w') ->
      moved (asset_st w) (asset_st w') this a v /\ same_allowances (asset_st w) (asset_st w') /\
      (forall b, share_bal w' b = share_bal w b - delta b s v) /\
      share_supply w' = share_supply w - v /\ same_allowances (tok w) (tok w') /\
      Erc20.log (tok w') = Erc20.log (tok w) ++ [Erc20.Transfer s 0 v].
  Proof.
    intros w s a v Hr Hs Hv pre. apply reachable_winv in Hr.
    destruct (withdraw_cases s a v w Hr Hs Hv) as [(P & u' & t' & E & I1 & I2 & Hm & Ha & Q1 & Q2 & Q3 & Q4 & Q5)|(P & e & E)].
    - rewrite E. split; [split; [intros _; exact P|reflexivity]|]. intros w' HH. injection HH as <-. cbn.
      split; [exact Hm|]. split; [exact Ha|]. split.
      { intros b. unfold share_bal, delta; cbn. destruct (Z.eqb_spec b s) as [->|Hne]; [exact Q1|rewrite Q2 by exact Hne; lia]. }
      split; [exact Q3|]. split; assumption.
    - split; [split; [rewrite E; discriminate|contradiction]|].
      intros w' HH. rewrite HH in E. discriminate.
  Qed.

  (** Any holder can always take out everything it holds. *)
  Theorem c10_holder_can_exit :
    forall w s a, reachable w -> s <> this -> s <> 0 -> a <> 0 -> a <> this ->
    exists w', withdraw_to x under s a (share_bal w s) w = (Ok true, w') /\
      share_bal w' s = 0 /\ asset_bal w' a = asset_bal w a + share_bal w s.
  Proof.
    intros w s a Hr Hs Hs0 Ha0 Ha. pose proof (reachable_winv w Hr) as HW.
    assert (Hv : is_u256 (share_bal w s)) by (apply bal_u256, HW).
    destruct (c10_withdraw_one_for_one w s a (share_bal w s) Hr Hs Hv) as [A B].
    destruct (withdraw_to x under s a (share_bal w s) w) as [r w'] eqn:E. cbn [fst] in A.
    assert (r = Ok true) as -> by (apply A; repeat split; try assumption; lia).
    destruct (B w' eq_refl) as (Hm & _ & Hb & _). exists w'. split; [reflexivity|]. split.
    - rewrite Hb. unfold delta. rewrite Z.eqb_refl. lia.
    - unfold asset_bal. rewrite (moved_other _ _ _ _ _ a Hm Ha0). unfold delta. rewrite Z.eqb_refl.
      replace (a =? this) with false by lia. lia.
  Qed.

  (** _recover mints exactly the excess (never panics), after which supply = balance. *)
  Theorem c10_recover_exact :
    forall w a, reachable w ->
    let excess := asset_bal w this - share_supply w in
    (fst (_recover x under a w) = Ok excess <-> (a <> 0 \/ excess = 0)) /\
    fst (_recover x under a w) <> Panic /\
    forall r w', _recover x under a w = (Ok r, w') ->
      r = excess /\ asset_st w' = asset_st w /\
      (forall b, share_bal w' b = share_bal w b + delta b a excess) /\
      share_supply w' = asset_bal w' this /\ same_allowances (tok w) (tok w') /\
      Erc20.log (tok w') = Erc20.log (tok w) ++ (if 0 <? excess then [Erc20.Transfer 0 a excess] else []).
  Proof.
    intros w a Hr excess. apply reachable_winv in Hr.
    destruct (recover_cases a w Hr) as (Hx & [(P & t' & E & I2 & Q1 & Q2 & Q3 & Q4 & Q5)|(P & e & E)]).
    - rewrite E. split; [split; [intros _; exact P|reflexivity]|]. split; [discriminate|].
      intros r w' HH. injection HH as <- <-. cbn. split; [reflexivity|]. split; [reflexivity|]. split.
      { intros b. unfold share_bal, delta; cbn. destruct (Z.eqb_spec b a) as [->|Hne]; [exact Q1|rewrite Q2 by exact Hne; lia]. }
      split; [exact Q3|]. split; assumption.
    - split; [split; [rewrite E; discriminate|tauto]|]. split; [rewrite E; discriminate|].
      intros r w' HH. rewrite HH in E. discriminate.
  Qed.
End wrapper.
Print Assumptions c10_always_backed.
Print Assumptions c10_deposit_one_for_one.
Print Assumptions c10_withdraw_one_for_one.
Print Assumptions c10_holder_can_exit.
Print Assumptions c10_recover_exact.

(** Witness: wrapper 100 over token 200; account 1 gets 1000, wraps 600 for account 2,
    donates 50 directly; account 2 unwraps 100; the excess is recovered to account 3. *)
Definition demo_hist : list call :=
  [Underlying 9 (Erc20.OMint 1 1000); Underlying 1 (Erc20.OApprove 100 700); DepositFor 1 2 600;
   Underlying 1 (Erc20.OTransfer 100 50); WithdrawTo 2 4 100; Recover 3; Token 2 (Erc20.OTransfer 5 7)].
Definition demo_world : world := run (honest_ext 100 200) 200 demo_hist winit.
Example c10_nonvacuous :
  reachable 100 200 demo_world /\ share_supply demo_world = 550 /\ asset_bal demo_world 100 = 550 /\
  share_bal demo_world 2 = 493 /\ share_bal demo_world 3 = 50 /\ asset_bal demo_world 4 = 100.
Proof.
  split; [exists demo_hist; split; [|reflexivity]|repeat split; vm_compute; reflexivity].
  assert (two256 > 100000) by reflexivity.
  repeat apply Forall_cons_2; try apply Forall_nil_2; cbn; unfold Erc20.op_wf, is_u256, third_party_op; cbn;
    repeat split; try lia; first [left; exact I | right; eauto].
Qed.
