From Verif.Base Require Import Prelude Maps.
From Verif.Model Require Erc20 SafeErc20 Erc20World Erc4626 Math VaultHooks.
From Verif.Spec Require Import Erc20_spec World_spec Erc4626_spec VaultHooks_spec.
From Verif.Proofs Require Import Erc20_inv Erc20_api Erc20_hist World_lemmas Erc4626_lemmas.
Import SafeErc20 Erc20World Math Erc4626 VaultHooks.
#[global] Open Scope Z_scope.

Lemma rcall_ind' (P : rcall -> Prop) :
  (forall c pre post, Forall P pre -> Forall P post -> P (RCall c pre post)) -> forall r, P r.
Proof.
  intros H. fix IH 1. intros [c pre post]. apply H.
  - induction pre as [|r l IHl]; constructor; [apply IH|exact IHl].
  - induction post as [|r l IHl]; constructor; [apply IH|exact IHl].
Qed.

Section vault.
  Context (this asset offset : Z) (Hthis : this <> 0) (Hoff : 0 <= offset < 256).
  Notation x := (honest_ext this asset).
  Notation A1 := (assets1 this).
  Notation S1 := (shares1 offset).
  Notation VInv := (VInv this).
  Notation rate_le := (rate_le this offset).

  (** Taking assets in after hooks [f] is taking them in from the state [f] leaves. *)
  Lemma deposit_hooked f cl r a s w :
    match _deposit (hooked this asset f (fun w => w)) asset cl r a s w with
    | (Ok _, w') => _deposit x asset cl r a s (f w) = (Ok tt, w')
    | _ => True
    end.
  Proof.
    unfold _deposit, bind, map_err, safe_transfer_from, call_optional_return, limited_call, modify.
    change (has_code (hooked this asset f (fun w0 => w0)) asset) with (has_code x asset).
    destruct (negb (has_code x asset)); [exact I|].
    change (raw_call (hooked this asset f (fun w0 => w0)) asset (CTransferFrom cl (self (hooked this asset f (fun w0 => w0))) a) w)
      with (match raw_call x asset (CTransferFrom cl (self x) a) (f w) with Some (d, w') => Some (d, w') | None => None end).
    destruct (raw_call x asset (CTransferFrom cl (self x) a) (f w)) as [[d w']|]; [|exact I].
    destruct (_ || _); [|exact I].
    destruct (on_tok (Erc20._mint r s) w') as [[[]|e|] w2]; [reflexivity|exact I|exact I].
  Qed.
  (** Paying assets out and running hooks [g] is paying out first. *)
  Lemma withdraw_hooked g cl r o a s w :
    match _withdraw (hooked this asset (fun w => w) g) asset cl r o a s w with
    | (Ok _, w') => exists w1, _withdraw x asset cl r o a s w = (Ok tt, log_ev (Withdraw cl r o a s) w1) /\
                      w' = log_ev (Withdraw cl r o a s) (g w1)
    | _ => True
    end.
  Proof.
    unfold _withdraw.
    set (sp := if negb (cl =? o) then map_err ErrErc20 (on_tok (Erc20._spend_allowance o cl s)) else ret tt). clearbody sp.
    unfold bind, map_err, safe_transfer, call_optional_return, limited_call, modify.
    change (has_code (hooked this asset (fun w0 => w0) g) asset) with (has_code x asset).
    destruct (sp w) as [[[]|e|] w0]; [|exact I|exact I].
    destruct (on_tok (Erc20._burn o s) w0) as [[[]|e|] w1]; [|exact I|exact I].
    destruct (negb (has_code x asset)); [exact I|].
    change (raw_call (hooked this asset (fun w0 => w0) g) asset (CTransfer r a) w1)
      with (match raw_call x asset (CTransfer r a) w1 with Some (d, w') => Some (d, g w') | None => None end).
    destruct (raw_call x asset (CTransfer r a) w1) as [[d w2]|]; [|exact I].
    destruct (_ || _); [|exact I]. exists w2. split; reflexivity.
  Qed.

  Definition good (f : world -> world) : Prop := forall w, VInv w -> VInv (f w) /\ rate_le w (f w).

  Lemma same w : VInv w -> VInv w /\ rate_le w w.
  Proof. intros H. split; [exact H|unfold Erc4626_lemmas.rate_le; lia]. Qed.
  Lemma good_fold l : Forall (fun r => good (fun w => rstep this asset offset w r)) l ->
    good (fold_left (rstep this asset offset) l).
  Proof.
    induction 1 as [|r l Hr _ IH]; intros w HW; cbn [fold_left]; [apply same, HW|].
    destruct (Hr w HW) as [H1 L1]. destruct (IH _ H1) as [H2 L2]. split; [exact H2|].
    exact (rate_trans this offset Hoff _ _ _ H1 HW H2 L1 L2).
  Qed.

  (** Assets [a] come in for [s] shares priced at a rate the state between has not fallen
      below. *)
  Lemma in_rate w w1 w' cl r a s : VInv w -> VInv w1 -> rate_le w w1 -> cl <> this ->
    s * A1 w <= a * S1 w -> deposited this w1 w' cl r a s -> rate_le w w'.
  Proof.
    intros H H1 L Hc Hs D. unfold Erc4626_lemmas.rate_le in *.
    destruct (deposited_rate this offset Hthis _ _ _ _ _ _ D Hc) as [-> ->].
    pose proof (ok_pos this offset Hoff _ (vinv_ok this _ H)) as [P1 P2]. lia.
  Qed.
  Lemma good_deposit f cl a r : good f -> cl <> this -> is_u256 a ->
    good (fun w => snd (tx (Erc20.ignore (deposit (hooked this asset f (fun w => w)) asset offset cl a r)) w)).
  Proof.
    intros Hf Hc Ha w HW. pose proof (vinv_ok this w HW) as Hok. unfold tx, Erc20.ignore, deposit, bind, fail_if, max_deposit, preview_deposit.
    pose proof Ha as Ha'. unfold is_u256 in Ha'. replace (U256_MAX <? a) with false by (unfold U256_MAX; lia).
    change (_convert_to_shares (hooked this asset f (fun w0 => w0)) asset offset a Floor w) with (_convert_to_shares x asset offset a Floor w).
    destruct (to_shares_cases this asset offset Hoff a Floor w Hok Ha) as [(s & Hr & R & B & E)|(R & E)]; rewrite E; [|apply same, HW].
    pose proof (deposit_hooked f cl r a s w) as HD.
    destruct (_deposit (hooked this asset f (fun w0 => w0)) asset cl r a s w) as [[[]|e|] w'];
      cbn [ret fst snd]; [|apply same, HW|apply same, HW].
    destruct (Hf w HW) as [H1 L1].
    destruct (deposit__cases this asset offset Hthis Hoff cl r a s (f w) H1 Hc Ha B) as [(P & w2 & E2 & HW' & D)|(P & E2)].
    - rewrite HD in E2. injection E2 as ->. split; [exact HW'|]. refine (in_rate w (f w) _ cl r a s HW H1 L1 Hc _ D). destruct R. lia.
    - rewrite HD in E2. discriminate.
  Qed.
  Lemma good_mint f cl s r : good f -> cl <> this -> is_u256 s ->
    good (fun w => snd (tx (Erc20.ignore (mint (hooked this asset f (fun w => w)) asset offset cl s r)) w)).
  Proof.
    intros Hf Hc Ha w HW. pose proof (vinv_ok this w HW) as Hok. unfold tx, Erc20.ignore, mint, bind, fail_if, max_mint, preview_mint.
    pose proof Ha as Ha'. unfold is_u256 in Ha'. replace (U256_MAX <? s) with false by (unfold U256_MAX; lia).
    change (_convert_to_assets (hooked this asset f (fun w0 => w0)) asset offset s Ceil w) with (_convert_to_assets x asset offset s Ceil w).
    destruct (to_assets_cases this asset offset Hoff s Ceil w Hok Ha) as [(a & Hr & R & B & E)|(R & E)]; rewrite E; [|apply same, HW].
    pose proof (deposit_hooked f cl r a s w) as HD.
    destruct (_deposit (hooked this asset f (fun w0 => w0)) asset cl r a s w) as [[[]|e|] w'];
      cbn [ret fst snd]; [|apply same, HW|apply same, HW].
    destruct (Hf w HW) as [H1 L1].
    destruct (deposit__cases this asset offset Hthis Hoff cl r a s (f w) H1 Hc B Ha) as [(P & w2 & E2 & HW' & D)|(P & E2)].
    - rewrite HD in E2. injection E2 as ->. split; [exact HW'|]. refine (in_rate w (f w) _ cl r a s HW H1 L1 Hc _ D). destruct R. lia.
    - rewrite HD in E2. discriminate.
  Qed.

  (** Going out, the hooks run in the state the plain call leaves. *)
  Lemma good_log e w w' : VInv w' -> rate_le w w' -> VInv (log_ev e w') /\ rate_le w (log_ev e w').
  Proof. intros [H1 H2 H3] L. split; [split; assumption|exact L]. Qed.
  Lemma good_out g (m mh : M world error Z) e w :
    good g -> VInv w ->
    (VInv (snd (tx (Erc20.ignore m) w)) /\ rate_le w (snd (tx (Erc20.ignore m) w))) ->
    match mh w with
    | (Ok _, w') => exists w1 v, m w = (Ok v, log_ev e w1) /\ w' = log_ev e (g w1)
    | _ => True
    end ->
    VInv (snd (tx (Erc20.ignore mh) w)) /\ rate_le w (snd (tx (Erc20.ignore mh) w)).
  Proof.
    intros Hg HW [I1 L1] H. unfold tx, Erc20.ignore, bind in *.
    destruct (mh w) as [[v|er|] w']; cbn [ret fst snd]; [|apply same, HW|apply same, HW].
    destruct H as (w1 & v' & E & ->). rewrite E in *. cbn [ret fst snd] in *.
    assert (H1 : VInv w1) by (destruct I1; split; assumption). destruct (Hg w1 H1) as [H2 L2].
    apply good_log; [exact H2|]. exact (rate_trans this offset Hoff _ _ _ H1 HW H2 L1 L2).
  Qed.
  Lemma good_withdraw g cl a r o : good g -> cl <> this -> is_u256 a ->
    good (fun w => snd (tx (Erc20.ignore (withdraw (hooked this asset (fun w => w) g) asset offset cl a r o)) w)).
  Proof.
    intros Hg Hc Ha w HW.
    pose proof (step_ok this asset offset Hthis Hoff w (VWithdraw cl a r o) HW (conj Hc Ha)) as HS.
    unfold step in HS. cbn [exec] in HS.
    destruct (is_ok (fst (_convert_to_shares x asset offset a Ceil w))) eqn:EO.
    2: { assert (EN : is_ok (fst (withdraw (hooked this asset (fun w => w) g) asset offset cl a r o w)) = false).
         { unfold withdraw, max_withdraw, preview_withdraw, bind, gets, fail_if.
           change (_convert_to_assets (hooked this asset (fun w0 => w0) g)) with (_convert_to_assets x).
           change (_convert_to_shares (hooked this asset (fun w0 => w0) g)) with (_convert_to_shares x).
           rewrite (to_assets_eq this asset offset Hoff _ _ _ (vinv_ok this w HW)).
           destruct (if (A1 w <? two256) && (S1 w <? two256) then mul_div (Erc20.balance_of (tok w) o) (A1 w) (S1 w) Floor else Panic) as [m|e|]; [|reflexivity|reflexivity].
           destruct (m <? a); [reflexivity|]. 
           destruct (_convert_to_shares x asset offset a Ceil w) as [[s|e|] w1]; [discriminate|reflexivity|reflexivity]. }
         unfold tx, Erc20.ignore, bind.
         destruct (withdraw (hooked this asset (fun w0 => w0) g) asset offset cl a r o w) as [[v|e|] w'];
           [discriminate|apply same, HW|apply same, HW]. }
    destruct (_convert_to_shares x asset offset a Ceil w) as [[s|e|] w0] eqn:ES; [|discriminate|discriminate].
    assert (w0 = w) as -> by (rewrite (to_shares_eq this asset offset Hoff _ _ _ (vinv_ok this w HW)) in ES; congruence).
    refine (good_out g _ _ (Withdraw cl r o a s) w Hg HW HS _). clear HS.
    unfold withdraw, max_withdraw, preview_withdraw, bind, gets, fail_if.
    change (_convert_to_assets (hooked this asset (fun w0 => w0) g)) with (_convert_to_assets x).
    change (_convert_to_shares (hooked this asset (fun w0 => w0) g)) with (_convert_to_shares x).
    rewrite !(to_assets_eq this asset offset Hoff _ _ _ (vinv_ok this w HW)).
    destruct (if (A1 w <? two256) && (S1 w <? two256) then mul_div (Erc20.balance_of (tok w) o) (A1 w) (S1 w) Floor else Panic) as [m|e|]; [|exact I|exact I].
    destruct (m <? a); [exact I|]. cbn [ret]. rewrite ES. pose proof (withdraw_hooked g cl r o a s w) as HD.
    destruct (_withdraw (hooked this asset (fun w0 => w0) g) asset cl r o a s w) as [[[]|e|] w']; [|exact I|exact I].
    destruct HD as (w1 & E & ->). rewrite E. exists w1, s. split; reflexivity.
  Qed.
  Lemma good_redeem g cl s r o : good g -> cl <> this -> is_u256 s ->
    good (fun w => snd (tx (Erc20.ignore (redeem (hooked this asset (fun w => w) g) asset offset cl s r o)) w)).
  Proof.
    intros Hg Hc Ha w HW.
    pose proof (step_ok this asset offset Hthis Hoff w (VRedeem cl s r o) HW (conj Hc Ha)) as HS.
    unfold step in HS. cbn [exec] in HS.
    destruct (_convert_to_assets x asset offset s Floor w) as [q w0] eqn:ES.
    assert (w0 = w) as -> by (rewrite (to_assets_eq this asset offset Hoff _ _ _ (vinv_ok this w HW)) in ES; congruence).
    set (a := match q with Ok a => a | _ => 0 end).
    refine (good_out g _ _ (Withdraw cl r o a s) w Hg HW HS _). clear HS.
    unfold redeem, preview_redeem, bind, gets, fail_if.
    change (_convert_to_assets (hooked this asset (fun w0 => w0) g)) with (_convert_to_assets x).
    destruct (max_redeem o w <? s); [exact I|]. cbn [ret]. rewrite ES.
    destruct q as [a'|e|]; [|exact I|exact I]. subst a. pose proof (withdraw_hooked g cl r o a' s w) as HD.
    destruct (_withdraw (hooked this asset (fun w0 => w0) g) asset cl r o a' s w) as [[[]|e|] w']; [|exact I|exact I].
    destruct HD as (w1 & E & ->). rewrite E. exists w1, a'. split; reflexivity.
  Qed.

  Lemma good_step r : erc777_wf this r -> good (fun w => rstep this asset offset w r).
  Proof.
    induction r as [c pre post IHpre IHpost] using rcall_ind'. intros Hr w HW.
    assert (HF : forall l, Forall (fun r => erc777_wf this r -> good (fun w => rstep this asset offset w r)) l ->
                 Forall (erc777_wf this) l -> good (fold_left (rstep this asset offset) l)).
    { intros l H1 H2. apply good_fold. clear -H1 H2. induction H1; [constructor|]. inversion H2; subst. constructor; auto. }
    inversion Hr as [c' pre' (cl & a & rc & [-> | ->]) Hc Hpre|c' post' (cl & a & rc & o & [-> | ->]) Hc Hpost|cl o Hc|cl o pre' post' Hc Hpre Hpost]; subst.
    - destruct Hc. exact (good_deposit _ cl a rc (HF _ IHpre Hpre) H H0 w HW).
    - destruct Hc. exact (good_mint _ cl a rc (HF _ IHpre Hpre) H H0 w HW).
    - destruct Hc. exact (good_withdraw _ cl a rc o (HF _ IHpost Hpost) H H0 w HW).
    - destruct Hc. exact (good_redeem _ cl a rc o (HF _ IHpost Hpost) H H0 w HW).
    - exact (step_ok this asset offset Hthis Hoff w (Shares cl o) HW Hc).
    - destruct (HF _ IHpre Hpre w HW) as [H1 L1].
      pose proof (step_ok this asset offset Hthis Hoff _ (Asset cl o) H1 Hc) as [H2 L2].
      unfold step in H2, L2. cbn [exec] in H2, L2. unfold tx in H2, L2 |- *. cbn [rstep]. unfold tx.
      destruct (map_err ErrErc20 (on_asset (Erc20.exec cl o)) (fold_left (rstep this asset offset) pre w)) as [[[]|e|] w2];
        cbn [fst snd] in *; [|apply same, HW|apply same, HW].
      destruct (HF _ IHpost Hpost w2 H2) as [H3 L3]. split; [exact H3|].
      eapply (rate_trans this offset Hoff _ _ _ H1 HW H3); [exact L1|]. exact (rate_trans this offset Hoff _ _ _ H2 H1 H3 L2 L3).
  Qed.
  Lemma good_run h : Forall (erc777_wf this) h -> good (rrun this asset offset h).
  Proof.
    intros H. apply good_fold. induction H; [constructor|]. constructor; [apply good_step; assumption|assumption].
  Qed.
End vault.
