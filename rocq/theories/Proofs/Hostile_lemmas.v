From Verif.Base Require Import Prelude Maps Bytes.
From Verif.Model Require Erc20 SafeErc20 Erc20World Erc4626 Wrapper Math.
From Verif.Spec Require Import Erc20_spec World_spec Erc4626_spec Hostile_spec.
From Verif.Proofs Require Import Erc20_inv Erc20_api Erc20_hist World_lemmas Erc4626_lemmas.
From stdpp Require Import gmap.
Import SafeErc20 Erc20World Math.
#[global] Open Scope Z_scope.

(** ** Histories of a token without privileged calls other than minting, not by [P]'s complement *)
Definition tame (P : Z -> Prop) (co : Z * Erc20.op) : Prop :=
  Erc20.op_wf (snd co) /\ ((public_op (snd co) /\ P (fst co)) \/ exists a v, snd co = Erc20.OMint a v).
Definition grows (P : Z -> Prop) (s s' : Erc20.state) : Prop :=
  exists h, Forall (tame P) h /\ s' = Erc20.run h s.

Lemma grows_refl P s : grows P s s.
Proof. exists []. split; [apply List.Forall_nil|reflexivity]. Qed.
Lemma grows_trans P s s1 s2 : grows P s s1 -> grows P s1 s2 -> grows P s s2.
Proof.
  intros (h & Hh & ->) (h' & Hh' & ->). exists (h ++ h'). split; [apply Forall_app_2; assumption|].
  unfold Erc20.run. rewrite fold_left_app. reflexivity.
Qed.
Lemma grows_step P s c o s' : tame P (c, o) -> Erc20.exec c o s = (Ok tt, s') -> grows P s s'.
Proof.
  intros Ht H. exists [(c, o)]. split; [apply List.Forall_cons; [exact Ht|apply List.Forall_nil]|].
  cbn. unfold Erc20.step, tx. cbn [fst snd]. rewrite H. reflexivity.
Qed.
Lemma tame_wf P h : Forall (tame P) h -> Erc20.hist_wf h.
Proof. intros H. eapply Forall_impl; [exact H|]. intros co [Hw _]. exact Hw. Qed.
Lemma grows_inv P s s' : grows P s s' -> Inv s -> Inv s'.
Proof. intros (h & Hh & ->) HI. apply inv_run; [eapply tame_wf; exact Hh|exact HI]. Qed.
Lemma grows_weaken (P Q : Z -> Prop) s s' : (forall a, P a -> Q a) -> grows P s s' -> grows Q s s'.
Proof.
  intros HPQ (h & Hh & E). exists h. split; [|exact E]. eapply Forall_impl; [exact Hh|].
  intros co [Hw [[H1 H2]|H]]; split; auto.
Qed.

Lemma mint_grows P s a v s' : is_u256 v -> Erc20._mint a v s = (Ok tt, s') -> grows P s s'.
Proof. intros Hv H. apply (grows_step P s 0 (Erc20.OMint a v)); [split; [exact Hv|right; eauto]|exact H]. Qed.
Lemma burn_grows (P : Z -> Prop) s a v s' : is_u256 v -> P a -> Erc20._burn a v s = (Ok tt, s') -> grows P s s'.
Proof. intros Hv Ha H. apply (grows_step P s a (Erc20.OBurn v)); [split; [exact Hv|left; split; [exact I|exact Ha]]|exact H]. Qed.
Lemma burn_from_grows (P : Z -> Prop) s c a v s1 s' : is_u256 v -> P c ->
  Erc20._spend_allowance a c v s = (Ok tt, s1) -> Erc20._burn a v s1 = (Ok tt, s') -> grows P s s'.
Proof.
  intros Hv Hc H1 H2. apply (grows_step P s c (Erc20.OBurnFrom a v)); [split; [exact Hv|left; split; [exact I|exact Hc]]|].
  cbn [Erc20.exec]. unfold Erc20.burn_from. apply bind_ok. eauto.
Qed.

(** ** Pieces of the contracts *)
Lemma map_err_ok {S E E' A} (f : E -> E') (m : M S E A) s a s' :
  map_err f m s = (Ok a, s') <-> m s = (Ok a, s').
Proof. unfold map_err. destruct (m s) as [[x|e|] s1]; split; intros H; inversion H; subst; reflexivity. Qed.
Lemma on_tok_ok {E A} (m : M Erc20.state E A) w a w' :
  on_tok m w = (Ok a, w') <-> exists t, m (tok w) = (Ok a, t) /\ w' = set_tok t w.
Proof.
  unfold on_tok, zoom. destruct (m (tok w)) as [r t]. split.
  - intros H. inversion H; subst. eauto.
  - intros (t' & H & ->). inversion H; subst. reflexivity.
Qed.
Lemma fail_if_ok {S E} b (e : E) (s : S) s' : fail_if b e s = (Ok tt, s') <-> b = false /\ s' = s.
Proof. unfold fail_if. destruct b; split; [discriminate|intros [? _]; discriminate|intros H; inversion H; auto|intros [_ ->]; reflexivity]. Qed.
Lemma ignore_ok' {S E A} (m : M S E A) s s' : Erc20.ignore m s = (Ok tt, s') <-> exists a, m s = (Ok a, s').
Proof.
  unfold Erc20.ignore. rewrite bind_ok. split.
  - intros (a & s1 & H1 & H2). inversion H2; subst. eauto.
  - intros (a & H). exists a, s'. split; [exact H|reflexivity].
Qed.
Section pieces.
  Context (x : ext world) (asset : Z).
  Hypothesis bytes : forall t k w1 d w2, raw_call x t k w1 = Some (d, w2) -> Forall is_byte d.

  Lemma call_ok k w w' : call_optional_return x asset k w = (Ok tt, w') ->
    exists d, raw_call x asset k w = Some (d, w').
  Proof.
    unfold call_optional_return, limited_call. destruct (has_code x asset); cbn [negb]; [|discriminate].
    destruct (raw_call x asset k w) as [[d w1]|] eqn:E; [|discriminate].
    destruct (_ || _); intros H; inversion H; subst. eauto.
  Qed.
  Lemma balance_range a w b : SafeErc20.balance_of x asset a w = Some b -> is_u256 b.
  Proof.
    unfold SafeErc20.balance_of. destruct (raw_call x asset (CBalanceOf a) w) as [[d w1]|] eqn:E; [|discriminate].
    destruct (Nat.ltb_spec (length d) 32) as [Hl|Hl]; [discriminate|]. intros H. inversion H; subst b.
    apply bytes in E. assert (Hf : Forall is_byte (firstn 32 d)).
    { apply Forall_forall. intros y Hy. rewrite Forall_forall in E. apply E. rewrite <- (firstn_skipn 32 d). apply elem_of_app. left. exact Hy. }
    pose proof (of_be_range _ Hf) as R. rewrite firstn_length_le in R by lia. exact R.
  Qed.

  Lemma total_assets_ok w b w' : Erc4626.total_assets x asset w = (Ok b, w') ->
    w' = w /\ is_u256 b /\ SafeErc20.balance_of x asset (self x) w = Some b.
  Proof.
    unfold Erc4626.total_assets. destruct (SafeErc20.balance_of x asset (self x) w) eqn:E; [|discriminate].
    intros H. inversion H; subst. split; [reflexivity|]. split; [exact (balance_range _ _ _ E)|reflexivity].
  Qed.
  Lemma to_shares_ok offset a r w q w' : 0 <= offset -> Inv (tok w) -> is_u256 a ->
    Erc4626._convert_to_shares x asset offset a r w = (Ok q, w') ->
    w' = w /\ is_u256 q /\ exists b, SafeErc20.balance_of x asset (self x) w = Some b /\
      rounds r (a * (share_supply w + 10 ^ offset)) (b + 1) q.
  Proof.
    intros Hoff HI Ha H. unfold Erc4626._convert_to_shares in H. apply bind_ok in H. destruct H as (ts & w0 & H0 & H).
    inversion H0; subst ts w0. apply bind_ok in H. destruct H as (ten & w0 & H0' & H).
    unfold Erc4626.virtual_shares in H0'. destruct (10 ^ offset <? two256); [|discriminate]. inversion H0'; subst ten w0.
    apply bind_ok in H. destruct H as (m & w0 & H1 & H). unfold cadd in H1.
    destruct (Z.ltb_spec (Erc20.total_supply (tok w) + 10 ^ offset) two256) as [Hm|]; [|discriminate]. inversion H1; subst m w0.
    apply bind_ok in H. destruct H as (b & w0 & H2 & H). apply total_assets_ok in H2. destruct H2 as (-> & Hb & Eb).
    apply bind_ok in H. destruct H as (dn & w0 & H3 & H). unfold cadd in H3.
    destruct (Z.ltb_spec (b + 1) two256) as [Hd|]; [|discriminate]. inversion H3; subst dn w0. unfold is_u256 in Hb.
    unfold lift_res in H. inversion H; subst w'.
    assert (0 <= Erc20.total_supply (tok w)) by (pose proof (bal_le_supply _ HI 0); pose proof (bal_nonneg _ HI 0); unfold Erc20.total_supply; lia).
    assert (0 < 10 ^ offset) by (apply Z.pow_pos_nonneg; lia).
    destruct (@mul_div_spec Erc4626.error a (Erc20.total_supply (tok w) + 10 ^ offset) (b + 1) r Ha) as [(q' & R & B & E)|(_ & E)]; try lia.
    - rewrite E in *. injection H as ->. split; [reflexivity|]. split; [exact B|]. exists b. split; [exact Eb|exact R].
    - rewrite E in H. discriminate.
  Qed.
  Lemma to_assets_ok offset s r w q w' : 0 <= offset -> Inv (tok w) -> is_u256 s ->
    Erc4626._convert_to_assets x asset offset s r w = (Ok q, w') ->
    w' = w /\ is_u256 q /\ exists b, SafeErc20.balance_of x asset (self x) w = Some b /\
      rounds r (s * (b + 1)) (share_supply w + 10 ^ offset) q.
  Proof.
    intros Hoff HI Ha H. unfold Erc4626._convert_to_assets in H.
    apply bind_ok in H. destruct H as (b & w0 & H2 & H). apply total_assets_ok in H2. destruct H2 as (-> & Hb & Eb).
    apply bind_ok in H. destruct H as (m & w0 & H3 & H). unfold cadd in H3.
    destruct (Z.ltb_spec (b + 1) two256) as [Hd|]; [|discriminate]. inversion H3; subst m w0. unfold is_u256 in Hb.
    apply bind_ok in H. destruct H as (ts & w0 & H0 & H). inversion H0; subst ts w0.
    apply bind_ok in H. destruct H as (ten & w0 & H0' & H).
    unfold Erc4626.virtual_shares in H0'. destruct (10 ^ offset <? two256); [|discriminate]. inversion H0'; subst ten w0.
    apply bind_ok in H. destruct H as (dn & w0 & H1 & H). unfold cadd in H1.
    destruct (Z.ltb_spec (Erc20.total_supply (tok w) + 10 ^ offset) two256) as [Hm|]; [|discriminate]. inversion H1; subst dn w0.
    unfold lift_res in H. inversion H; subst w'.
    assert (0 <= Erc20.total_supply (tok w)) by (pose proof (bal_le_supply _ HI 0); pose proof (bal_nonneg _ HI 0); unfold Erc20.total_supply; lia).
    assert (0 < 10 ^ offset) by (apply Z.pow_pos_nonneg; lia).
    destruct (@mul_div_spec Erc4626.error s (b + 1) (Erc20.total_supply (tok w) + 10 ^ offset) r Ha) as [(q' & R & B & E)|(_ & E)]; try lia.
    - rewrite E in *. injection H as ->. split; [reflexivity|]. split; [exact B|]. exists b. split; [exact Eb|exact R].
    - rewrite E in H. discriminate.
  Qed.

  Lemma deposit__ok cl r a s w w' : Erc4626._deposit x asset cl r a s w = (Ok tt, w') ->
    exists d w1 t, raw_call x asset (CTransferFrom cl (self x) a) w = Some (d, w1) /\
      Erc20._mint r s (tok w1) = (Ok tt, t) /\ w' = log_ev (Deposit cl r a s) (set_tok t w1).
  Proof.
    unfold Erc4626._deposit. intros H. apply bind_ok in H. destruct H as ([] & w1 & H1 & H). apply map_err_ok in H1.
    apply call_ok in H1. destruct H1 as (d & H1). apply bind_ok in H. destruct H as ([] & w2 & H2 & H). apply map_err_ok in H2.
    apply on_tok_ok in H2. destruct H2 as (t & H2 & ->). inversion H; subst. exists d, w1, t. auto.
  Qed.
  Lemma withdraw__ok cl r o a s w w' : Erc4626._withdraw x asset cl r o a s w = (Ok tt, w') ->
    exists d w1 t, (if cl =? o then Erc20.burn cl s (tok w) else Erc20.burn_from cl o s (tok w)) = (Ok tt, t) /\
      raw_call x asset (CTransfer r a) (set_tok t w) = Some (d, w1) /\ w' = log_ev (Withdraw cl r o a s) w1.
  Proof.
    unfold Erc4626._withdraw. intros H. apply bind_ok in H. destruct H as ([] & w1 & H1 & H).
    apply bind_ok in H. destruct H as ([] & w2 & H2 & H). apply map_err_ok in H2. apply on_tok_ok in H2. destruct H2 as (t & H2 & ->).
    apply bind_ok in H. destruct H as ([] & w3 & H3 & H). apply map_err_ok in H3. apply call_ok in H3. destruct H3 as (d & H3).
    inversion H; subst w'. exists d, w3, t. destruct (Z.eqb_spec cl o) as [->|Hne]; cbn [negb] in H1.
    - inversion H1; subst w1. auto.
    - apply map_err_ok in H1. apply on_tok_ok in H1. destruct H1 as (t1 & H1 & ->). cbn [tok set_tok] in H2.
      split; [|split; [|reflexivity]].
      + unfold Erc20.burn_from. apply bind_ok. exists tt, t1. auto.
      + exact H3.
  Qed.
  Lemma withdraw__grows (P : Z -> Prop) cl o s t t' : is_u256 s -> P cl ->
    (if cl =? o then Erc20.burn cl s t else Erc20.burn_from cl o s t) = (Ok tt, t') -> grows P t t'.
  Proof.
    intros Hs Hc H. destruct (cl =? o).
    - apply (burn_grows P t cl s); assumption.
    - unfold Erc20.burn_from in H. apply bind_ok in H. destruct H as ([] & t1 & H1 & H2). eapply burn_from_grows; eassumption.
  Qed.
End pieces.

(** ** The token behaves as a token, whatever the asset does *)
Lemma vault_grows this asset offset (P : Z -> Prop) w w' : 0 <= offset ->
  evolves (fun x c => Erc4626.exec x asset offset c) (fun c => vault_call c /\ forall a, vault_caller c = Some a -> P a) this w w' ->
  Inv (tok w) -> grows P (tok w) (tok w').
Proof.
  intros Hoff H. induction H as [w w' Et Ee|x c w w' [Hc Hp] Hself Hb Hev IH Hx|w w1 w2 H1 IH1 H2 IH2]; intros HI.
  - rewrite Et. apply grows_refl.
  - destruct c as [cl a r|cl s r|cl a r o|cl s r o|cl o|cl o]; cbn [vault_call vault_caller] in Hc, Hp; cbn [Erc4626.exec] in Hx.
    + apply ignore_ok' in Hx. destruct Hx as (q & Hx). unfold Erc4626.deposit in Hx.
      apply bind_ok in Hx. destruct Hx as ([] & w1 & Hf & Hx). apply fail_if_ok in Hf. destruct Hf as [_ ->].
      apply bind_ok in Hx. destruct Hx as (sh & w1 & H1 & Hx). unfold Erc4626.preview_deposit in H1.
      apply (to_shares_ok x asset Hb) in H1; [|exact Hoff|exact HI|exact Hc]. destruct H1 as (-> & Hs & _).
      apply bind_ok in Hx. destruct Hx as ([] & w2 & H2 & Hx). inversion Hx; subst w2 q.
      apply deposit__ok in H2. destruct H2 as (d & w1 & t & H1 & H2 & ->). pose proof (IH _ _ _ _ _ H1 HI) as G.
      eapply grows_trans; [exact G|]. apply (mint_grows P (tok w1) r sh); assumption.
    + apply ignore_ok' in Hx. destruct Hx as (q & Hx). unfold Erc4626.mint in Hx.
      apply bind_ok in Hx. destruct Hx as ([] & w1 & Hf & Hx). apply fail_if_ok in Hf. destruct Hf as [_ ->].
      apply bind_ok in Hx. destruct Hx as (sh & w1 & H1 & Hx). unfold Erc4626.preview_mint in H1.
      apply (to_assets_ok x asset Hb) in H1; [|exact Hoff|exact HI|exact Hc]. destruct H1 as (-> & Hs & _).
      apply bind_ok in Hx. destruct Hx as ([] & w2 & H2 & Hx). inversion Hx; subst w2 q.
      apply deposit__ok in H2. destruct H2 as (d & w1 & t & H1 & H2 & ->). pose proof (IH _ _ _ _ _ H1 HI) as G.
      eapply grows_trans; [exact G|]. apply (mint_grows P (tok w1) r s); assumption.
    + apply ignore_ok' in Hx. destruct Hx as (q & Hx). unfold Erc4626.withdraw in Hx.
      apply bind_ok in Hx. destruct Hx as (m & w1 & Hm & Hx).
      assert (w1 = w) as ->.
      { unfold Erc4626.max_withdraw in Hm. apply bind_ok in Hm. destruct Hm as (b & w0 & Hb0 & Hm). inversion Hb0; subst b w0.
        apply (to_assets_ok x asset Hb) in Hm; [tauto|exact Hoff|exact HI|apply bal_u256; exact HI]. }
      apply bind_ok in Hx. destruct Hx as ([] & w1 & Hf & Hx). apply fail_if_ok in Hf. destruct Hf as [_ ->].
      apply bind_ok in Hx. destruct Hx as (sh & w1 & H1 & Hx). unfold Erc4626.preview_withdraw in H1.
      apply (to_shares_ok x asset Hb) in H1; [|exact Hoff|exact HI|exact Hc]. destruct H1 as (-> & Hs & _).
      apply bind_ok in Hx. destruct Hx as ([] & w2 & H2 & Hx). inversion Hx; subst w2 q.
      apply withdraw__ok in H2. destruct H2 as (d & w1 & t & H1 & H2 & ->).
      pose proof (withdraw__grows P cl o sh (tok w) t Hs (Hp _ eq_refl) H1) as G1.
      pose proof (IH _ _ _ _ _ H2 (grows_inv P _ _ G1 HI)) as G. eapply grows_trans; [exact G1|exact G].
    + apply ignore_ok' in Hx. destruct Hx as (q & Hx). unfold Erc4626.redeem in Hx.
      apply bind_ok in Hx. destruct Hx as (m & w1 & Hm & Hx). inversion Hm; subst m w1.
      apply bind_ok in Hx. destruct Hx as ([] & w1 & Hf & Hx). apply fail_if_ok in Hf. destruct Hf as [_ ->].
      apply bind_ok in Hx. destruct Hx as (as_ & w1 & H1 & Hx). unfold Erc4626.preview_redeem in H1.
      apply (to_assets_ok x asset Hb) in H1; [|exact Hoff|exact HI|exact Hc]. destruct H1 as (-> & Hs & _).
      apply bind_ok in Hx. destruct Hx as ([] & w2 & H2 & Hx). inversion Hx; subst w2 q.
      apply withdraw__ok in H2. destruct H2 as (d & w1 & t & H1 & H2 & ->).
      pose proof (withdraw__grows P cl o s (tok w) t Hc (Hp _ eq_refl) H1) as G1.
      pose proof (IH _ _ _ _ _ H2 (grows_inv P _ _ G1 HI)) as G. eapply grows_trans; [exact G1|exact G].
    + apply map_err_ok in Hx. apply on_tok_ok in Hx. destruct Hx as (t & Hx & ->). destruct Hc as [Hw Hpub].
      apply (grows_step P (tok w) cl o); [|exact Hx]. split; [exact Hw|]. left. split; [exact Hpub|apply Hp; reflexivity].
    + apply map_err_ok in Hx. unfold on_asset, zoom in Hx. destruct (Erc20.exec cl o (asset_st w)). inversion Hx; subst.
      cbn [tok set_asset]. apply grows_refl.
  - pose proof (IH1 HI) as G1. eapply grows_trans; [exact G1|]. apply IH2. eapply grows_inv; eassumption.
Qed.
Lemma wrapper_grows this under (P : Z -> Prop) w w' :
  evolves (fun x c => Wrapper.exec x under c) (fun c => wrapper_call c /\ forall a, wrapper_caller c = Some a -> P a) this w w' ->
  Inv (tok w) -> grows P (tok w) (tok w').
Proof.
  intros H. induction H as [w w' Et Ee|x c w w' [Hc Hp] Hself Hb Hev IH Hx|w w1 w2 H1 IH1 H2 IH2]; intros HI.
  - rewrite Et. apply grows_refl.
  - destruct c as [s a v|s a v|a|cl o|cl o]; cbn [wrapper_call wrapper_caller] in Hc, Hp; cbn [Wrapper.exec] in Hx.
    + apply ignore_ok' in Hx. destruct Hx as (q & Hx). unfold Wrapper.deposit_for in Hx.
      apply bind_ok in Hx. destruct Hx as ([] & w1 & Hf & Hx). apply fail_if_ok in Hf. destruct Hf as [_ ->].
      apply bind_ok in Hx. destruct Hx as ([] & w1 & Hf & Hx). apply fail_if_ok in Hf. destruct Hf as [_ ->].
      apply bind_ok in Hx. destruct Hx as ([] & w1 & H1 & Hx). apply map_err_ok in H1. apply call_ok in H1. destruct H1 as (d & H1).
      apply bind_ok in Hx. destruct Hx as ([] & w2 & H2 & Hx). apply map_err_ok in H2. apply on_tok_ok in H2.
      destruct H2 as (t & H2 & ->). inversion Hx; subst. pose proof (IH _ _ _ _ _ H1 HI) as G.
      eapply grows_trans; [exact G|]. apply (mint_grows P (tok w1) a v); assumption.
    + apply ignore_ok' in Hx. destruct Hx as (q & Hx). unfold Wrapper.withdraw_to in Hx.
      apply bind_ok in Hx. destruct Hx as ([] & w1 & Hf & Hx). apply fail_if_ok in Hf. destruct Hf as [_ ->].
      apply bind_ok in Hx. destruct Hx as ([] & w1 & H1 & Hx). apply map_err_ok in H1. apply on_tok_ok in H1. destruct H1 as (t & H1 & ->).
      apply bind_ok in Hx. destruct Hx as ([] & w2 & H2 & Hx). apply map_err_ok in H2. apply call_ok in H2. destruct H2 as (d & H2).
      inversion Hx; subst. pose proof (burn_grows P (tok w) s v t Hc (Hp _ eq_refl) H1) as G1.
      pose proof (IH _ _ _ _ _ H2 (grows_inv P _ _ G1 HI)) as G. eapply grows_trans; [exact G1|exact G].
    + apply ignore_ok' in Hx. destruct Hx as (q & Hx). unfold Wrapper._recover in Hx.
      destruct (SafeErc20.balance_of x under (self x) w) as [b|] eqn:Eb; [|discriminate].
      apply (balance_range x under Hb) in Eb. apply bind_ok in Hx. destruct Hx as (v & w1 & H1 & Hx). unfold csub in H1.
      destruct (Z.leb_spec (Erc20.total_supply (tok w)) b) as [Hl|]; [|discriminate]. inversion H1; subst v w1.
      apply bind_ok in Hx. destruct Hx as ([] & w1 & H2 & Hx). inversion Hx; subst.
      assert (0 <= Erc20.total_supply (tok w)) by (pose proof (bal_le_supply _ HI 0); pose proof (bal_nonneg _ HI 0); unfold Erc20.total_supply; lia).
      destruct (0 <? b - Erc20.total_supply (tok w)); [|inversion H2; apply grows_refl].
      apply map_err_ok in H2. apply on_tok_ok in H2. destruct H2 as (t & H2 & ->).
      apply (mint_grows P (tok w) a (b - Erc20.total_supply (tok w))); [|exact H2]. unfold is_u256 in *. lia.
    + apply map_err_ok in Hx. apply on_tok_ok in Hx. destruct Hx as (t & Hx & ->). destruct Hc as [Hw Hpub].
      apply (grows_step P (tok w) cl o); [|exact Hx]. split; [exact Hw|]. left. split; [exact Hpub|apply Hp; reflexivity].
    + apply map_err_ok in Hx. unfold on_asset, zoom in Hx. destruct (Erc20.exec cl o (asset_st w)). inversion Hx; subst.
      cbn [tok set_asset]. apply grows_refl.
  - pose proof (IH1 HI) as G1. eapply grows_trans; [exact G1|]. apply IH2. eapply grows_inv; eassumption.
Qed.

(** ** Debits *)
Definition no_infinite (s : Erc20.state) (o : Z) : Prop := forall sp, Erc20.allowance s o sp <> U256_MAX.
Lemma sum_allowances_le s s' o l : (forall sp, Erc20.allowance s' o sp <= Erc20.allowance s o sp) ->
  sum_allowances s' o l <= sum_allowances s o l.
Proof. intros H. induction l as [|a l IH]; cbn; [lia|]. specialize (H a). lia. Qed.
Lemma sum_allowances_in s s' o l c d : (forall sp, Erc20.allowance s' o sp <= Erc20.allowance s o sp) ->
  Erc20.allowance s' o c = Erc20.allowance s o c - d -> In c l ->
  d <= sum_allowances s o l - sum_allowances s' o l.
Proof.
  intros H Hc. induction l as [|a l IH]; cbn; [contradiction|]. intros [->|Hin].
  - pose proof (sum_allowances_le s s' o l H). lia.
  - specialize (IH Hin). specialize (H a). lia.
Qed.
Lemma safe_step s o c x : Inv s -> no_infinite s o -> tame (fun a => a <> o) (c, x) ->
  only_allowances_used s (Erc20.step s (c, x)) o.
Proof.
  intros HI Hn [Hw Ht]. cbn [fst snd] in *.
  destruct Ht as [[Hpub Hc]|(a & v & ->)].
  - assert (Hst : forall sp, Erc20.allowance (Erc20.step s (c, x)) o sp =
        Erc20.allowance s o sp - (if is_ok (fst (tx (Erc20.exec c x) s)) then taken_by o sp c x else 0)).
    { intros sp. rewrite (allowance_step_public o sp c x s HI Hw Hpub).
      - destruct (Z.eqb_spec (Erc20.allowance s o sp) U256_MAX) as [E|_]; [destruct (Hn sp E)|reflexivity].
      - destruct x; try exact I. intros [E _]. congruence. }
    assert (Hle : forall sp, Erc20.allowance (Erc20.step s (c, x)) o sp <= Erc20.allowance s o sp).
    { intros sp. rewrite Hst. destruct (is_ok _) eqn:Eok; [|lia].
      destruct (taken_bounds o sp c x s HI Hw Hpub Eok) as [T _]. lia. }
    split; [exact Hle|]. intros l Hl.
    destruct (Z_lt_le_dec (Erc20.balance_of (Erc20.step s (c, x)) o) (Erc20.balance_of s o)) as [Hlt|Hge].
    2: { pose proof (sum_allowances_le s (Erc20.step s (c, x)) o l Hle). lia. }
    destruct (Z.eq_dec o 0) as [->|Ho].
    { pose proof (inv_zero _ (inv_step s (c, x) HI Hw)). pose proof (inv_zero _ HI). lia. }
    assert (Eok : is_ok (fst (tx (Erc20.exec c x) s)) = true).
    { unfold Erc20.step in Hlt. cbn [fst snd] in Hlt. unfold tx in *. destruct (Erc20.exec c x s) as [[[]|e|] s1]; cbn in *; try reflexivity; lia. }
    rewrite Eok in Hst.
    destruct (debit_authorised o c x s HI Hw Hpub Ho Hlt) as [[[E _]|[E _]]|[Hx Hal]]; try congruence.
    remember (Erc20.balance_of s o - Erc20.balance_of (Erc20.step s (c, x)) o) as d eqn:Ed.
    assert (Htk : taken_by o c c x = d).
    { destruct Hx as [[to Hx]|Hx]; rewrite Hx; cbn [taken_by]; rewrite !Z.eqb_refl; reflexivity. }
    apply (sum_allowances_in s (Erc20.step s (c, x)) o l c d Hle).
    + rewrite Hst, Htk. reflexivity.
    + apply Hl. destruct Hal as [E|E]; [destruct (Hn c E)|]. lia.
  - unfold Erc20.step. cbn [fst snd Erc20.exec]. unfold Erc20.op_wf in Hw. cbn [Erc20.op_value] in Hw.
    destruct (mint_spec s a v HI Hw) as (_ & M2 & _). unfold tx.
    destruct (Erc20._mint a v s) as [[[]|e|] u] eqn:E; cbn [snd]; [|split; [lia|intros; lia]|split; [lia|intros; lia]].
    destruct (M2 u eq_refl) as (B1 & B2 & B3 & B4 & B5). split; [intros sp; rewrite B4; lia|]. intros l _.
    pose proof (sum_allowances_le s u o l ltac:(intros sp; rewrite B4; lia)). unfold is_u256 in Hw.
    destruct (Z.eq_dec o a) as [->|Hne]; [lia|]. rewrite B2 by exact Hne. lia.
Qed.
Lemma used_trans s s1 s2 o : Inv s1 -> only_allowances_used s s1 o -> only_allowances_used s1 s2 o -> only_allowances_used s s2 o.
Proof.
  intros HI [A1 A2] [B1 B2]. split.
  - intros sp. specialize (A1 sp). specialize (B1 sp). lia.
  - intros l Hl. specialize (A2 l Hl). assert (Hl1 : forall sp, Erc20.allowance s1 o sp <> 0 -> In sp l).
    { intros sp Hsp. apply Hl. specialize (A1 sp). pose proof (inv_allow _ HI o sp) as R. unfold is_u256 in R. lia. }
    specialize (B2 l Hl1). lia.
Qed.
Lemma grows_safe s s' o : Inv s -> no_infinite s o -> grows (fun a => a <> o) s s' -> only_allowances_used s s' o.
Proof.
  intros HI Hn (h & Hh & ->). revert s HI Hn. induction Hh as [|[c x] h Hc _ IH]; intros s HI Hn.
  - split; [intros; cbn; lia|intros; cbn; lia].
  - cbn [Erc20.run fold_left]. fold (Erc20.run h (Erc20.step s (c, x))).
    pose proof (safe_step s o c x HI Hn Hc) as S1. pose proof (inv_step s (c, x) HI (proj1 Hc)) as HI1.
    assert (Hn1 : no_infinite (Erc20.step s (c, x)) o).
    { intros sp. pose proof (proj1 S1 sp) as L. specialize (Hn sp). pose proof (inv_allow _ HI o sp) as R. unfold is_u256 in R.
      unfold U256_MAX in *. lia. }
    exact (used_trans _ _ _ o HI1 S1 (IH _ HI1 Hn1)).
Qed.
