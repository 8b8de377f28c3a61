(** C79: what a vault or a wrapper guarantees over an asset that need not be honest. *)
From Verif.Base Require Import Prelude Maps Bytes.
From Verif.Model Require Erc20 SafeErc20 Erc20World Erc4626 Wrapper.
From Verif.Spec Require Import Erc20_spec World_spec Erc4626_spec Hostile_spec.
From Verif.Proofs Require Import Erc20_inv Erc20_api World_lemmas Erc4626_lemmas Hostile_lemmas.
From stdpp Require Import gmap.
Import SafeErc20 Erc20World.
#[global] Open Scope Z_scope.

Section vault.
  Context (this asset offset : Z) (Hoff : 0 <= offset < 256).
  Notation vexec := (fun x c => Erc4626.exec x asset offset c).
  Notation evolves_by P := (evolves vexec P this).

  (** Whatever the asset does, the shares stay an ERC-20 token: every state is one an ERC-20
      token can reach, so that all that is proved of those (C01-C06) holds, *)
  Theorem c79_vault_shares_are_a_token : forall w w', Erc20_spec.reachable (tok w) ->
    evolves_by vault_call w w' -> Erc20_spec.reachable (tok w').
  Proof.
    intros w w' Hr He. assert (G : grows (fun _ => True) (tok w) (tok w')).
    { apply (vault_grows this asset offset _ w w'); [lia| |apply reachable_inv; exact Hr]. clear Hr.
      induction He as [| |]; [apply ev_elsewhere; assumption| |eapply ev_then; eassumption].
      apply (ev_call _ _ _ x c); auto. }
    destruct Hr as (h & Hh & E). destruct G as (h' & Hh' & E'). exists (h ++ h'). split.
    - apply Forall_app_2; [exact Hh|]. eapply tame_wf; exact Hh'.
    - rewrite E', E. unfold Erc20.run. rewrite fold_left_app. reflexivity.
  Qed.
  (** for example their supply is the sum of the holdings, *)
  Theorem c79_vault_supply_is_sum : forall w l, evolves_by vault_call winit w -> covers (tok w) l ->
    share_supply w = sum_balances (tok w) l /\ 0 <= share_supply w < two256.
  Proof.
    intros w l He Hl. assert (HI : Inv (tok w)).
    { apply reachable_inv. apply (c79_vault_shares_are_a_token winit w); [|exact He]. exists []. split; [apply List.Forall_nil|reflexivity]. }
    split; [apply conservation_inv; assumption|]. pose proof (bal_le_supply _ HI 0). pose proof (bal_nonneg _ HI 0).
    pose proof (inv_max _ HI). unfold share_supply, Erc20.total_supply. lia.
  Qed.
  (** and somebody who makes no call loses no more shares than the allowances given before
      are used up for. *)
  Theorem c79_vault_shares_are_safe : forall w w' o, Erc20_spec.reachable (tok w) ->
    (forall sp, Erc20.allowance (tok w) o sp <> U256_MAX) ->
    evolves_by (vault_call_not_by o) w w' -> only_allowances_used (tok w) (tok w') o.
  Proof.
    intros w w' o Hr Hn He. apply reachable_inv in Hr. apply grows_safe; [exact Hr|exact Hn|].
    apply (vault_grows this asset offset _ w w'); [lia| |exact Hr]. clear Hr Hn.
    induction He as [|x c w w' [Hc1 Hc2] Hs Hb Hev IH Hx|]; [apply ev_elsewhere; assumption| |eapply ev_then; eassumption].
    apply (ev_call _ _ _ x c); auto. split; [exact Hc1|]. intros a Ea. rewrite Ea in Hc2. congruence.
  Qed.
  (** In particular nobody loses any share who has allowed nothing. *)
  Theorem c79_vault_nothing_allowed_nothing_lost : forall w w' o, Erc20_spec.reachable (tok w) ->
    (forall sp, Erc20.allowance (tok w) o sp = 0) -> evolves_by (vault_call_not_by o) w w' ->
    share_bal w o <= share_bal w' o.
  Proof.
    intros w w' o Hr Hn He. destruct (c79_vault_shares_are_safe w w' o Hr) as [_ H]; [intros sp; rewrite Hn; discriminate|exact He|].
    specialize (H [] ltac:(intros sp Hsp; destruct (Hsp (Hn sp)))). cbn in H. unfold share_bal. lia.
  Qed.

  (** What the four operations do over any asset: the number of shares or assets is computed
      from the balance that the asset reports at the start and rounded in the vault's favour;
      the asset is asked once to move exactly the assets in question, when the shares have
      been burnt or before they are minted; shares are minted or burnt and logged exactly. *)
  Theorem c79_deposit_over_any_asset : forall x w w' cl a r s, self x = this ->
    (forall t k w1 d w2, raw_call x t k w1 = Some (d, w2) -> Forall is_byte d) ->
    Erc20_spec.reachable (tok w) -> is_u256 a ->
    Erc4626.deposit x asset offset cl a r w = (Ok s, w') ->
    exists b d w1, SafeErc20.balance_of x asset this w = Some b /\
      is_floor (a * (share_supply w + 10 ^ offset)) (b + 1) s /\
      raw_call x asset (CTransferFrom cl this a) w = Some (d, w1) /\
      (Erc20_spec.reachable (tok w1) -> forall h, share_bal w' h = share_bal w1 h + delta h r s) /\
      evs w' = evs w1 ++ [Deposit cl r a s] /\ asset_st w' = asset_st w1.
  Proof.
    intros x w w' cl a r s Hs Hb Hr Ha H. apply reachable_inv in Hr. unfold Erc4626.deposit in H.
    apply bind_ok in H. destruct H as ([] & w1 & Hf & H). apply fail_if_ok in Hf. destruct Hf as [_ ->].
    apply bind_ok in H. destruct H as (sh & w1 & H1 & H). unfold Erc4626.preview_deposit in H1.
    apply (to_shares_ok x asset Hb) in H1; [|lia|exact Hr|exact Ha]. destruct H1 as (-> & Hsh & b & Eb & R).
    apply bind_ok in H. destruct H as ([] & w2 & H2 & H). inversion H; subst w2 sh.
    apply deposit__ok in H2. destruct H2 as (d & w1 & t & H1 & H2 & ->). rewrite Hs in *. exists b, d, w1.
    split; [exact Eb|]. split; [exact R|]. split; [exact H1|]. split; [|split; reflexivity].
    intros Hr1 h. apply reachable_inv in Hr1. destruct (mint_spec (tok w1) r s Hr1 Hsh) as (_ & M & _).
    destruct (M t H2) as (M1 & M2 & _). unfold share_bal, delta. cbn [tok set_tok log_ev].
    destruct (Z.eqb_spec h r) as [->|Hne]; [exact M1|rewrite M2 by exact Hne; lia].
  Qed.
  Theorem c79_mint_over_any_asset : forall x w w' cl a r s, self x = this ->
    (forall t k w1 d w2, raw_call x t k w1 = Some (d, w2) -> Forall is_byte d) ->
    Erc20_spec.reachable (tok w) -> is_u256 s ->
    Erc4626.mint x asset offset cl s r w = (Ok a, w') ->
    exists b d w1, SafeErc20.balance_of x asset this w = Some b /\
      is_ceil (s * (b + 1)) (share_supply w + 10 ^ offset) a /\
      raw_call x asset (CTransferFrom cl this a) w = Some (d, w1) /\
      (Erc20_spec.reachable (tok w1) -> forall h, share_bal w' h = share_bal w1 h + delta h r s) /\
      evs w' = evs w1 ++ [Deposit cl r a s] /\ asset_st w' = asset_st w1.
  Proof.
    intros x w w' cl a r s Hs Hb Hr Ha H. apply reachable_inv in Hr. unfold Erc4626.mint in H.
    apply bind_ok in H. destruct H as ([] & w1 & Hf & H). apply fail_if_ok in Hf. destruct Hf as [_ ->].
    apply bind_ok in H. destruct H as (as_ & w1 & H1 & H). unfold Erc4626.preview_mint in H1.
    apply (to_assets_ok x asset Hb) in H1; [|lia|exact Hr|exact Ha]. destruct H1 as (-> & Hsh & b & Eb & R).
    apply bind_ok in H. destruct H as ([] & w2 & H2 & H). inversion H; subst w2 as_.
    apply deposit__ok in H2. destruct H2 as (d & w1 & t & H1 & H2 & ->). rewrite Hs in *. exists b, d, w1.
    split; [exact Eb|]. split; [exact R|]. split; [exact H1|]. split; [|split; reflexivity].
    intros Hr1 h. apply reachable_inv in Hr1. destruct (mint_spec (tok w1) r s Hr1 Ha) as (_ & M & _).
    destruct (M t H2) as (M1 & M2 & _). unfold share_bal, delta. cbn [tok set_tok log_ev].
    destruct (Z.eqb_spec h r) as [->|Hne]; [exact M1|rewrite M2 by exact Hne; lia].
  Qed.
  Definition burnt (w : world) (t : Erc20.state) (cl o s : Z) : Prop :=
    (forall h, Erc20.balance_of t h = share_bal w h - delta h o s) /\
    Erc20.total_supply t = share_supply w - s /\ (cl = o \/ can_take (tok w) o cl s).
  Lemma burnt_ok w cl o s t : Inv (tok w) -> is_u256 s ->
    (if cl =? o then Erc20.burn cl s (tok w) else Erc20.burn_from cl o s (tok w)) = (Ok tt, t) -> burnt w t cl o s.
  Proof.
    intros HI Hs H. unfold burnt, share_bal, share_supply, can_take, delta. destruct (Z.eqb_spec cl o) as [->|Hne].
    - destruct (burn_spec (tok w) o s HI Hs) as (_ & B & _). unfold Erc20.burn in H. destruct (B t H) as (B1 & B2 & B3 & _).
      split; [|auto]. intros h. destruct (Z.eqb_spec h o) as [->|Hh]; [exact B1|rewrite B2 by exact Hh; lia].
    - destruct (burn_from_spec (tok w) cl o s HI Hs) as ((A & _) & B). rewrite H in A.
      destruct (A eq_refl) as (_ & _ & _ & Hal). destruct (B t H) as (B1 & B2 & B3 & _).
      split; [|auto]. intros h. destruct (Z.eqb_spec h o) as [->|Hh]; [exact B1|rewrite B2 by exact Hh; lia].
  Qed.
  Theorem c79_redeem_over_any_asset : forall x w w' cl a r o s, self x = this ->
    (forall t k w1 d w2, raw_call x t k w1 = Some (d, w2) -> Forall is_byte d) ->
    Erc20_spec.reachable (tok w) -> is_u256 s ->
    Erc4626.redeem x asset offset cl s r o w = (Ok a, w') ->
    exists b d t w1, SafeErc20.balance_of x asset this w = Some b /\ s <= share_bal w o /\
      is_floor (s * (b + 1)) (share_supply w + 10 ^ offset) a /\ burnt w t cl o s /\
      raw_call x asset (CTransfer r a) (set_tok t w) = Some (d, w1) /\
      tok w' = tok w1 /\ evs w' = evs w1 ++ [Withdraw cl r o a s] /\ asset_st w' = asset_st w1.
  Proof.
    intros x w w' cl a r o s Hs Hb Hr Ha H. apply reachable_inv in Hr. unfold Erc4626.redeem in H.
    apply bind_ok in H. destruct H as (m & w1 & Hm & H). inversion Hm; subst m w1.
    apply bind_ok in H. destruct H as ([] & w1 & Hf & H). apply fail_if_ok in Hf. destruct Hf as [Hl ->].
    apply Z.ltb_ge in Hl. unfold Erc4626.max_redeem in Hl.
    apply bind_ok in H. destruct H as (as_ & w1 & H1 & H). unfold Erc4626.preview_redeem in H1.
    apply (to_assets_ok x asset Hb) in H1; [|lia|exact Hr|exact Ha]. destruct H1 as (-> & Hsh & b & Eb & R).
    apply bind_ok in H. destruct H as ([] & w2 & H2 & H). inversion H; subst w2 as_.
    apply withdraw__ok in H2. destruct H2 as (d & w1 & t & H1 & H2 & ->). rewrite Hs in *. exists b, d, t, w1.
    split; [exact Eb|]. split; [exact Hl|]. split; [exact R|]. split; [exact (burnt_ok w cl o s t Hr Ha H1)|]. split; [exact H2|].
    repeat split; reflexivity.
  Qed.
  Theorem c79_withdraw_over_any_asset : forall x w w' cl a r o s, self x = this ->
    (forall t k w1 d w2, raw_call x t k w1 = Some (d, w2) -> Forall is_byte d) ->
    Erc20_spec.reachable (tok w) -> is_u256 a ->
    Erc4626.withdraw x asset offset cl a r o w = (Ok s, w') ->
    exists b d t w1, SafeErc20.balance_of x asset this w = Some b /\
      is_ceil (a * (share_supply w + 10 ^ offset)) (b + 1) s /\ burnt w t cl o s /\
      raw_call x asset (CTransfer r a) (set_tok t w) = Some (d, w1) /\
      tok w' = tok w1 /\ evs w' = evs w1 ++ [Withdraw cl r o a s] /\ asset_st w' = asset_st w1.
  Proof.
    intros x w w' cl a r o s Hs Hb Hr Ha H. apply reachable_inv in Hr. unfold Erc4626.withdraw in H.
    apply bind_ok in H. destruct H as (m & w1 & Hm & H).
    assert (w1 = w) as ->.
    { unfold Erc4626.max_withdraw in Hm. apply bind_ok in Hm. destruct Hm as (b & w0 & Hb0 & Hm). inversion Hb0; subst b w0.
      apply (to_assets_ok x asset Hb) in Hm; [tauto|lia|exact Hr|apply bal_u256; exact Hr]. }
    apply bind_ok in H. destruct H as ([] & w1 & Hf & H). apply fail_if_ok in Hf. destruct Hf as [_ ->].
    apply bind_ok in H. destruct H as (sh & w1 & H1 & H). unfold Erc4626.preview_withdraw in H1.
    apply (to_shares_ok x asset Hb) in H1; [|lia|exact Hr|exact Ha]. destruct H1 as (-> & Hsh & b & Eb & R).
    apply bind_ok in H. destruct H as ([] & w2 & H2 & H). inversion H; subst w2 sh.
    apply withdraw__ok in H2. destruct H2 as (d & w1 & t & H1 & H2 & ->). rewrite Hs in *. exists b, d, t, w1.
    split; [exact Eb|]. split; [exact R|]. split; [exact (burnt_ok w cl o s t Hr Hsh H1)|]. split; [exact H2|].
    repeat split; reflexivity.
  Qed.
End vault.
Print Assumptions c79_vault_shares_are_a_token.
Print Assumptions c79_vault_supply_is_sum.
Print Assumptions c79_vault_shares_are_safe.
Print Assumptions c79_vault_nothing_allowed_nothing_lost.
Print Assumptions c79_deposit_over_any_asset.
Print Assumptions c79_mint_over_any_asset.
Print Assumptions c79_redeem_over_any_asset.
Print Assumptions c79_withdraw_over_any_asset.

(** ** The ERC-20 wrapper *)
Section wrapper.
  Context (this under : Z).
  Notation wexec := (fun x c => Wrapper.exec x under c).
  Notation evolves_by P := (evolves wexec P this).
  Theorem c79_wrapper_is_a_token : forall w w', Erc20_spec.reachable (tok w) ->
    evolves_by wrapper_call w w' -> Erc20_spec.reachable (tok w').
  Proof.
    intros w w' Hr He. assert (G : grows (fun _ => True) (tok w) (tok w')).
    { apply (wrapper_grows this under _ w w'); [|apply reachable_inv; exact Hr]. clear Hr.
      induction He as [| |]; [apply ev_elsewhere; assumption| |eapply ev_then; eassumption].
      apply (ev_call _ _ _ x c); auto. }
    destruct Hr as (h & Hh & E). destruct G as (h' & Hh' & E'). exists (h ++ h'). split.
    - apply Forall_app_2; [exact Hh|]. eapply tame_wf; exact Hh'.
    - rewrite E', E. unfold Erc20.run. rewrite fold_left_app. reflexivity.
  Qed.
  Theorem c79_wrapped_tokens_are_safe : forall w w' o, Erc20_spec.reachable (tok w) ->
    (forall sp, Erc20.allowance (tok w) o sp <> U256_MAX) ->
    evolves_by (wrapper_call_not_by o) w w' -> only_allowances_used (tok w) (tok w') o.
  Proof.
    intros w w' o Hr Hn He. apply reachable_inv in Hr. apply grows_safe; [exact Hr|exact Hn|].
    apply (wrapper_grows this under _ w w'); [|exact Hr]. clear Hr Hn.
    induction He as [|x c w w' [Hc1 Hc2] Hs Hb Hev IH Hx|]; [apply ev_elsewhere; assumption| |eapply ev_then; eassumption].
    apply (ev_call _ _ _ x c); auto. split; [exact Hc1|]. intros a Ea. rewrite Ea in Hc2. congruence.
  Qed.
End wrapper.
Print Assumptions c79_wrapper_is_a_token.
Print Assumptions c79_wrapped_tokens_are_safe.

(** ** What does not survive: backing and price *)
(** An asset that keeps a tenth of every incoming transfer. *)
Definition fee_ext (this asset : Z) : ext world :=
  mkext world this (fun a => a =? asset)
    (fun target c w => match c with
       | CTransferFrom f t v => raw_call (honest_ext this asset) target (CTransferFrom f t (v - v / 10)) w
       | _ => raw_call (honest_ext this asset) target c w
       end).
Definition at_start : world :=
  Erc4626.run (honest_ext 100 200) 200 0
    [Erc4626.Asset 9 (Erc20.OMint 1 1000); Erc4626.Asset 9 (Erc20.OMint 2 1000); Erc4626.Asset 1 (Erc20.OApprove 100 1000);
     Erc4626.Asset 2 (Erc20.OApprove 100 1000)] winit.
(** A wrapper over it owes more than it has, so the last holders cannot get out; *)
Theorem c79_wrapper_backed_refuted :
  exists x h, self x = 100 /\ Forall wrapper_call h /\
  let w := Wrapper.run x 200 h at_start in
  share_supply w = 2000 /\ asset_bal w 100 = 1800 /\
  is_ok (fst (Wrapper.withdraw_to x 200 1 1 1000 w)) = true /\
  is_ok (fst (Wrapper.withdraw_to x 200 2 2 1000 (snd (Wrapper.withdraw_to x 200 1 1 1000 w)))) = false.
Proof.
  exists (fee_ext 100 200), [Wrapper.DepositFor 1 1 1000; Wrapper.DepositFor 2 2 1000]. split; [reflexivity|]. split.
  - assert (two256 > 1000) by reflexivity.
    repeat (apply List.Forall_cons || apply List.Forall_nil); cbn [wrapper_call]; unfold is_u256; lia.
  - cbv zeta. repeat match goal with |- _ /\ _ => split end; vm_compute; reflexivity.
Qed.
Print Assumptions c79_wrapper_backed_refuted.
(** and in a vault over it a depositor is given more shares than what arrives is worth, at
    the expense of the other holders: the price of a share falls. *)
Theorem c79_price_never_falls_refuted :
  exists x c c', self x = 100 /\ vault_call c /\ vault_call c' /\
  let w := Erc4626.run x 200 0 [c] at_start in
  let w' := Erc4626.run x 200 0 [c'] w in
  assets1 100 w' * shares1 0 w < assets1 100 w * shares1 0 w' /\
  fst (Erc4626.preview_redeem x 200 0 1000 w) = Ok 900 /\
  fst (Erc4626.preview_redeem x 200 0 1000 w') = Ok 853.
Proof.
  exists (fee_ext 100 200), (Erc4626.VDeposit 1 1000 1), (Erc4626.VDeposit 2 1000 2). assert (two256 > 1000) by reflexivity.
  split; [reflexivity|]. split; [cbn; unfold is_u256; lia|]. split; [cbn; unfold is_u256; lia|].
  cbv zeta. repeat match goal with |- _ /\ _ => split end; vm_compute; reflexivity.
Qed.
Print Assumptions c79_price_never_falls_refuted.

(** The relation is inhabited: an asset that mints shares to its owner by calling the vault
    from within a transfer, and lies about it. *)
Definition hostile (x0 : ext world) : ext world :=
  mkext world 100 (fun a => a =? 200)
    (fun target c w => match c with
       | CTransferFrom _ _ _ => Some ([], snd (tx (Erc4626.exec x0 200 0 (Erc4626.VDeposit 7 50 7)) w))
       | CBalanceOf _ => Some (word 0, w)
       | _ => None
       end).
Definition liar : ext world :=
  mkext world 100 (fun a => a =? 200)
    (fun target c w => match c with CTransferFrom _ _ _ => Some ([], w) | CBalanceOf _ => Some (word 0, w) | _ => None end).
Example c79_nonvacuous :
  let w' := snd (Erc4626.exec (hostile liar) 200 0 (Erc4626.VDeposit 1 10 1) winit) in
  evolves (fun x c => Erc4626.exec x 200 0 c) (vault_call_not_by 2) 100 winit w' /\
  share_bal w' 7 = 50 /\ share_bal w' 1 = 10 /\ share_supply w' = 60.
Proof.
  assert (W : forall v, Forall is_byte (word v)) by (intros v; apply be_bytes_byte).
  cbv zeta. split; [|repeat match goal with |- _ /\ _ => split end; vm_compute; reflexivity].
  assert (L : forall t k w1 d w2, raw_call liar t k w1 = Some (d, w2) -> Forall is_byte d /\ w2 = w1).
  { intros t k w1 d w2 H. destruct k; cbn [raw_call liar] in H; try discriminate; injection H as <- <-; (split; [first [apply W|apply List.Forall_nil]|reflexivity]). }
  assert (V : forall c v, is_u256 v -> c <> 2 -> vault_call_not_by 2 (Erc4626.VDeposit c v c)).
  { intros c v Hv Hc. split; [exact Hv|]. cbn. congruence. }
  assert (two256 > 100) by reflexivity.
  apply (ev_call _ _ _ (hostile liar) (Erc4626.VDeposit 1 10 1)).
  - apply V; [unfold is_u256; lia|lia].
  - reflexivity.
  - intros t k w1 d w2 H0. destruct k; cbn [raw_call hostile] in H0; try discriminate; injection H0 as <- <-; first [apply W|apply List.Forall_nil].
  - intros t k w1 d w2 H0. destruct k; cbn [raw_call hostile] in H0; try discriminate; injection H0 as <- <-; try (apply ev_elsewhere; reflexivity).
    change (Erc20.ignore (Erc4626.deposit liar 200 0 7 50 7)) with (Erc4626.exec liar 200 0 (Erc4626.VDeposit 7 50 7)).
    unfold tx. destruct (Erc4626.exec liar 200 0 (Erc4626.VDeposit 7 50 7) w1) as [[[]|e|] w3] eqn:E; cbn [snd];
      try (apply ev_elsewhere; reflexivity).
    apply (ev_call _ _ _ liar (Erc4626.VDeposit 7 50 7)); [apply V; [unfold is_u256; lia|lia]|reflexivity| | |exact E].
    + intros t0 k w4 d w5 Hr. apply L in Hr. tauto.
    + intros t0 k w4 d w5 Hr. apply L in Hr. destruct Hr as [_ ->]. apply ev_elsewhere; reflexivity.
  - vm_compute. reflexivity.
Qed.
