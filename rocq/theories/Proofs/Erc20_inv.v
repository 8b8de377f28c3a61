From Verif.Base Require Import Prelude Maps.
From Verif.Model Require Import Erc20.
From stdpp Require Import gmap.
#[global] Open Scope Z_scope.

(** Ledger invariant. *)
Record Inv (s : state) : Prop := mkInv {
  inv_sum : msum (balances s) = supply s;
  inv_nonneg : mnonneg (balances s);
  inv_max : supply s < two256;
  inv_zero : balance_of s 0 = 0;
  inv_allow : forall o sp, is_u256 (allowance s o sp);
  inv_allow_owner0 : forall sp, allowance s 0 sp = 0;
  inv_allow_spender0 : forall o, allowance s o 0 = 0
}.

Lemma inv_init : Inv init.
Proof.
  split; cbn; try (intros; unfold allowance, balance_of; cbn; rewrite ?mget_empty);
    try apply msum_empty; try apply mnonneg_empty; try reflexivity; try (split; reflexivity || lia).
Qed.

Section with_inv.
  Context (s : state) (HI : Inv s).

  Lemma bal_nonneg a : 0 <= balance_of s a.
  Proof. apply (inv_nonneg s HI a). Qed.
  Lemma bal_le_supply a : balance_of s a <= supply s.
  Proof. rewrite <- (inv_sum s HI). apply mget_le_msum. apply (inv_nonneg s HI). Qed.
  Lemma bal2_le_supply a b : a <> b -> balance_of s a + balance_of s b <= supply s.
  Proof. intros. rewrite <- (inv_sum s HI). apply mget2_le_msum; auto. apply (inv_nonneg s HI). Qed.
  Lemma supply_nonneg : 0 <= supply s.
  Proof. pose proof (bal_nonneg 0). pose proof (bal_le_supply 0). lia. Qed.
End with_inv.

(** The transition of [_update] with unbounded arithmetic: no wrap-around anywhere. *)
Definition ideal_update (from to v : Z) (s : state) : res error unit * state :=
  if from =? 0 then
    if supply s + v <? two256 then
      if to =? 0 then (Ok tt, emit (Transfer from to v) s)
      else (Ok tt, emit (Transfer from to v)
             (set_supply (supply s + v) (set_balance to (balance_of s to + v) s)))
    else (Panic, s)
  else if balance_of s from <? v then
    (Err (InsufficientBalance from (balance_of s from) v), s)
  else if to =? 0 then
    (Ok tt, emit (Transfer from to v)
       (set_supply (supply s - v) (set_balance from (balance_of s from - v) s)))
  else
    let s1 := set_balance from (balance_of s from - v) s in
    (Ok tt, emit (Transfer from to v) (set_balance to (balance_of s1 to + v) s1)).

Lemma balance_of_set_balance s a v b :
  balance_of (set_balance a v s) b = if decide (a = b) then v else balance_of s b.
Proof. unfold balance_of, set_balance; cbn. apply mget_set. Qed.

Lemma update_ideal from to v s :
  Inv s -> is_u256 v -> _update from to v s = ideal_update from to v s.
Proof.
  intros HI Hv. unfold _update, ideal_update. mred. unfold is_u256 in Hv.
  pose proof (supply_nonneg s HI) as Hs0. pose proof (inv_max s HI) as Hsm.
  destruct (from =? 0) eqn:Hf.
  - destruct (supply s + v <? two256) eqn:Hov; [|reflexivity].
    destruct (to =? 0) eqn:Ht.
    + cbn [supply set_supply]. rewrite wsub_small by lia.
      f_equal. unfold emit, set_supply; cbn. f_equal. destruct s; cbn. f_equal. lia.
    + rewrite wadd_small; [reflexivity|].
      unfold balance_of, set_supply; cbn. fold (balance_of s to).
      pose proof (bal_nonneg s HI to). pose proof (bal_le_supply s HI to). lia.
  - destruct (balance_of s from <? v) eqn:Hb; [reflexivity|].
    pose proof (bal_nonneg s HI from). pose proof (bal_le_supply s HI from).
    rewrite wsub_small by lia.
    destruct (to =? 0) eqn:Ht.
    + cbn [supply set_balance]. rewrite wsub_small by lia. reflexivity.
    + rewrite wadd_small; [reflexivity|].
      rewrite balance_of_set_balance. destruct (decide (from = to)) as [<-|Hne].
      * lia.
      * pose proof (bal_nonneg s HI to). pose proof (bal2_le_supply s HI from to Hne). lia.
Qed.

Lemma inv_emit e s : Inv s -> Inv (emit e s).
Proof. intros []. split; cbn; auto. Qed.

Lemma inv_ideal_update from to v s :
  Inv s -> is_u256 v -> Inv (snd (ideal_update from to v s)).
Proof.
  intros HI Hv. unfold is_u256 in Hv. unfold ideal_update.
  pose proof (supply_nonneg s HI) as Hs0. pose proof (inv_max s HI) as Hsm.
  destruct (from =? 0) eqn:Hf.
  - destruct (supply s + v <? two256) eqn:Hov; [|exact HI].
    destruct (to =? 0) eqn:Ht; cbn [snd]; apply inv_emit; [exact HI|].
    pose proof (bal_nonneg s HI to).
    split; cbn.
    + rewrite msum_set. rewrite (inv_sum s HI). unfold balance_of. lia.
    + apply mnonneg_set; [apply (inv_nonneg s HI)|unfold balance_of in *; lia].
    + lia.
    + unfold balance_of; cbn. rewrite mget_set_ne by lia. apply (inv_zero s HI).
    + apply (inv_allow s HI).
    + apply (inv_allow_owner0 s HI).
    + apply (inv_allow_spender0 s HI).
  - destruct (balance_of s from <? v) eqn:Hb; [exact HI|].
    pose proof (bal_nonneg s HI from) as Hbn. pose proof (bal_le_supply s HI from) as Hbl.
    destruct (to =? 0) eqn:Ht; cbn [snd]; apply inv_emit.
    + split; cbn.
      * rewrite msum_set. rewrite (inv_sum s HI). unfold balance_of. lia.
      * apply mnonneg_set; [apply (inv_nonneg s HI)|lia].
      * lia.
      * unfold balance_of; cbn. rewrite mget_set_ne by lia. apply (inv_zero s HI).
      * apply (inv_allow s HI).
      * apply (inv_allow_owner0 s HI).
      * apply (inv_allow_spender0 s HI).
    + split; cbn.
      * rewrite !msum_set. rewrite (inv_sum s HI). unfold balance_of; cbn. lia.
      * apply mnonneg_set; [apply mnonneg_set; [apply (inv_nonneg s HI)|lia]|].
        pose proof (bal_nonneg s HI to). unfold balance_of in *; cbn. rewrite mget_set.
        destruct (decide (from = to)); lia.
      * lia.
      * unfold balance_of; cbn. rewrite !mget_set_ne by lia. apply (inv_zero s HI).
      * apply (inv_allow s HI).
      * apply (inv_allow_owner0 s HI).
      * apply (inv_allow_spender0 s HI).
Qed.

Lemma inv_update from to v s : Inv s -> is_u256 v -> Inv (snd (_update from to v s)).
Proof. intros. rewrite update_ideal by assumption. apply inv_ideal_update; assumption. Qed.

Lemma allowance_set s o sp v o' sp' :
  allowance (set_allowance o sp v s) o' sp' =
  if decide (o = o' /\ sp = sp') then v else allowance s o' sp'.
Proof.
  unfold allowance, set_allowance; cbn. rewrite mget_set.
  destruct (decide ((o, sp) = (o', sp'))) as [E|E], (decide (o = o' /\ sp = sp')) as [F|F]; auto.
  - inversion E; tauto.
  - destruct F; subst; congruence.
Qed.

Lemma inv_set_allowance o sp v s :
  Inv s -> is_u256 v -> o <> 0 -> sp <> 0 -> Inv (set_allowance o sp v s).
Proof.
  intros HI Hv Ho Hsp. destruct HI. split; cbn; auto.
  - intros o' sp'. rewrite allowance_set. case_decide; auto.
  - intros sp'. rewrite allowance_set. case_decide; auto. lia.
  - intros o'. rewrite allowance_set. case_decide; auto. lia.
Qed.

Lemma inv_approve o sp v b s : Inv s -> is_u256 v -> Inv (snd (_approve o sp v b s)).
Proof.
  intros HI Hv. unfold _approve. mred.
  destruct (o =? 0) eqn:Ho; [exact HI|]. destruct (sp =? 0) eqn:Hsp; [exact HI|].
  assert (Inv (set_allowance o sp v s)) by (apply inv_set_allowance; auto; lia).
  destruct b; cbn [snd]; [apply inv_emit|]; assumption.
Qed.

Lemma spend_ideal o sp v s :
  Inv s -> is_u256 v -> o <> 0 -> sp <> 0 ->
  _spend_allowance o sp v s =
  if allowance s o sp =? U256_MAX then (Ok tt, s)
  else if allowance s o sp <? v then
    (Err (InsufficientAllowance sp (allowance s o sp) v), s)
  else (Ok tt, set_allowance o sp (allowance s o sp - v) s).
Proof.
  intros HI Hv Ho Hsp. unfold _spend_allowance, _approve. mred.
  destruct (allowance s o sp =? U256_MAX); [reflexivity|].
  destruct (allowance s o sp <? v) eqn:Hlt; [reflexivity|].
  destruct (o =? 0) eqn:E; [lia|]. destruct (sp =? 0) eqn:E'; [lia|].
  pose proof (inv_allow s HI o sp). unfold is_u256 in *.
  rewrite wsub_small by lia. reflexivity.
Qed.

Lemma inv_spend o sp v s : Inv s -> is_u256 v -> Inv (snd (_spend_allowance o sp v s)).
Proof.
  intros HI Hv. unfold _spend_allowance. mred.
  destruct (allowance s o sp =? U256_MAX); [exact HI|].
  destruct (allowance s o sp <? v); [exact HI|].
  pose proof (inv_approve o sp (wsub (allowance s o sp) v) false s HI (wsub_range _ _)) as H.
  destruct (_approve o sp (wsub (allowance s o sp) v) false s) as [[b|e|] s']; exact H.
Qed.

(** Monadic preservation combinator. *)
Lemma inv_bind {A B} (m : M state error A) (k : A -> M state error B) s :
  Inv (snd (m s)) -> (forall a s', Inv s' -> Inv (snd (k a s'))) -> Inv (snd (bind m k s)).
Proof. intros Hm Hk. unfold bind. destruct (m s) as [[a|e|] s']; cbn in *; auto. Qed.

Lemma inv_fail_if c e s : Inv s -> Inv (snd (@fail_if state error c e s)).
Proof. unfold fail_if. destruct c; auto. Qed.

Lemma inv_transfer_ f t v s : Inv s -> is_u256 v -> Inv (snd (_transfer f t v s)).
Proof.
  intros HI Hv. unfold _transfer.
  apply inv_bind; [apply inv_fail_if; auto|]. intros ? ? ?.
  apply inv_bind; [apply inv_fail_if; auto|]. intros ? ? ?. apply inv_update; auto.
Qed.
Lemma inv_mint a v s : Inv s -> is_u256 v -> Inv (snd (_mint a v s)).
Proof.
  intros HI Hv. unfold _mint.
  apply inv_bind; [apply inv_fail_if; auto|]. intros ? ? ?. apply inv_update; auto.
Qed.
Lemma inv_burn_ a v s : Inv s -> is_u256 v -> Inv (snd (_burn a v s)).
Proof.
  intros HI Hv. unfold _burn.
  apply inv_bind; [apply inv_fail_if; auto|]. intros ? ? ?. apply inv_update; auto.
Qed.

(** Every entry point preserves the invariant, whatever its outcome. *)
Lemma inv_exec c o s : Inv s -> op_wf o -> Inv (snd (exec c o s)).
Proof.
  intros HI Hv. unfold op_wf in Hv.
  destruct o; cbn [op_value] in Hv; unfold exec, ignore.
  - apply inv_bind; [|auto]. unfold transfer. apply inv_bind; [apply inv_transfer_; auto|auto].
  - apply inv_bind; [|auto]. unfold approve. apply inv_approve; auto.
  - apply inv_bind; [|auto]. unfold transfer_from.
    apply inv_bind; [apply inv_spend; auto|]. intros ? ? ?.
    apply inv_bind; [apply inv_transfer_; auto|auto].
  - apply inv_burn_; auto.
  - unfold burn_from. apply inv_bind; [apply inv_spend; auto|]. intros ? ? ?. apply inv_burn_; auto.
  - apply inv_mint; auto.
  - apply inv_burn_; auto.
  - apply inv_update; auto.
  - apply inv_spend; auto.
Qed.

Lemma inv_tx {A} (m : M state error A) s :
  Inv s -> Inv (snd (m s)) -> Inv (snd (tx m s)).
Proof. unfold tx. destruct (m s) as [[a|e|] s']; auto. Qed.

Lemma inv_step s co : Inv s -> op_wf (snd co) -> Inv (step s co).
Proof. intros. unfold step. apply inv_tx; auto. apply inv_exec; auto. Qed.

Lemma inv_run h s : hist_wf h -> Inv s -> Inv (run h s).
Proof.
  revert s. induction h as [|co h IH]; intros s Hh HI; [exact HI|].
  inversion Hh; subst. cbn. apply IH; auto. apply inv_step; auto.
Qed.
