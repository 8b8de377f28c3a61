(** C96: flash loans over the SDK's remembering accessors. *)
From Verif.Base Require Import Prelude Maps.
From Verif.Model Require Erc20 FlashMint FlashCache.
From Verif.Spec Require Import Erc20_spec FlashMint_spec FlashCache_spec.
From Verif.Proofs Require Import Erc20_inv Erc20_api Erc20_hist.
From Verif.Props Require Import FlashMint_props.
From stdpp Require Import gmap.
Import FlashMint FlashCache.
#[global] Open Scope Z_scope.

(** ** Functions of the token and the supply *)
Definition put (x : Z) (s : Erc20.state) : Erc20.state := Erc20.set_supply x s.
Lemma put_put x y s : put x (put y s) = put x s.
Proof. reflexivity. Qed.
Lemma put_supply s : put (Erc20.supply s) s = s.
Proof. destruct s. reflexivity. Qed.

(** Functions that neither read nor write the supply. *)
Definition blind {A} (m : M Erc20.state Erc20.error A) : Prop :=
  forall x s, m (put x s) = (fst (m s), put x (snd (m s))) /\ Erc20.supply (snd (m s)) = Erc20.supply s.
Lemma blind_bind {A B} (m : M Erc20.state Erc20.error A) (k : A -> M Erc20.state Erc20.error B) :
  blind m -> (forall a, blind (k a)) -> blind (bind m k).
Proof.
  intros Hm Hk x s. unfold bind. destruct (Hm x s) as [E H]. rewrite E. destruct (m s) as [[a|y|] s1]; cbn [fst snd] in *; auto.
  destruct (Hk a x s1) as [E2 H2]. rewrite E2. split; [reflexivity|]. congruence.
Qed.
Lemma blind_fail_if b e : blind (fail_if b e).
Proof. intros x s. destruct b; split; reflexivity. Qed.
Lemma blind_ret {A} (a : A) : blind (ret a).
Proof. intros x s. split; reflexivity. Qed.
Lemma blind_modify f : (forall x s, f (put x s) = put x (f s)) -> (forall s, Erc20.supply (f s) = Erc20.supply s) -> blind (modify f).
Proof. intros H1 H2 x s. split; [unfold modify; rewrite H1; reflexivity|apply H2]. Qed.
Lemma blind_gets {A} (f : Erc20.state -> A) : (forall x s, f (put x s) = f s) -> blind (gets f).
Proof. intros H x s. split; [unfold gets; rewrite H; reflexivity|reflexivity]. Qed.
Lemma blind_approve o sp v b : blind (Erc20._approve o sp v b).
Proof.
  unfold Erc20._approve. repeat (apply blind_bind; [|intros _]); try apply blind_fail_if; try apply blind_ret.
  - apply blind_modify; reflexivity.
  - destruct b; [apply blind_modify; reflexivity|apply blind_ret].
Qed.
Lemma blind_spend o sp v : blind (Erc20._spend_allowance o sp v).
Proof.
  unfold Erc20._spend_allowance. apply blind_bind; [apply blind_gets; reflexivity|]. intros cur. destruct (cur =? U256_MAX); [apply blind_ret|].
  apply blind_bind; [apply blind_fail_if|intros _]. apply blind_bind; [apply blind_approve|intros _; apply blind_ret].
Qed.
Lemma blind_move f t v : f <> 0 -> t <> 0 -> blind (Erc20._update f t v).
Proof.
  intros Hf Ht. unfold Erc20._update. replace (f =? 0) with false by lia. replace (t =? 0) with false by lia.
  apply blind_bind; [|intros _; apply blind_bind; [|intros _; apply blind_modify; reflexivity]].
  - apply blind_bind; [apply blind_gets; reflexivity|]. intros fb. apply blind_bind; [apply blind_fail_if|intros _]. apply blind_modify; reflexivity.
  - apply blind_bind; [apply blind_gets; reflexivity|]. intros tb. apply blind_modify; reflexivity.
Qed.
Lemma blind_transfer_ f t v : blind (Erc20._transfer f t v).
Proof.
  unfold Erc20._transfer. destruct (Z.eqb_spec f 0) as [->|Hf]; [intros x s; split; reflexivity|].
  destruct (Z.eqb_spec t 0) as [->|Ht]; [intros x s; split; reflexivity|].
  apply blind_bind; [apply blind_fail_if|intros _]. apply blind_bind; [apply blind_fail_if|intros _]. apply blind_move; assumption.
Qed.
Lemma blind_moves c o : moves o -> blind (Erc20.exec c o).
Proof.
  destruct o; cbn [moves]; try contradiction; intros _; cbn [Erc20.exec]; unfold Erc20.ignore.
  - apply blind_bind; [|intros _; apply blind_ret]. unfold Erc20.transfer. apply blind_bind; [apply blind_transfer_|intros _; apply blind_ret].
  - apply blind_bind; [|intros _; apply blind_ret]. apply blind_approve.
  - apply blind_bind; [|intros _; apply blind_ret]. unfold Erc20.transfer_from. apply blind_bind; [apply blind_spend|intros _].
    apply blind_bind; [apply blind_transfer_|intros _; apply blind_ret].
  - apply blind_spend.
Qed.
(** Burning lowers whatever supply there is. *)
Lemma burn_put a v x s :
  Erc20._burn a v (put x s) = (fst (Erc20._burn a v s), match fst (Erc20._burn a v s) with Ok _ => put (wsub x v) (snd (Erc20._burn a v s)) | _ => put x (snd (Erc20._burn a v s)) end) /\
  Erc20.supply (snd (Erc20._burn a v s)) = match fst (Erc20._burn a v s) with Ok _ => wsub (Erc20.supply s) v | _ => Erc20.supply s end.
Proof.
  unfold Erc20._burn, Erc20._update. mred. destruct (a =? 0); [split; reflexivity|].
  change (Erc20.balance_of (put x s) a) with (Erc20.balance_of s a). destruct (Erc20.balance_of s a <? v); split; reflexivity.
Qed.
Lemma settle_put e r v x s :
  fst (settle e r v (put x s)) = fst (settle e r v s) /\
  (fst (settle e r v s) = Ok tt ->
     snd (settle e r v (put x s)) = put (wsub x (burned e v)) (snd (settle e r v s)) /\
     Erc20.supply (snd (settle e r v s)) = wsub (Erc20.supply s) (burned e v)).
Proof.
  unfold settle, burned. cbv zeta. set (fee := flash_fee_value e). unfold bind, map_err. rewrite !cadd_u256.
  destruct (v + fee <? two256); [|split; [reflexivity|discriminate]].
  destruct (blind_spend r (this e) (v + fee) x s) as [E1 H1]. rewrite E1.
  destruct (Erc20._spend_allowance r (this e) (v + fee) s) as [[[]|y|] s1]; cbn [fst snd] in *; [|split; [reflexivity|discriminate]..].
  destruct ((fee =? 0) || (flash_fee_receiver e =? 0)) eqn:Ef.
  - assert (Eb : (if flash_fee_receiver e =? 0 then v + fee else v) = v + fee) by (destruct (flash_fee_receiver e =? 0); lia). rewrite Eb.
    destruct (burn_put r (v + fee) x s1) as [E2 H2]. rewrite E2.
    destruct (Erc20._burn r (v + fee) s1) as [[[]|y|] s2]; cbn [fst snd] in *; (split; [reflexivity|]); try discriminate.
    intros _. split; [reflexivity|]. rewrite H2, H1. reflexivity.
  - apply orb_false_iff in Ef. destruct Ef as [_ Ef]. rewrite Ef.
    destruct (burn_put r v x s1) as [E2 H2]. rewrite E2.
    destruct (Erc20._burn r v s1) as [[[]|y|] s2]; cbn [fst snd] in *; [|split; [reflexivity|discriminate]..].
    destruct (blind_transfer_ r (flash_fee_receiver e) fee (wsub x v) s2) as [E3 H3]. rewrite E3.
    destruct (Erc20._transfer r (flash_fee_receiver e) fee s2) as [[[]|y|] s3]; cbn [fst snd] in *; (split; [reflexivity|]); try discriminate.
    intros _. split; [reflexivity|]. rewrite H3, H2, H1. reflexivity.
Qed.

(** ** One loan *)
Lemma cached_eq e cb r t v s :
  let max := max_flash_loan e t s in
  flash_loan_cached e cb r t v s =
    if max <? v then (Err (ExceededMaxLoan max), s)
    else if negb (t =? this e) then (Err (UnsupportedToken t), s)
    else if negb (has_code e r) then (Err (InvalidReceiver r), s)
    else match Erc20._mint r v s with
         | (Ok _, s1) =>
             match cb s1 with
             | (Ok x, s2) =>
                 if negb (x =? callback_value e) then (Err (InvalidReceiver r), put (Erc20.supply s1) s2)
                 else match settle e r v (put (Erc20.supply s1) s2) with
                      | (Ok _, s') => (Ok true, s')
                      | (Err x, s') => (Err x, s')
                      | (Panic, s') => (Panic, s')
                      end
             | (Err x, s2) => (Err x, s2)
             | (Panic, s2) => (Panic, s2)
             end
         | (Err x, s1) => (Err (ErrErc20 x), s1)
         | (Panic, s1) => (Panic, s1)
         end.
Proof.
  unfold flash_loan_cached, flash_fee. unfold bind at 1. unfold gets. cbn [fst]. cbv zeta.
  unfold bind, fail_if, map_err, ret, fail, modify.
  destruct (_ <? v); [reflexivity|]. destruct (t =? this e); [|reflexivity]. cbn [negb].
  destruct (negb (has_code e r)); [reflexivity|].
  destruct (Erc20._mint r v s) as [[[]|x|] s1]; try reflexivity.
  destruct (cb s1) as [[x|x|] s2]; try reflexivity.
  destruct (negb (x =? callback_value e)); reflexivity.
Qed.
Lemma plain_eq e cb r t v s :
  let max := max_flash_loan e t s in
  flash_loan_with e cb r t v s =
    if max <? v then (Err (ExceededMaxLoan max), s)
    else if negb (t =? this e) then (Err (UnsupportedToken t), s)
    else if negb (has_code e r) then (Err (InvalidReceiver r), s)
    else match Erc20._mint r v s with
         | (Ok _, s1) =>
             match cb s1 with
             | (Ok x, s2) =>
                 if negb (x =? callback_value e) then (Err (InvalidReceiver r), s2)
                 else match settle e r v s2 with
                      | (Ok _, s') => (Ok true, s')
                      | (Err x, s') => (Err x, s')
                      | (Panic, s') => (Panic, s')
                      end
             | (Err x, s2) => (Err x, s2)
             | (Panic, s2) => (Panic, s2)
             end
         | (Err x, s1) => (Err (ErrErc20 x), s1)
         | (Panic, s1) => (Panic, s1)
         end.
Proof.
  unfold flash_loan_with, flash_fee. unfold bind at 1. unfold gets. cbn [fst]. cbv zeta.
  unfold bind, fail_if, map_err, ret, fail, modify.
  destruct (_ <? v); [reflexivity|]. destruct (t =? this e); [|reflexivity]. cbn [negb].
  destruct (negb (has_code e r)); [reflexivity|].
  destruct (Erc20._mint r v s) as [[[]|x|] s1]; try reflexivity.
  destruct (cb s1) as [[x|x|] s2]; try reflexivity.
  destruct (negb (x =? callback_value e)); reflexivity.
Qed.
Lemma mint_supply r v s s1 : Erc20._mint r v s = (Ok tt, s1) -> Erc20.supply s1 = Erc20.supply s + v.
Proof.
  unfold Erc20._mint, Erc20._update. mred. destruct (r =? 0) eqn:E; [discriminate|]. cbn [Z.eqb].
  destruct (Erc20.supply s + v <? two256); [|discriminate]. intros H. injection H as <-. reflexivity.
Qed.

(** A loan answers as if the accessors read the storage each time, for any borrower and in any
    state, and leaves the same balances, allowances and logs. But the supply that it leaves is
    computed from the supply before the callback: whatever the callback did to the supply is
    forgotten. *)
Theorem c96_only_the_supply_is_stale :
  forall e cb receiver token value s,
  fst (flash_loan_cached e cb receiver token value s) = fst (flash_loan_with e cb receiver token value s) /\
  (fst (flash_loan_cached e cb receiver token value s) = Ok true ->
   let s' := snd (flash_loan_cached e cb receiver token value s) in
   let ideal := snd (flash_loan_with e cb receiver token value s) in
   same_balances ideal s' /\ same_allowances ideal s' /\ Erc20.log s' = Erc20.log ideal /\
   Erc20.total_supply s' = (Erc20.total_supply s + value - burned e value) mod two256).
Proof.
  intros e cb r t v s. pose proof (cached_eq e cb r t v s) as E1. pose proof (plain_eq e cb r t v s) as E2. cbv zeta in E1, E2.
  rewrite E1, E2. clear E1 E2.
  destruct (_ <? v); [split; [reflexivity|discriminate]|]. destruct (negb (t =? this e)); [split; [reflexivity|discriminate]|].
  destruct (negb (has_code e r)); [split; [reflexivity|discriminate]|].
  destruct (Erc20._mint r v s) as [[[]|x|] s1] eqn:Em; try (split; [reflexivity|discriminate]).
  destruct (cb s1) as [[x|x|] s2]; try (split; [reflexivity|discriminate]).
  destruct (negb (x =? callback_value e)); [split; [reflexivity|discriminate]|].
  destruct (settle_put e r v (Erc20.supply s1) s2) as [F1 F2].
  destruct (settle e r v (put (Erc20.supply s1) s2)) as [[[]|y|] s3]; destruct (settle e r v s2) as [[[]|y'|] s4];
    cbn [fst snd] in *; try discriminate F1; try (split; [congruence|discriminate]).
  split; [reflexivity|]. intros _. destruct (F2 eq_refl) as [-> _]. split; [intros a; reflexivity|]. split; [intros o sp; reflexivity|].
  split; [reflexivity|]. unfold Erc20.total_supply, put. cbn [Erc20.supply Erc20.set_supply]. rewrite (mint_supply _ _ _ _ Em). reflexivity.
Qed.
Print Assumptions c96_only_the_supply_is_stale.

(** ** Callbacks that leave the supply alone *)
Lemma tx_exec_flash e c r t v body fin s :
  tx (exec_cached e (Flash c r t v body fin)) s =
    match flash_loan_cached e (fun s => match fin with
                      | Reverts => (Err (InvalidReceiver r), s)
                      | Returns v => (Ok v, calls_cached e body s)
                      end) r t v s with
    | (Ok _, s') => (Ok tt, s')
    | (Err x, _) => (Err x, s)
    | (Panic, _) => (Panic, s)
    end.
Proof.
  unfold tx. cbn [exec_cached]. unfold Erc20.ignore, bind, ret.
  destruct (flash_loan_cached e _ r t v s) as [[[]|x|] s'] eqn:E; reflexivity.
Qed.
Lemma wsub_cancel a b c : is_u256 a -> b = c -> wsub (a + b) c = a.
Proof. intros Ha ->. unfold wsub. replace (a + c - c) with a by lia. apply Z.mod_small, Ha. Qed.
Lemma cached_cons e c cs s : calls_cached e (CCons c cs) s = calls_cached e cs (snd (tx (exec_cached e c) s)).
Proof. reflexivity. Qed.
Lemma calls_cons e c cs s : run_calls e (CCons c cs) s = run_calls e cs (snd (tx (exec_call e c) s)).
Proof. reflexivity. Qed.
Lemma steady_same e : env_wf e ->
  (forall c, call_wf c -> (tame e c -> forall s, Inv s -> tx (exec_cached e c) s = tx (exec_call e c) s) /\
             (steady e c -> forall s, Inv s -> tx (exec_cached e c) s = tx (exec_call e c) s /\ Erc20.supply (snd (tx (exec_call e c) s)) = Erc20.supply s)) /\
  (forall cs, calls_wf cs -> steadies e cs -> forall s, Inv s -> calls_cached e cs s = run_calls e cs s /\ Erc20.supply (run_calls e cs s) = Erc20.supply s).
Proof.
  intros He. apply call_calls_ind.
  - intros c o Hw. split; [intros _ s _; reflexivity|]. cbn [steady]. intros Hm s HI. split; [reflexivity|].
    unfold tx. cbn [exec_call]. unfold map_err. destruct (blind_moves c o Hm 0 s) as [_ H]. destruct (Erc20.exec c o s) as [[[]|x|] s']; [exact H|reflexivity..].
  - intros c r t v body IH fin [Hv Hb]. specialize (IH Hb).
    assert (G : steadies e body -> forall s, Inv s -> tx (exec_cached e (Flash c r t v body fin)) s = tx (exec_call e (Flash c r t v body fin)) s /\
      (burns_fee e = false -> Erc20.supply (snd (tx (exec_call e (Flash c r t v body fin)) s)) = Erc20.supply s)).
    { intros Hs s HI. rewrite tx_exec_flash, exec_flash_eq. rewrite cached_eq, plain_eq.
      destruct (_ <? v); [split; reflexivity|]. destruct (negb (t =? this e)); [split; reflexivity|].
      destruct (negb (has_code e r)); [split; reflexivity|].
      destruct (Erc20._mint r v s) as [[[]|x|] s1] eqn:Em; try (split; reflexivity).
      destruct fin as [|x]; [split; reflexivity|].
      pose proof (mint_ok_inv r v s s1 HI Hv Em) as HI1. destruct (IH Hs s1 HI1) as [-> Hsup].
      destruct (negb (x =? callback_value e)); [split; reflexivity|].
      assert (Ep : put (Erc20.supply s1) (run_calls e body s1) = run_calls e body s1) by (rewrite <- Hsup; apply put_supply). rewrite Ep.
      destruct (settle_put e r v 0 (run_calls e body s1)) as [_ F2].
      destruct (settle e r v (run_calls e body s1)) as [[[]|y|] s3]; cbn [fst snd] in *; try (split; reflexivity).
      split; [reflexivity|]. intros Hbf. destruct (F2 eq_refl) as [_ ->]. rewrite Hsup, (mint_supply _ _ _ _ Em).
      apply wsub_cancel; [split; [apply (supply_nonneg s HI)|apply (inv_max s HI)]|]. unfold burns_fee in Hbf. unfold burned. destruct (flash_fee_receiver e =? 0); [|reflexivity].
      cbn [andb] in Hbf. apply negb_false_iff in Hbf. lia. }
    split; [intros Ht s HI; apply (G Ht s HI)|]. cbn [steady]. intros [Hbf Hs] s HI. destruct (G Hs s HI) as [G1 G2]. auto.
  - intros _ _ s _. split; reflexivity.
  - intros c IHc cs IHcs [Hc Hcs] [Sc Scs] s HI. rewrite cached_cons, calls_cons. destruct (proj2 (IHc Hc) Sc s HI) as [E H]. rewrite E.
    destruct (IHcs Hcs Scs _ (proj1 (inv_calls e He) c Hc s HI)) as [E2 H2]. split; [exact E2|congruence].
Qed.

(** If no callback makes or destroys tokens (loans inside callbacks destroy the fee when nobody
    is named to receive it), the accessors make no difference: all of C09 holds. *)
Theorem c96_no_difference_when_callbacks_keep_the_supply :
  forall e l, env_wf e -> List.Forall call_wf l -> List.Forall (tame e) l ->
  run_cached e l Erc20.init = run e l Erc20.init /\
  forall c s, call_wf c -> tame e c -> s = run_cached e l Erc20.init -> tx (exec_cached e c) s = tx (exec_call e c) s.
Proof.
  intros e l He Hl Ht.
  assert (G : forall s, Inv s -> run_cached e l s = run e l s /\ Inv (run e l s)).
  { revert Hl Ht. induction l as [|c l IH]; intros Hl Ht s HI; [split; [reflexivity|exact HI]|].
    apply List.Forall_cons_iff in Hl, Ht. destruct Hl as [Hc Hl], Ht as [Tc Tl].
    change (run_cached e (c :: l) s) with (run_cached e l (snd (tx (exec_cached e c) s))).
    change (run e (c :: l) s) with (run e l (snd (tx (exec_call e c) s))).
    rewrite (proj1 (proj1 (steady_same e He) c Hc) Tc s HI). apply (IH Hl Tl). exact (proj1 (inv_calls e He) c Hc s HI). }
  destruct (G _ inv_init) as [E HI]. split; [exact E|]. intros c s Hc Tc ->. rewrite E. exact (proj1 (proj1 (steady_same e He) c Hc) Tc _ HI).
Qed.
Print Assumptions c96_no_difference_when_callbacks_keep_the_supply.

(** ** Without minting, the supply never falls below the balances *)
(** The supply less what nobody holds. *)
Definition lower (d : Z) (s : Erc20.state) : Erc20.state := put (Erc20.supply s - d) s.
Definition within (d : Z) (s : Erc20.state) : Prop := 0 <= d /\ Inv (lower d s) /\ Erc20.supply s < two256.
Definition keeps_within (m : M Erc20.state Erc20.error unit) : Prop :=
  forall d s, within d s -> fst (m s) = Ok tt -> within d (snd (m s)) /\ Erc20.supply (snd (m s)) <= Erc20.supply s.
Lemma blind_within m : blind m -> (forall s, Inv s -> Inv (snd (m s))) -> keeps_within m.
Proof.
  intros Hb Hi d s (Hd & HI & Hm) Hok. destruct (Hb (Erc20.supply s - d) s) as [E H]. specialize (Hi _ HI). unfold lower in Hi. rewrite E in Hi. cbn [snd] in Hi.
  split; [|lia]. split; [exact Hd|]. split; [unfold lower; rewrite H; exact Hi|lia].
Qed.
Lemma burn_within a v : is_u256 v -> keeps_within (Erc20._burn a v).
Proof.
  intros Hv d s (Hd & HI & Hm) Hok. destruct (burn_put a v (Erc20.supply s - d) s) as [E H]. rewrite Hok in E, H.
  pose proof (burn_spec _ a v HI Hv) as (B1 & _). unfold lower in B1. rewrite E in B1. cbn [fst] in B1. destruct (proj1 B1 eq_refl) as [_ Hle].
  pose proof (bal_le_supply _ HI a) as Hs. change (Erc20.supply (lower d s)) with (Erc20.supply s - d) in Hs.
  change (Erc20.balance_of (put (Erc20.supply s - d) s) a) with (Erc20.balance_of s a) in Hle. change (Erc20.balance_of (lower d s) a) with (Erc20.balance_of s a) in Hs.
  pose proof (inv_burn_ a v _ HI Hv) as Hi. unfold lower in Hi. rewrite E in Hi. cbn [snd] in Hi. unfold is_u256 in Hv.
  rewrite wsub_small in H by lia. rewrite wsub_small in Hi by lia.
  split; [|lia]. split; [exact Hd|]. split; [|lia]. unfold lower. rewrite H. replace (Erc20.supply s - v - d) with (Erc20.supply s - d - v) by lia. exact Hi.
Qed.
Lemma bind_within m k : keeps_within m -> (forall u, keeps_within (k u)) -> keeps_within (bind m k).
Proof.
  intros Hm Hk d s W. unfold bind. specialize (Hm d s W). destruct (m s) as [[[]|x|] s1]; cbn [fst snd] in *; try discriminate.
  intros Hok. destruct (Hm eq_refl) as [W1 L1]. destruct (Hk tt d s1 W1 Hok) as [W2 L2]. split; [exact W2|lia].
Qed.
Lemma public_within c o : public_op o -> Erc20.op_wf o -> keeps_within (Erc20.exec c o).
Proof.
  intros Hp Hw. destruct o; cbn in Hp; try contradiction; unfold Erc20.op_wf in Hw; cbn [Erc20.op_value] in Hw.
  - apply blind_within; [apply blind_moves, I|]. intros s HI. apply inv_exec; [exact HI|exact Hw].
  - apply blind_within; [apply blind_moves, I|]. intros s HI. apply inv_exec; [exact HI|exact Hw].
  - apply blind_within; [apply blind_moves, I|]. intros s HI. apply inv_exec; [exact HI|exact Hw].
  - apply burn_within, Hw.
  - cbn [Erc20.exec]. unfold Erc20.burn_from. apply bind_within; [|intros _; apply burn_within, Hw].
    apply blind_within; [apply blind_spend|]. intros s HI. apply inv_spend; assumption.
Qed.
Lemma settle_within e r v : env_wf e -> is_u256 v -> forall d s, within d s -> fst (settle e r v s) = Ok tt ->
  within d (snd (settle e r v s)) /\ Erc20.supply (snd (settle e r v s)) = Erc20.supply s - burned e v.
Proof.
  intros He Hv d s (Hd & HI & Hm) Hok. destruct (settle_put e r v (Erc20.supply s - d) s) as [F1 F2]. destruct (F2 Hok) as [G1 G2].
  pose proof (wf_fee e He) as Hfee.
  assert (Hr : r <> 0).
  { intros ->. revert Hok. unfold settle. cbv zeta. unfold bind, map_err. rewrite cadd_u256. destruct (_ <? two256); [|discriminate].
    destruct (Erc20._spend_allowance _ _ _ s) as [[[]|y|] s1]; [|discriminate..]. destruct (_ || _); discriminate. }
  assert (Hle : burned e v <= Erc20.supply s - d).
  { pose proof (settle_spec e He r v (lower d s) HI Hv Hr) as [S1 _]. unfold lower in S1. rewrite F1 in S1. destruct (proj1 S1 Hok) as [_ Hb].
    pose proof (bal_le_supply _ HI r) as Hs. unfold lower in Hs. cbn [Erc20.supply put Erc20.set_supply] in Hs. fold (put (Erc20.supply s - d) s) in Hs.
    unfold is_u256 in Hfee. unfold burned. destruct (flash_fee_receiver e =? 0); lia. }
  assert (Hb0 : 0 <= burned e v). { unfold is_u256 in Hv, Hfee. unfold burned. destruct (flash_fee_receiver e =? 0); lia. }
  rewrite wsub_small in G2 by lia. rewrite wsub_small in G1 by lia.
  pose proof (settle_inv e He r v (lower d s) HI Hv) as Hi. unfold lower in Hi. rewrite G1 in Hi.
  split; [|exact G2]. split; [exact Hd|]. split; [|lia]. unfold lower. rewrite G2. replace (Erc20.supply s - burned e v - d) with (Erc20.supply s - d - burned e v) by lia. exact Hi.
Qed.
Lemma mint_put r v x s : Erc20.supply s + v < two256 -> x + v < two256 ->
  Erc20._mint r v (put x s) = (fst (Erc20._mint r v s), match fst (Erc20._mint r v s) with Ok _ => put (x + v) (snd (Erc20._mint r v s)) | _ => put x (snd (Erc20._mint r v s)) end).
Proof.
  intros H1 H2. unfold Erc20._mint, Erc20._update. mred. destruct (r =? 0); [reflexivity|]. cbn [Z.eqb].
  change (Erc20.supply (put x s)) with x. replace (x + v <? two256) with true by lia. replace (Erc20.supply s + v <? two256) with true by lia. reflexivity.
Qed.
Lemma public_cached e : env_wf e ->
  (forall c, call_wf c -> call_public c -> forall d s, within d s ->
     exists d', within d' (snd (tx (exec_cached e c) s)) /\ Erc20.supply (snd (tx (exec_cached e c) s)) <= Erc20.supply s) /\
  (forall cs, calls_wf cs -> calls_public cs -> forall d s, within d s ->
     exists d', within d' (calls_cached e cs s) /\ Erc20.supply (calls_cached e cs s) <= Erc20.supply s).
Proof.
  intros He. apply call_calls_ind.
  - intros c o Hw Hp d s W. pose proof (public_within c o Hp Hw d s W) as K. unfold tx. cbn [exec_cached]. unfold map_err.
    destruct (Erc20.exec c o s) as [[[]|x|] s']; cbn [fst snd] in *; [|exists d; split; [exact W|lia]..].
    exists d. apply K. reflexivity.
  - intros c r t v body IH fin [Hv Hb] Hp d s W. cbn [call_public] in Hp. specialize (IH Hb Hp).
    assert (Hno : exists d', within d' s /\ Erc20.supply s <= Erc20.supply s) by (exists d; split; [exact W|lia]).
    rewrite tx_exec_flash, cached_eq. pose proof W as (Hd & HI & Hm). pose proof (supply_nonneg _ HI) as H0. change (Erc20.supply (lower d s)) with (Erc20.supply s - d) in H0.
    destruct (max_flash_loan e t s <? v) eqn:Emax; [exact Hno|]. destruct (t =? this e) eqn:Et; cbn [negb]; [|exact Hno].
    destruct (negb (has_code e r)); [exact Hno|]. unfold max_flash_loan in Emax. rewrite Et in Emax. unfold Erc20.total_supply in Emax.
    rewrite wsub_small in Emax by (unfold U256_MAX; lia).
    assert (Hsv : Erc20.supply s + v < two256) by (unfold U256_MAX in Emax; lia).
    pose proof (mint_put r v (Erc20.supply s - d) s Hsv ltac:(lia)) as Ep. pose proof (inv_mint r v _ HI Hv) as Hi. unfold lower in Hi. rewrite Ep in Hi. clear Ep.
    destruct (Erc20._mint r v s) as [[[]|x|] s1] eqn:Em; cbn [fst snd] in *; [|exact Hno..]. pose proof (mint_supply _ _ _ _ Em) as Hs1.
    assert (W1 : within d s1). { split; [exact Hd|]. split; [|lia]. unfold lower. rewrite Hs1. replace (Erc20.supply s + v - d) with (Erc20.supply s - d + v) by lia. exact Hi. }
    destruct fin as [|x]; [exact Hno|]. destruct (IH d s1 W1) as (d2 & W2 & L2). destruct (negb (x =? callback_value e)); [exact Hno|].
    set (s2 := calls_cached e body s1) in *.
    assert (W3 : within (Erc20.supply s1 - Erc20.supply s2 + d2) (put (Erc20.supply s1) s2)).
    { destruct W2 as (D2 & I2 & M2). split; [lia|]. split; [|cbn [Erc20.supply put Erc20.set_supply]; lia].
      unfold lower. rewrite put_put. cbn [Erc20.supply put Erc20.set_supply].
      change (Inv (put (Erc20.supply s1 - (Erc20.supply s1 - Erc20.supply s2 + d2)) s2)).
      replace (Erc20.supply s1 - (Erc20.supply s1 - Erc20.supply s2 + d2)) with (Erc20.supply s2 - d2) by lia. exact I2. }
    pose proof (settle_within e r v He Hv _ _ W3) as K.
    destruct (settle e r v (put (Erc20.supply s1) s2)) as [[[]|y|] s3]; cbn [fst snd] in *; [|exact Hno..].
    destruct (K eq_refl) as [W4 L4]. eexists. split; [exact W4|]. rewrite L4. cbn [Erc20.supply put Erc20.set_supply].
    pose proof (wf_fee e He) as Hfee. unfold is_u256 in Hfee. unfold burned. destruct (flash_fee_receiver e =? 0); lia.
  - intros _ _ d s W. exists d. split; [exact W|]. change (calls_cached e CNil s) with s. lia.
  - intros c IHc cs IHcs [Hc Hcs] [Pc Pcs] d s W. rewrite cached_cons. destruct (IHc Hc Pc d s W) as (d1 & W1 & L1).
    destruct (IHcs Hcs Pcs d1 _ W1) as (d2 & W2 & L2). exists d2. split; [exact W2|lia].
Qed.
Lemma within_sum d s l : within d s -> covers s l -> sum_balances s l = Erc20.total_supply s - d.
Proof.
  intros (_ & HI & _) Hl. pose proof (conservation_inv (lower d s) l HI Hl) as K. change (Erc20.total_supply (lower d s)) with (Erc20.total_supply s - d) in K. rewrite K.
  clear K Hl HI. induction l as [|a l IH]; [reflexivity|]. cbn [sum_balances]. rewrite IH. reflexivity.
Qed.

(** Over any ledger, any public calls with any borrowers: nobody's balance, and no sum of
    balances, exceeds the supply, which fits a word and never grows; so no balance wraps. *)
Theorem c96_balances_stay_within_the_supply :
  forall e h0 l, env_wf e -> Erc20.hist_wf h0 -> List.Forall call_wf l -> List.Forall call_public l ->
  let s0 := Erc20.run h0 Erc20.init in
  let s := run_cached e l s0 in
  (forall ls, covers s ls -> sum_balances s ls <= Erc20.total_supply s) /\
  (forall a, 0 <= Erc20.balance_of s a <= Erc20.total_supply s) /\
  0 <= Erc20.total_supply s <= Erc20.total_supply s0 /\ Erc20.total_supply s0 < two256.
Proof.
  intros e h0 l He Hh Hl Hp s0 s. assert (W0 : within 0 s0).
  { assert (HI : Inv s0) by (apply inv_run; [exact Hh|apply inv_init]). split; [lia|]. split; [|apply (inv_max s0 HI)].
    unfold lower. rewrite Z.sub_0_r, put_supply. exact HI. }
  assert (G : exists d, within d s /\ Erc20.supply s <= Erc20.supply s0).
  { unfold s. clear s Hh. clearbody s0. generalize dependent 0. revert s0 Hl Hp. induction l as [|c l IH]; intros s0 Hl Hp d W; [exists d; split; [exact W|apply Z.le_refl]|].
    apply List.Forall_cons_iff in Hl, Hp. destruct Hl as [Hc Hl], Hp as [Pc Pl].
    change (run_cached e (c :: l) s0) with (run_cached e l (snd (tx (exec_cached e c) s0))).
    destruct (proj1 (public_cached e He) c Hc Pc d s0 W) as (d1 & W1 & L1). destruct (IH _ Hl Pl d1 W1) as (d2 & W2 & L2).
    exists d2. split; [exact W2|]. exact (Z.le_trans _ _ _ L2 L1). }
  destruct G as (d & W & L). pose proof W as (Hd & HI & Hm). split; [|split; [|split]].
  - intros ls Hc. rewrite (within_sum d s ls W Hc). lia.
  - intros a. pose proof (bal_nonneg _ HI a) as B1. pose proof (bal_le_supply _ HI a) as B2.
    change (Erc20.balance_of (lower d s) a) with (Erc20.balance_of s a) in B1, B2. change (Erc20.supply (lower d s)) with (Erc20.supply s - d) in B2.
    unfold Erc20.total_supply. lia.
  - pose proof (supply_nonneg _ HI) as B. change (Erc20.supply (lower d s)) with (Erc20.supply s - d) in B. unfold Erc20.total_supply. lia.
  - destruct W0 as (_ & _ & M0). exact M0.
Qed.
Print Assumptions c96_balances_stay_within_the_supply.

(** ** What goes wrong *)
Lemma only_7 (m : gmap Z Z) s : Erc20.balances s = m -> m = mset ∅ 7 0 -> covers s [7].
Proof.
  intros E1 E2. split; [apply List.NoDup_cons; [intros []|apply List.NoDup_nil]|]. intros a. unfold Erc20.balance_of. rewrite E1, E2, mget_set, mget_empty.
  destruct (decide (7 = a)) as [->|]; [left; reflexivity|]. intros H. contradiction.
Qed.
Local Definition dear : env := mkenv 100 (fun a => a =? 7) 0xcafe 5 0.
Local Definition twice : call := Flash 1 7 100 1000 (CCons (Flash 1 7 100 1000 CNil (Returns 0xcafe)) CNil) (Returns 0xcafe).
Local Definition prepared : list (Z * Erc20.op) := [(1, Erc20.OMint 7 10); (7, Erc20.OApprove 100 100000)].
Lemma dear_wf : env_wf dear.
Proof. split; [split; [discriminate|reflexivity]|discriminate]. Qed.
Lemma prepared_wf : Erc20.hist_wf prepared.
Proof. apply List.Forall_cons; [split; [discriminate|reflexivity]|]. apply List.Forall_cons; [split; [discriminate|reflexivity]|apply List.Forall_nil]. Qed.
Lemma twice_wf : call_wf twice.
Proof. repeat split; cbn; discriminate. Qed.
(** Only public functions of the library, fee 5 with nobody to receive it: a loan within a loan.
    Two fees are destroyed, the supply goes down by one. *)
Theorem c96_supply_is_the_sum_refuted :
  exists e h0 c ls, env_wf e /\ Erc20.hist_wf h0 /\ call_wf c /\ call_public c /\
  let s := Erc20.run h0 Erc20.init in
  let s' := snd (tx (exec_cached e c) s) in
  fst (tx (exec_cached e c) s) = Ok tt /\
  covers s' ls /\ sum_balances s' ls = 0 /\ Erc20.total_supply s' = 5 /\
  Erc20.total_supply (snd (tx (exec_call e c) s)) = 0.
Proof.
  exists dear, prepared, twice, [7].
  split; [exact dear_wf|]. split; [exact prepared_wf|]. split; [exact twice_wf|]. split; [cbn; tauto|].
  cbv zeta. split; [vm_compute; reflexivity|]. split; [apply (only_7 _ _ eq_refl), (bool_decide_unpack _); vm_compute; exact I|].
  split; [vm_compute; reflexivity|]. split; vm_compute; reflexivity.
Qed.
Print Assumptions c96_supply_is_the_sum_refuted.
(** Where anybody may mint, as in examples/erc20-flash-mint, a borrower that mints in its
    callback leaves tokens that the supply does not count. Then balances can exceed the supply,
    a burn makes the supply wrap to nearly [2^256], and a mint makes a balance wrap: the holder
    of 5 tokens ends with 4. *)
Theorem c96_minting_in_a_callback_breaks_the_ledger :
  exists e c, env_wf e /\ call_wf c /\
  let s := snd (tx (exec_cached e c) Erc20.init) in
  fst (tx (exec_cached e c) Erc20.init) = Ok tt /\
  Erc20.total_supply s = 0 /\ Erc20.balance_of s 8 = 5 /\
  Erc20.total_supply (Erc20.run [(8, Erc20.OBurn 5)] s) = two256 - 5 /\
  Erc20.balance_of (Erc20.run [(8, Erc20.OMint 8 U256_MAX)] s) 8 = 4.
Proof.
  exists (mkenv 100 (fun a => a =? 7) 0xcafe 0 0),
    (Flash 1 7 100 1000 (CCons (Plain 8 (Erc20.OMint 8 5)) (CCons (Plain 7 (Erc20.OApprove 100 1000)) CNil)) (Returns 0xcafe)).
  split; [split; [split; [discriminate|reflexivity]|discriminate]|]. split; [repeat split; cbn; discriminate|].
  cbv zeta. repeat split; vm_compute; reflexivity.
Qed.
Print Assumptions c96_minting_in_a_callback_breaks_the_ledger.

(** Witnesses: a tame loan (the callback moves tokens and takes a loan whose fee is paid out)
    over a prepared ledger, the same with either kind of accessor; and a public one that is not
    tame, where the supply stays above the balances. *)
Example c96_nonvacuous :
  let paid := mkenv 100 (fun a => a =? 7) 0xcafe 5 50 in
  env_wf paid /\ tame paid twice /\ call_wf twice /\
  (let s := Erc20.run prepared Erc20.init in
   fst (tx (exec_cached paid twice) s) = Ok tt /\ Erc20.total_supply (snd (tx (exec_cached paid twice) s)) = 10 /\
   Erc20.balance_of (snd (tx (exec_cached paid twice) s)) 50 = 10) /\
  ~ tame dear twice /\ call_public twice.
Proof.
  cbv zeta. split; [split; [split; [discriminate|reflexivity]|discriminate]|]. split; [cbn; tauto|]. split; [exact twice_wf|].
  split; [repeat split; vm_compute; reflexivity|]. split; [intros [[H _] _]; discriminate H|cbn; tauto].
Qed.
