(** Property theorems for the capped and pausable ERC-20 example (C07). *)
From Verif.Base Require Import Prelude.
From Verif.Model Require Erc20 Pausable.
From Verif.Model Require Import Erc20Example.
From Verif.Spec Require Erc20_spec.
From Verif.Proofs Require Erc20_inv Erc20_api.
#[global] Open Scope Z_scope.




(** The token-level call an example call forwards to when it is not stopped. *)
Definition token_op (o : op) : option Erc20.op :=
  match o with
  | OTransfer t v => Some (Erc20.OTransfer t v)
  | OApprove sp v => Some (Erc20.OApprove sp v)
  | OTransferFrom f t v => Some (Erc20.OTransferFrom f t v)
  | OBurn v => Some (Erc20.OBurn v)
  | OBurnFrom a v => Some (Erc20.OBurnFrom a v)
  | OMint a v => Some (Erc20.OMint a v)
  | OPause | OUnpause => None
  end.

(** One transaction, completely. *)
Lemma ex_step_cases s c o :
  (step s (c, o) = s) \/
  (exists t, token_op o = Some t /\ (Pausable.paused (pausable s) = false \/ exists sp v, o = OApprove sp v) /\
     (forall a v, o = OMint a v -> Erc20.total_supply (erc20 s) + v <= cap s) /\
     fst (Erc20.exec c t (erc20 s)) = Ok tt /\ is_ok (fst (exec c o s)) = true /\
     step s (c, o) = mk (Erc20.step (erc20 s) (c, t)) (cap s) (pausable s)) \/
  (o = OPause /\ Pausable.paused (pausable s) = false /\
     step s (c, o) = mk (erc20 s) (cap s) (Pausable.mk true (Pausable.log (pausable s) ++ [Pausable.Paused c]))) \/
  (o = OUnpause /\ Pausable.paused (pausable s) = true /\
     step s (c, o) = mk (erc20 s) (cap s) (Pausable.mk false (Pausable.log (pausable s) ++ [Pausable.Unpaused c]))).
Proof.
  destruct s as [t k [b l]].
  unfold step; cbn [fst snd]. unfold tx.
  destruct o as [t0 v|sp v|f t0 v|v|a v|a v| |]; cbn [exec token_op erc20 cap pausable Pausable.paused Pausable.log].
  - destruct b; [left; reflexivity|]. unfold transfer, when_not_paused, on_pausable, on_erc20, Pausable.when_not_paused. mred. cbn.
    destruct (Erc20.transfer c t0 v t) as [[x|x|] t'] eqn:E; cbn; [|left; reflexivity|left; reflexivity].
    right; left. exists (Erc20.OTransfer t0 v). unfold Erc20.step, tx, Erc20.exec, Erc20.ignore, bind, ret; cbn [fst snd]. rewrite E.
    repeat split; auto. discriminate.
  - unfold approve, on_erc20. mred. cbn.
    destruct (Erc20.approve c sp v t) as [[x|x|] t'] eqn:E; cbn; [|left; reflexivity|left; reflexivity].
    right; left. exists (Erc20.OApprove sp v). unfold Erc20.step, tx, Erc20.exec, Erc20.ignore, bind, ret; cbn [fst snd]. rewrite E.
    repeat split; auto; [right; eauto|discriminate].
  - destruct b; [left; reflexivity|]. unfold transfer_from, when_not_paused, on_pausable, on_erc20, Pausable.when_not_paused. mred. cbn.
    destruct (Erc20.transfer_from c f t0 v t) as [[x|x|] t'] eqn:E; cbn; [|left; reflexivity|left; reflexivity].
    right; left. exists (Erc20.OTransferFrom f t0 v). unfold Erc20.step, tx, Erc20.exec, Erc20.ignore, bind, ret; cbn [fst snd]. rewrite E.
    repeat split; auto. discriminate.
  - destruct b; [left; reflexivity|]. unfold burn, when_not_paused, on_pausable, on_erc20, Pausable.when_not_paused. mred. cbn.
    destruct (Erc20.burn c v t) as [[[]|x|] t'] eqn:E; cbn; [|left; reflexivity|left; reflexivity].
    right; left. exists (Erc20.OBurn v). unfold Erc20.step, tx, Erc20.exec; cbn [fst snd]. rewrite E.
    repeat split; auto. discriminate.
  - destruct b; [left; reflexivity|]. unfold burn_from, when_not_paused, on_pausable, on_erc20, Pausable.when_not_paused. mred. cbn.
    destruct (Erc20.burn_from c a v t) as [[[]|x|] t'] eqn:E; cbn; [|left; reflexivity|left; reflexivity].
    right; left. exists (Erc20.OBurnFrom a v). unfold Erc20.step, tx, Erc20.exec; cbn [fst snd]. rewrite E.
    repeat split; auto. discriminate.
  - destruct b; [left; reflexivity|]. unfold mint, when_not_paused, on_pausable, on_erc20, Pausable.when_not_paused. mred. cbn.
    destruct (_ <? two256); cbn; [|left; reflexivity].
    destruct (k <? Erc20.total_supply t + v) eqn:Ek; cbn; [left; reflexivity|].
    destruct (Erc20._mint a v t) as [[[]|x|] t'] eqn:E; cbn; [|left; reflexivity|left; reflexivity].
    right; left. exists (Erc20.OMint a v). unfold Erc20.step, tx, Erc20.exec; cbn [fst snd]. rewrite E.
    repeat split; auto. intros a' v' Heq. inversion Heq; subst. cbn. lia.
  - destruct b; [left; reflexivity|]. right; right; left. repeat split.
  - destruct b; [|left; reflexivity]. right; right; right. repeat split.
Qed.

(** Every reachable token state is reachable for the plain ERC-20, so C01-C06 apply. *)
Theorem c07_token_is_an_erc20 :
  forall k h, hist_wf h -> Erc20_spec.reachable (erc20 (run h (init k))).
Proof.
  intros k h Hh. unfold Erc20_spec.reachable.
  assert (G : forall s, (exists g, Erc20.hist_wf g /\ erc20 s = Erc20.run g Erc20.init) ->
                        exists g, Erc20.hist_wf g /\ erc20 (run h s) = Erc20.run g Erc20.init).
  { induction h as [|[c o] h IH]; intros s Hs; [exact Hs|].
    inversion Hh as [|? ? Hv Hh']; subst. cbn [snd] in Hv. apply (IH Hh').
    destruct Hs as (g & Hg & Eg).
    destruct (ex_step_cases s c o) as [->|[(t & Et & _ & _ & _ & _ & ->)|[(-> & _ & ->)|(-> & _ & ->)]]].
    - eauto.
    - exists (g ++ [(c, t)]). split.
      + apply Forall_app. split; [exact Hg|]. constructor; [|constructor].
        destruct o; inversion Et; subst; exact Hv.
      + cbn. rewrite Eg. unfold Erc20.run. rewrite fold_left_app. reflexivity.
    - eauto.
    - eauto. }
  apply G. exists []. split; [constructor|reflexivity].
Qed.
Print Assumptions c07_token_is_an_erc20.

Lemma cap_constant h : forall s, cap (run h s) = cap s.
Proof.
  induction h as [|[c o] h IH]; intros s; [reflexivity|].
  cbn [run fold_left]. fold (run h (step s (c, o))). rewrite IH.
  destruct (ex_step_cases s c o) as [->|[(t & Et & _ & _ & _ & _ & ->)|[(-> & _ & ->)|(-> & _ & ->)]]]; reflexivity.
Qed.

(** The supply never exceeds the cap, and the cap never changes. *)
Theorem c07_supply_never_exceeds_cap :
  forall k h, 0 <= k -> hist_wf h ->
  let s := run h (init k) in
  cap s = k /\ Erc20.total_supply (erc20 s) <= k.
Proof.
  intros k h Hk Hh s. split; [apply cap_constant|].
  assert (G : forall g, hist_wf g -> Erc20.total_supply (erc20 (run g (init k))) <= k); [|apply G, Hh].
  clear s h Hh. intros h. induction h as [|[c o] h IH] using rev_ind; intros Hh; [exact Hk|].
  apply Forall_app in Hh. destruct Hh as [Hh Hv]. specialize (IH Hh).
  inversion Hv as [|? ? Hv' _]; subst. cbn [snd] in Hv'.
  pose proof (Erc20_api.reachable_inv _ (c07_token_is_an_erc20 k h Hh)) as HI.
  unfold run. rewrite fold_left_app. cbn [fold_left]. fold (run h (init k)).
  set (s := run h (init k)) in *.
  destruct (ex_step_cases s c o) as [->|[(t & Et & _ & Hm & Eok & _ & ->)|[(-> & _ & ->)|(-> & _ & ->)]]]; [exact IH| |exact IH|exact IH].
  cbn [erc20]. unfold Erc20.step, tx; cbn [fst snd].
  destruct (Erc20.exec c t (erc20 s)) as [r s'] eqn:E. cbn [fst] in Eok. subst r. cbn [snd].
  destruct o as [t0 v|sp v|f t0 v|v|a v|a v| |]; inversion Et; subst; cbn in E, Hv'; unfold Erc20.ignore, bind, ret in E.
  - destruct (Erc20.transfer c t0 v (erc20 s)) as [[x|x|] s1] eqn:E1; inversion E; subst.
    destruct (Erc20_api.transfer_spec (erc20 s) c t0 v HI Hv') as (_ & H & H').
    destruct x; [destruct (H s' E1) as (_ & _ & -> & _); exact IH|].
    destruct (H' _ _ E1) as [-> _]; [discriminate|exact IH].
  - destruct (Erc20.approve c sp v (erc20 s)) as [[x|x|] s1] eqn:E1; inversion E; subst.
    destruct (Erc20_api.approve_spec (erc20 s) c sp v) as (_ & H & H').
    destruct x; [destruct (H s' E1) as (_ & -> & _); exact IH|].
    destruct (H' _ _ E1) as [-> _]; [discriminate|exact IH].
  - destruct (Erc20.transfer_from c f t0 v (erc20 s)) as [[x|x|] s1] eqn:E1; inversion E; subst.
    destruct (Erc20_api.transfer_from_spec (erc20 s) c f t0 v HI Hv') as (_ & H & H').
    destruct x; [destruct (H s' E1) as (_ & _ & _ & -> & _); exact IH|].
    destruct (H' _ _ E1) as (_ & -> & _); [discriminate|exact IH].
  - destruct (Erc20_api.burn_spec (erc20 s) c v HI Hv') as (_ & H & _).
    destruct (H s' E) as (_ & _ & -> & _). unfold is_u256 in Hv'. lia.
  - destruct (Erc20_api.burn_from_spec (erc20 s) c a v HI Hv') as (_ & H).
    destruct (H s' E) as (_ & _ & -> & _). unfold is_u256 in Hv'. lia.
  - destruct (Erc20_api.mint_spec (erc20 s) a v HI Hv') as (_ & H & _).
    destruct (H s' E) as (_ & _ & -> & _). specialize (Hm a v eq_refl).
    unfold s in Hm at 2. rewrite cap_constant in Hm. exact Hm.
Qed.
Print Assumptions c07_supply_never_exceeds_cap.

(** Exact behaviour of [mint] with respect to the cap. *)
Theorem c07_mint_exact :
  forall k h a v, hist_wf h -> is_u256 v ->
  let s := run h (init k) in
  (fst (mint a v s) = Ok tt <->
     Pausable.paused (pausable s) = false /\ a <> 0 /\ Erc20.total_supply (erc20 s) + v < two256 /\
     Erc20.total_supply (erc20 s) + v <= cap s) /\
  (Pausable.paused (pausable s) = false -> Erc20.total_supply (erc20 s) + v < two256 ->
     cap s < Erc20.total_supply (erc20 s) + v ->
     mint a v s = (Err (ExceededCap (Erc20.total_supply (erc20 s) + v) (cap s)), s)).
Proof.
  intros k h a v Hh Hv s.
  pose proof (Erc20_api.reachable_inv _ (c07_token_is_an_erc20 k h Hh)) as HI. fold s in HI.
  destruct (Erc20_api.mint_spec (erc20 s) a v HI Hv) as (H & _ & H3).
  unfold mint, when_not_paused, on_pausable, on_erc20, Pausable.when_not_paused. mred.
  clearbody s. destruct s as [t m [b l]]. cbn [pausable Pausable.paused erc20 cap] in *.
  destruct b.
  - split; [split; [discriminate|intros [? _]; discriminate]|intros HH; discriminate HH].
  - cbn. destruct (Erc20.total_supply t + v <? two256) eqn:E1; cbn; [|split; [split; [intros HH; inversion HH|lia]|lia]].
    destruct (m <? Erc20.total_supply t + v) eqn:E2; cbn.
    + split; [split; [intros HH; inversion HH|lia]|]. reflexivity.
    + split; [|lia]. destruct (Erc20._mint a v t) as [[[]|x|] t'] eqn:E; cbn in *.
      * split; [intros _|reflexivity]. destruct H as [H _]. specialize (H eq_refl). lia.
      * split; [intros HH; inversion HH|]. intros (_ & Ha & Hs & _). destruct H as [_ H]. specialize (H (conj Ha Hs)). discriminate.
      * split; [intros HH; inversion HH|]. intros (_ & Ha & Hs & _). destruct H as [_ H]. specialize (H (conj Ha Hs)). discriminate.
Qed.
Print Assumptions c07_mint_exact.

(** While paused, no sequence of calls without a successful unpause changes any balance or
    the supply; allowances change only through approve, so with no approve in the sequence
    the whole token is frozen. *)
Theorem c07_frozen_while_paused :
  forall h s, Pausable.paused (pausable s) = true ->
  Forall (fun co => snd co <> OUnpause) h ->
  let s' := run h s in
  Pausable.paused (pausable s') = true /\ Erc20_spec.same_balances (erc20 s) (erc20 s') /\
  Erc20.total_supply (erc20 s') = Erc20.total_supply (erc20 s) /\
  (Forall (fun co => forall sp v, snd co <> OApprove sp v) h -> s' = s).
Proof.
  induction h as [|[c o] h IH]; intros s Hp Hu.
  - cbn. repeat split; auto. 
  - inversion Hu as [|? ? Hu1 Hu2]; subst. cbn [snd] in Hu1.
    cbn [run fold_left]. fold (run h (step s (c, o))).
    destruct (ex_step_cases s c o) as [->|[(t & Et & Hg & _ & Eok & _ & ->)|[(-> & Hp' & _)|(-> & _)]]]; try congruence.
    + destruct (IH s Hp Hu2) as (H1 & H2 & H3 & H4). repeat split; auto.
      intros Ha. inversion Ha; subst. auto.
    + destruct Hg as [Hg|(sp & v & ->)]; [congruence|]. inversion Et; subst.
      match goal with |- context [run h ?x] => set (s1 := x) end.
      destruct (IH s1 Hp Hu2) as (H1 & H2 & H3 & _).
      assert (HA : Erc20_spec.same_balances (erc20 s) (erc20 s1) /\ Erc20.total_supply (erc20 s1) = Erc20.total_supply (erc20 s)).
      { unfold s1. cbn [erc20]. unfold Erc20.step, tx; cbn [fst snd].
        destruct (Erc20.exec c (Erc20.OApprove sp v) (erc20 s)) as [r s'] eqn:E. cbn [fst] in Eok. subst r. cbn [snd].
        cbn in E. unfold Erc20.ignore, bind, ret in E.
        destruct (Erc20.approve c sp v (erc20 s)) as [[x|x|] s2] eqn:E1; inversion E; subst.
        destruct (Erc20_api.approve_spec (erc20 s) c sp v) as (_ & H & H').
        destruct x; [destruct (H s' E1) as (G1 & G2 & _); auto|].
        destruct (H' _ _ E1) as [-> _]; [discriminate|]. split; [intros a; reflexivity|reflexivity]. }
      destruct HA as [HA1 HA2]. split; [exact H1|]. split; [intros a; rewrite H2; apply HA1|].
      split; [congruence|]. intros Ha. inversion Ha as [|? ? Ha1 _]; subst. cbn in Ha1. exfalso. exact (Ha1 sp v eq_refl).
Qed.
Print Assumptions c07_frozen_while_paused.

Definition ex_demo : list (Z * op) :=
  [(1, OMint 1 80); (1, OMint 1 30); (1, OTransfer 2 10); (1, OMint 2 20); (9, OPause);
   (1, OTransfer 2 5); (1, OApprove 3 7); (1, OBurn 1); (3, OTransferFrom 1 2 1); (9, OMint 3 0)].
Example c07_nonvacuous :
  let s := run ex_demo (init 100) in
  hist_wf ex_demo /\ Erc20.total_supply (erc20 s) = 100 /\ Erc20.balance_of (erc20 s) 1 = 70 /\
  Pausable.paused (pausable s) = true /\ Erc20.allowance (erc20 s) 1 3 = 7 /\
  fst (mint 1 30 (run (firstn 1 ex_demo) (init 100))) = Err (ExceededCap 110 100).
Proof.
  cbv zeta. split; [repeat constructor; cbn; reflexivity || discriminate|].
  vm_compute. repeat split.
Qed.
