(** Histories of a permit token. *)
From Verif.Base Require Import Prelude Maps Bytes.
From Verif.Model Require Erc20 Nonces Ecdsa Eip712 Permit.
From Verif.Spec Require Import Erc20_spec Permit_spec.
From Verif.Proofs Require Import Erc20_inv Erc20_api Erc20_hist.
From Verif.Props Require Import Crypto_props.
From Coq Require Import String List.
Import ListNotations.
#[global] Open Scope Z_scope.

Lemma sum_list_cons x l : sum_list (x :: l) = x + sum_list l.
Proof. reflexivity. Qed.
Lemma sum_map_add {A} (f g : A -> Z) l :
  sum_list (map (fun x => f x + g x) l) = sum_list (map f l) + sum_list (map g l).
Proof. induction l as [|x l IH]; [reflexivity|]. cbn [map]. rewrite !sum_list_cons. lia. Qed.
Lemma sum_map_le {A} (f g : A -> Z) l :
  (forall x, In x l -> f x <= g x) -> sum_list (map f l) <= sum_list (map g l).
Proof.
  induction l as [|x l IH]; intros H; [cbn; lia|]. cbn [map]. rewrite !sum_list_cons.
  pose proof (H x (or_introl eq_refl)). specialize (IH (fun y Hy => H y (or_intror Hy))). lia.
Qed.
Lemma sum_map_ge {A} (f : A -> Z) l x : (forall y, In y l -> 0 <= f y) -> In x l -> f x <= sum_list (map f l).
Proof.
  induction l as [|y l IH]; intros H Hx; [destruct Hx|]. cbn [map]. rewrite sum_list_cons.
  assert (0 <= sum_list (map f l)).
  { clear -H. induction l as [|z l IH]; [cbn; lia|]. cbn [map]. rewrite sum_list_cons.
    pose proof (H z (or_intror (or_introl eq_refl))). assert (0 <= sum_list (map f l)); [|lia].
    apply IH. intros w [->|Hw]; apply H; cbn; auto. }
  destruct Hx as [->|Hx]; [lia|]. pose proof (H y (or_introl eq_refl)).
  pose proof (IH (fun w Hw => H w (or_intror Hw)) Hx). lia.
Qed.
(** A list without repetitions counts each message's grant at most once. *)
Lemma sum_granted_le m L : NoDup L -> 0 <= m_value m ->
  sum_list (map (fun sp => granted sp m) L) <= m_value m.
Proof.
  intros HL Hv. induction HL as [|x L Hx _ IH]; [cbn; lia|]. cbn [map]. rewrite sum_list_cons.
  unfold granted at 1. destruct (Z.eqb_spec (m_spender m) x) as [E|E]; [|lia].
  assert (sum_list (map (fun sp => granted sp m) L) = 0); [|lia].
  clear IH. subst x. induction L as [|y L IH]; [reflexivity|]. cbn [map]. rewrite sum_list_cons, IH; [|intros HH; apply Hx; cbn; auto].
  unfold granted. destruct (Z.eqb_spec (m_spender m) y) as [E|E]; [|lia]. exfalso. apply Hx. cbn. auto.
Qed.

Lemma recover_recovers ec digest v r s o :
  Ecdsa.recover ec digest v r s = Ok o -> recovers ec digest v r s o.
Proof.
  intros H. apply c52_recover_accepts_exactly in H. destruct H as (Hs & _ & _ & Ho & out & E & Hl & Ha).
  split; [|split; [exact Ho|exists out; auto]].
  change 0xFFFFFFFFFFFFFFFFFFFFFFFFFFFFFFFEBAAEDCE6AF48A03BBFD25E8CD0364141 with secp256k1_n.
  pose proof (Z.mul_div_le (secp256k1_n - 1) 2 ltac:(lia)). lia.
Qed.

Section hist.
  Variable keccak : list Z -> Z.
  Variable ecrecover : Ecdsa.precompile.
  Variable dom : Eip712.domain.
  Notation step := (Permit.step keccak ecrecover dom).
  Notation run := (Permit.run keccak ecrecover dom).
  Notation exec := (Permit.exec keccak ecrecover dom).
  Notation nonce st o := (Nonces.nonces (Permit.nonces st) o).
  Notation allowance st := (Erc20.allowance (Permit.erc20 st)).
  Notation balance st := (Erc20.balance_of (Permit.erc20 st)).
  Notation presented := (presented keccak ecrecover dom).
  Notation spent := (spent keccak ecrecover dom).

  Lemma token_step t c x st :
    step st (t, Permit.OToken c x) = Permit.mk (Erc20.step (Permit.erc20 st) (c, x)) (Permit.nonces st) /\
    is_ok (fst (tx (exec t (Permit.OToken c x)) st)) = is_ok (fst (tx (Erc20.exec c x) (Permit.erc20 st))).
  Proof.
    unfold Permit.step, Erc20.step. cbn [fst snd Permit.exec]. unfold tx, Permit.on_erc20. mred.
    destruct (Erc20.exec c x (Permit.erc20 st)) as [[u|e|] e']; destruct st; split; reflexivity.
  Qed.

  Lemma permit_step_cases t ow sp va de v r s st :
    let to := (t, Permit.OPermit ow sp va de v r s) in
    (is_ok (fst (tx (exec t (snd to)) st)) = false /\ step st to = st) \/
    (is_ok (fst (tx (exec t (snd to)) st)) = true /\
     presented [to] ow (Msg sp va (nonce st ow) de) /\
     Permit.erc20 (step st to) = snd (Erc20._approve ow sp va true (Permit.erc20 st)) /\
     allowance (step st to) ow sp = va /\
     other_allowances_same (Permit.erc20 st) (Permit.erc20 (step st to)) ow sp /\
     same_balances (Permit.erc20 st) (Permit.erc20 (step st to)) /\
     nonce (step st to) ow = nonce st ow + 1 /\ nonce st ow < two256 - 1 /\
     (forall a, a <> ow -> nonce (step st to) a = nonce st a)).
  Proof.
    cbv zeta. cbn [snd].
    destruct (c08_permit_exact keccak ecrecover dom st t ow sp va de v r s) as (H1 & H2 & H3).
    unfold Permit.step. cbn [fst snd Permit.exec].
    destruct (tx (Permit.permit keccak ecrecover dom t ow sp va de v r s) st) as [x st'] eqn:E.
    destruct x as [[]|e|]; [right|left|left]; cbn [fst snd is_ok].
    2, 3: split; [reflexivity|]; apply (H3 _ _ eq_refl); discriminate.
    pose proof (proj1 (tx_ok _ _ _ _) E) as Ep.
    destruct (H2 _ Ep) as (A1 & A2 & A3 & _ & _ & A6 & A7).
    rewrite Ep in H1. cbn [fst] in H1. apply proj1 in H1. specialize (H1 eq_refl).
    destruct H1 as (B1 & B2 & _ & _ & B5).
    split; [reflexivity|]. split.
    { exists t, v, r, s. cbn [m_spender m_value m_deadline m_nonce]. split; [left; reflexivity|]. split; [exact B1|].
      apply recover_recovers. exact B5. }
    split.
    { rewrite permit_eq in Ep. destruct (de <? t); [discriminate|]. destruct (_ <? two256); [|discriminate].
      cbv zeta in Ep. destruct (Ecdsa.recover _ _ _ _ _) as [sg| |]; try discriminate.
      destruct (sg =? ow); [|discriminate].
      destruct (Erc20._approve ow sp va true (Permit.erc20 st)) as [[u|e|] e']; try discriminate.
      inversion Ep; subst. reflexivity. }
    repeat split; assumption.
  Qed.

  Definition good (st : Permit.state) : Prop :=
    Inv (Permit.erc20 st) /\ forall a, is_u256 (nonce st a).
  Lemma good_init : good Permit.init.
  Proof.
    split; [apply inv_init|]. intros a. unfold Nonces.nonces, Permit.init, Nonces.init. cbn.
    rewrite mget_empty. split; [lia|reflexivity].
  Qed.
  Lemma allowed_wf t c x : allowed (t, Permit.OToken c x) ->
    Erc20.op_wf x /\ (public_op x \/ exists a v, x = Erc20.OMint a v /\ is_u256 v).
  Proof. unfold allowed. cbn [snd]. destruct x; intros H; try (split; tauto); split; eauto. Qed.
  Lemma good_step st to : good st -> allowed to -> good (step st to).
  Proof.
    intros [HI HN] Ha. destruct to as [t [ow sp va de v r s|c x]].
    - destruct (permit_step_cases t ow sp va de v r s st) as [[_ E]|(_ & _ & E & _ & _ & _ & En & Hn & Eo)].
      + rewrite E. split; assumption.
      + unfold allowed in Ha. cbn [snd] in Ha. split.
        * rewrite E. apply inv_approve; tauto.
        * intros a. destruct (Z.eq_dec a ow) as [->|Hne]; [rewrite En|rewrite Eo by exact Hne; apply HN].
          specialize (HN ow). unfold is_u256 in *. lia.
    - destruct (token_step t c x st) as [-> _]. apply allowed_wf in Ha. split; [|exact HN].
      cbn [Permit.erc20]. apply inv_step; [exact HI|tauto].
  Qed.
  Lemma good_run h st : good st -> Forall allowed h -> good (run h st).
  Proof.
    intros Hg Ha. revert st Hg. induction Ha as [|to h Hto _ IH]; intros st Hg; [exact Hg|].
    cbn [Permit.run fold_left]. apply IH. apply good_step; assumption.
  Qed.
  Lemma state_ok_good st : permit_state_ok keccak ecrecover dom st -> good st.
  Proof. intros (h & Ha & ->). apply good_run; [apply good_init|exact Ha]. Qed.

  (** One call of the token against the allowance. *)
  Lemma tok_allow o sp t c x st :
    good st -> allowed (t, Permit.OToken c x) ->
    let to := (t, Permit.OToken c x) in
    let k := if is_ok (fst (tx (exec t (snd to)) st)) then op_taken o sp (snd to) else 0 in
    allowance st o sp < U256_MAX -> op_approved o sp to < U256_MAX ->
    0 <= k /\ 0 <= op_approved o sp to /\
    allowance (step st to) o sp + k <= allowance st o sp + op_approved o sp to /\
    allowance (step st to) o sp < U256_MAX.
  Proof.
    intros [HI HN] Ha to k Hfin Happ. subst to k. cbn [snd].
    destruct (token_step t c x st) as [-> ->]. cbn [Permit.erc20 op_taken]. set (s := Permit.erc20 st) in *.
    apply allowed_wf in Ha. destruct Ha as [Hwf Hx].
    pose proof (inv_allow s HI o sp) as Hr. unfold is_u256 in Hr.
    destruct Hx as [Hpub|(a & v & -> & Hv)].
    2: { cbn [op_approved snd taken_by]. unfold Erc20.step. cbn [fst snd Erc20.exec].
      destruct (tx_cases (Erc20._mint a v) s) as [(u & s' & E & Et)|[Hf Hs]].
      - rewrite Et. cbn [fst snd is_ok]. destruct u. destruct (mint_spec s a v HI Hv) as (_ & H2 & _).
        destruct (H2 _ E) as (_ & _ & _ & Hal & _). rewrite (Hal o sp). lia.
      - rewrite Hf, Hs. lia. }
    assert (Hcase : (exists sp' v, x = Erc20.OApprove sp' v /\ c = o /\ sp' = sp) \/
      match x with Erc20.OApprove sp' _ => ~ (c = o /\ sp' = sp) | _ => True end).
    { destruct x; auto. destruct (Z.eq_dec c o); [|tauto]. destruct (Z.eq_dec spender sp); [|tauto]. subst. eauto 8. }
    destruct Hcase as [(sp' & v & -> & -> & ->)|Hna].
    - cbn [op_approved snd taken_by] in *. rewrite !Z.eqb_refl in *. cbn [andb] in *.
      unfold Erc20.op_wf in Hwf. cbn [Erc20.op_value] in Hwf. unfold is_u256 in Hwf.
      unfold Erc20.step. cbn [fst snd Erc20.exec].
      destruct (tx_cases (Erc20.ignore (Erc20.approve o sp v)) s) as [(u & s' & E & Et)|[Hf Hs]].
      + rewrite Et. cbn [fst snd is_ok]. destruct u. apply ignore_ok in E. destruct E as [b E].
        pose proof (approve_ret _ _ _ _ _ _ E); subst b.
        destruct (approve_spec s o sp v) as (_ & H2 & _). destruct (H2 _ E) as (_ & _ & Hv & _). rewrite Hv. lia.
      + rewrite Hf, Hs. lia.
    - assert (E0 : op_approved o sp (t, Permit.OToken c x) = 0).
      { unfold op_approved. cbn [snd]. destruct x; try reflexivity.
        destruct ((c =? o) && (spender =? sp)) eqn:E; [|reflexivity]. exfalso. apply Hna. lia. }
      rewrite E0. pose proof (allowance_step_public o sp c x s HI Hwf Hpub Hna) as Hst.
      destruct (Erc20.allowance s o sp =? U256_MAX) eqn:Em; [lia|]. rewrite Hst.
      destruct (is_ok (fst (tx (Erc20.exec c x) s))) eqn:Eok; [|lia].
      destruct (taken_bounds o sp c x s HI Hwf Hpub Eok) as [T1 T2]. lia.
  Qed.

  Lemma presented_cons to h o m : presented h o m -> presented (to :: h) o m.
  Proof. intros (t & v & r & s & Hin & H). exists t, v, r, s. split; [right; exact Hin|exact H]. Qed.
  Lemma presented_hd to h o m : presented [to] o m -> presented (to :: h) o m.
  Proof. intros (t & v & r & s & [Hin|[]] & H). exists t, v, r, s. split; [left; exact Hin|exact H]. Qed.

  Lemma nonces_from_cons n m U : m_nonce m = n -> nonces_from (n + 1) U -> nonces_from n (m :: U).
  Proof.
    unfold nonces_from. intros E H. cbn [map length seq]. rewrite H, <- seq_shift, map_map, E. f_equal; [lia|].
    apply map_ext. intros i. lia.
  Qed.

  Lemma hist_main h : forall st o,
    good st -> Forall allowed h ->
    exists U,
      nonces_from (nonce st o) U /\
      nonce (run h st) o = nonce st o + Z.of_nat (length U) /\
      Forall (fun m => presented h o m /\ is_u256 (m_value m)) U /\
      forall sp, finite_grants o sp h st U ->
        0 <= spent o sp h st /\
        spent o sp h st + allowance (run h st) o sp <=
          allowance st o sp + approved_by_calls o sp h + approved_by_messages sp U.
  Proof.
    induction h as [|to h IH]; intros st o Hg Ha.
    { exists []. split; [reflexivity|]. split; [cbn; lia|]. split; [constructor|]. intros sp _.
      unfold approved_by_calls, approved_by_messages. cbn. lia. }
    inversion Ha as [|? ? Hto Ha']; subst.
    destruct (IH (step st to) o (good_step _ _ Hg Hto) Ha') as (U & U1 & U2 & U3 & U4).
    assert (Hkeep : forall (P : message -> Prop), Forall (fun m => presented h o m /\ is_u256 (m_value m)) U ->
      Forall (fun m => presented (to :: h) o m /\ is_u256 (m_value m)) U).
    { intros _ F. eapply Forall_impl; [|exact F]. intros m [Hp Hv]. split; [apply presented_cons; exact Hp|exact Hv]. }
    cbn [Permit.run fold_left]. fold (run h (step st to)).
    assert (Hfin : forall sp U', (forall m, In m U -> In m U') -> finite_grants o sp (to :: h) st U' ->
       allowance (step st to) o sp < U256_MAX -> finite_grants o sp h (step st to) U).
    { intros sp U' Hi (_ & F2 & F3) F1. split; [exact F1|]. split; [intros x Hx; apply F2; right; exact Hx|].
      intros m Hm. apply F3. auto. }
    destruct to as [t [ow sp0 va de v r s|c x]].
    - destruct (permit_step_cases t ow sp0 va de v r s st) as [[Hf E]|(Hok & Hp & _ & Hal & Hoa & _ & En & Hn & Eo)].
      + exists U. rewrite E in *. split; [exact U1|]. split; [exact U2|]. split; [apply (Hkeep (fun _ => True)), U3|].
        intros sp HF. cbn [Permit_spec.spent fst snd]. cbn [snd] in Hf. rewrite Hf. rewrite E.
        assert (HF' : finite_grants o sp h st U) by (apply (Hfin sp U); auto; apply HF).
        specialize (U4 sp HF'). unfold approved_by_calls in *. cbn [map]. rewrite sum_list_cons. cbn [op_approved snd]. lia.
      + unfold allowed in Hto. cbn [snd] in Hto.
        destruct (Z.eq_dec ow o) as [->|Hne].
        * exists (Msg sp0 va (nonce st o) de :: U). rewrite En in U1, U2.
          split; [apply nonces_from_cons; [reflexivity|exact U1]|].
          split; [rewrite U2; cbn [length]; lia|].
          split; [constructor; [split; [apply presented_hd; exact Hp|cbn; tauto]|apply (Hkeep (fun _ => True)), U3]|].
          intros sp HF. cbn [Permit_spec.spent fst snd op_taken].
          assert (Hgr : granted sp (Msg sp0 va (nonce st o) de) < U256_MAX) by (apply HF; left; reflexivity).
          assert (Hle : allowance (step st (t, Permit.OPermit o sp0 va de v r s)) o sp <=
            allowance st o sp + granted sp (Msg sp0 va (nonce st o) de) /\
            allowance (step st (t, Permit.OPermit o sp0 va de v r s)) o sp < U256_MAX).
          { destruct Hg as [HI _]. pose proof (inv_allow _ HI o sp) as Hr. unfold is_u256 in Hr.
            unfold granted in *. cbn [m_spender m_value] in *. destruct (Z.eqb_spec sp0 sp) as [->|Hs].
            - rewrite Hal. lia.
            - rewrite (Hoa o sp) by congruence. destruct HF as (F1 & _). lia. }
          assert (HF' : finite_grants o sp h (step st (t, Permit.OPermit o sp0 va de v r s)) U).
          { apply (Hfin sp (Msg sp0 va (nonce st o) de :: U)); [intros m Hm; right; exact Hm|exact HF|apply Hle]. }
          specialize (U4 sp HF'). unfold approved_by_calls, approved_by_messages in *. cbn [map]. rewrite !sum_list_cons.
          cbn [op_approved snd]. destruct (is_ok _); lia.
        * exists U. rewrite Eo in U1, U2 by auto. split; [exact U1|]. split; [exact U2|].
          split; [apply (Hkeep (fun _ => True)), U3|].
          intros sp HF. cbn [Permit_spec.spent fst snd op_taken].
          assert (Heq : allowance (step st (t, Permit.OPermit ow sp0 va de v r s)) o sp = allowance st o sp)
            by (apply Hoa; congruence).
          assert (HF' : finite_grants o sp h (step st (t, Permit.OPermit ow sp0 va de v r s)) U).
          { apply (Hfin sp U); auto. rewrite Heq. apply HF. }
          specialize (U4 sp HF'). unfold approved_by_calls in *. cbn [map]. rewrite sum_list_cons.
          cbn [op_approved snd]. destruct (is_ok _); lia.
    - exists U. destruct (token_step t c x st) as [Es _].
      assert (En : nonce (step st (t, Permit.OToken c x)) o = nonce st o) by (rewrite Es; reflexivity).
      rewrite En in U1, U2. split; [exact U1|]. split; [exact U2|]. split; [apply (Hkeep (fun _ => True)), U3|].
      intros sp HF. pose proof HF as (F1 & F2 & _). specialize (F2 _ (or_introl eq_refl)).
      destruct (tok_allow o sp t c x st Hg Hto F1 F2) as (K1 & K2 & K3 & K4). cbv zeta in *. cbn [snd] in *.
      assert (HF' : finite_grants o sp h (step st (t, Permit.OToken c x)) U) by (apply (Hfin sp U); auto).
      specialize (U4 sp HF'). cbn [Permit_spec.spent fst snd]. unfold approved_by_calls in *. cbn [map]. rewrite sum_list_cons. lia.
  Qed.

  (** What a call debits an account which did not make it. *)
  Lemma tok_debit o t c x st :
    good st -> allowed (t, Permit.OToken c x) -> o <> 0 -> c <> o ->
    let to := (t, Permit.OToken c x) in
    balance st o - balance (step st to) o <=
      (if is_ok (fst (tx (exec t (snd to)) st)) then op_taken o c (snd to) else 0).
  Proof.
    intros [HI HN] Ha Ho Hc. cbv zeta. cbn [snd]. destruct (token_step t c x st) as [-> ->]. cbn [Permit.erc20 op_taken].
    set (s := Permit.erc20 st) in *. apply allowed_wf in Ha. destruct Ha as [Hwf Hx].
    assert (H0 : 0 <= (if is_ok (fst (tx (Erc20.exec c x) s)) then taken_by o c c x else 0)).
    { unfold Erc20.op_wf, is_u256 in Hwf. destruct (is_ok _); [|lia]. destruct x; cbn [taken_by Erc20.op_value] in *; try lia; destruct (_ && _); lia. }
    destruct Hx as [Hpub|(a & v & -> & Hv)].
    2: { unfold Erc20.step. cbn [fst snd Erc20.exec] in *.
      destruct (tx_cases (Erc20._mint a v) s) as [(u & s' & E & Et)|[Hf Hs]].
      - rewrite Et in *. cbn [fst snd is_ok] in *. destruct u. apply mint_as_update in E.
        destruct (update_ok _ _ _ _ _ HI Hv E) as (Hb & _). rewrite (Hb o Ho).
        unfold delta, is_u256 in *. destruct (Z.eqb_spec o 0); [lia|]. destruct (o =? a); lia.
      - rewrite Hs. lia. }
    destruct (Z_lt_le_dec (Erc20.balance_of (Erc20.step s (c, x)) o) (Erc20.balance_of s o)) as [Hlt|]; [|lia].
    pose proof (debit_authorised o c x s HI Hwf Hpub Ho Hlt) as Hd. cbv zeta in Hd.
    assert (Hok : is_ok (fst (tx (Erc20.exec c x) s)) = true).
    { destruct (tx_cases (Erc20.exec c x) s) as [(u & s' & E & Et)|[Hf Hs]]; [rewrite Et; reflexivity|].
      unfold Erc20.step in Hlt. cbn [fst snd] in Hlt. rewrite Hs in Hlt. lia. }
    rewrite Hok. destruct Hd as [[[? _]|[? _]]|[[[to E]|E] _]]; try congruence.
    - rewrite E at 2. cbn [taken_by]. rewrite !Z.eqb_refl. cbn [andb]. lia.
    - rewrite E at 2. cbn [taken_by]. rewrite !Z.eqb_refl. cbn [andb]. lia.
  Qed.

  Lemma op_taken_nonneg o sp to : allowed to -> 0 <= op_taken o sp (snd to).
  Proof.
    destruct to as [t [?|c x]]; intros Ha; cbn [snd op_taken]; [lia|].
    apply allowed_wf in Ha. destruct Ha as [Hwf _]. unfold Erc20.op_wf, is_u256 in Hwf.
    destruct x; cbn [taken_by Erc20.op_value] in *; try lia; destruct (_ && _); lia.
  Qed.

  Lemma hist_debit h : forall st o L,
    good st -> Forall allowed h -> o <> 0 -> passive o h ->
    (forall t c x, In (t, Permit.OToken c x) h -> In c L) ->
    balance st o - balance (run h st) o <= sum_list (map (fun sp => spent o sp h st) L).
  Proof.
    induction h as [|to h IH]; intros st o L Hg Ha Ho Hp HL.
    { cbn [Permit.run fold_left Permit_spec.spent]. clear. induction L as [|x L IH]; cbn [map]; [cbn; lia|]. rewrite sum_list_cons. lia. }
    inversion Ha as [|? ? Hto Ha']; subst.
    cbn [Permit.run fold_left]. fold (run h (step st to)). cbn [Permit_spec.spent].
    rewrite (sum_map_add (fun sp => if is_ok (fst (tx (exec (fst to) (snd to)) st)) then op_taken o sp (snd to) else 0)).
    assert (IH' := IH (step st to) o L (good_step _ _ Hg Hto) Ha' Ho
      (fun t c x Hin => Hp t c x (or_intror Hin)) (fun t c x Hin => HL t c x (or_intror Hin))).
    assert (Hnn : forall sp, In sp L -> 0 <= (if is_ok (fst (tx (exec (fst to) (snd to)) st)) then op_taken o sp (snd to) else 0)).
    { intros sp _. destruct (is_ok _); [apply op_taken_nonneg; exact Hto|lia]. }
    destruct to as [t [ow sp0 va de v r s|c x]].
    - assert (Hb : balance (step st (t, Permit.OPermit ow sp0 va de v r s)) o = balance st o).
      { destruct (permit_step_cases t ow sp0 va de v r s st) as [[_ E]|(_ & _ & _ & _ & _ & Hb & _)]; [rewrite E; reflexivity|apply Hb]. }
      rewrite Hb in IH'.
      assert (0 <= sum_list (map (fun sp => if is_ok (fst (tx (exec (fst (t, Permit.OPermit ow sp0 va de v r s)) (snd (t, Permit.OPermit ow sp0 va de v r s))) st)) then op_taken o sp (snd (t, Permit.OPermit ow sp0 va de v r s)) else 0) L)).
      { clear -Hnn. induction L as [|x L IHL]; [cbn; lia|]. cbn [map]. rewrite sum_list_cons.
        pose proof (Hnn x (or_introl eq_refl)). specialize (IHL (fun y Hy => Hnn y (or_intror Hy))). lia. }
      lia.
    - pose proof (tok_debit o t c x st Hg Hto Ho (Hp t c x (or_introl eq_refl))) as Hd. cbv zeta in Hd.
      pose proof (sum_map_ge _ L c Hnn (HL t c x (or_introl eq_refl))) as Hs. cbv beta in Hs.
      cbn [fst snd] in *. lia.
  Qed.
End hist.
