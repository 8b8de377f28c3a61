(** C83: what the holders of a permit token can lose. *)
From Verif.Base Require Import Prelude Maps Bytes Keccak.
From Verif.Model Require Erc20 Nonces Ecdsa Eip712 Permit.
From Verif.Spec Require Import Erc20_spec Permit_spec.
From Verif.Proofs Require Import Permit_hist.
From Verif.Props Require Import Crypto_props.
From Coq Require Import String List.
Import ListNotations.
#[global] Open Scope Z_scope.

Section c83.
  Variable keccak : list Z -> Z.
  Variable ecrecover : Ecdsa.precompile.
  Variable dom : Eip712.domain.
  Notation run := (Permit.run keccak ecrecover dom).
  Notation nonce st o := (Nonces.nonces (Permit.nonces st) o).
  Notation allowance st := (Erc20.allowance (Permit.erc20 st)).
  Notation balance st := (Erc20.balance_of (Permit.erc20 st)).
  Notation presented := (presented keccak ecrecover dom).
  Notation spent := (spent keccak ecrecover dom).
  Notation reachable := (permit_state_ok keccak ecrecover dom).

  (** Over any history, every nonce of [o] that was used up was used by one message, presented
      in time and with a signature of [o]; and what any spender took, plus what it may still
      take, is covered by the allowance it had, the approvals [o] called and those messages,
      each counted once. *)
  Theorem c83_spending_covered :
    forall h st o, reachable st -> Forall allowed h ->
    exists U,
      nonces_from (nonce st o) U /\
      nonce (run h st) o = nonce st o + Z.of_nat (length U) /\
      Forall (presented h o) U /\
      forall sp, finite_grants o sp h st U ->
        0 <= spent o sp h st /\
        spent o sp h st + allowance (run h st) o sp <=
          allowance st o sp + approved_by_calls o sp h + approved_by_messages sp U.
  Proof.
    intros h st o Hr Ha. apply state_ok_good in Hr.
    destruct (hist_main keccak ecrecover dom h st o Hr Ha) as (U & U1 & U2 & U3 & U4).
    exists U. split; [exact U1|]. split; [exact U2|]. split; [|exact U4].
    eapply Forall_impl; [|exact U3]. intros m [Hp _]. exact Hp.
  Qed.

  (** An account that makes no calls loses at most the allowances it had given to those who
      call the token, and the values of the messages it signed. *)
  Theorem c83_passive_loss :
    forall h st o, reachable st -> Forall allowed h -> o <> 0 -> passive o h ->
    exists U,
      nonces_from (nonce st o) U /\
      nonce (run h st) o = nonce st o + Z.of_nat (length U) /\
      Forall (presented h o) U /\
      ((forall sp, In sp (callers h) -> finite_grants o sp h st U) ->
       balance st o - balance (run h st) o <=
         sum_list (map (allowance st o) (callers h)) + sum_list (map m_value U)).
  Proof.
    intros h st o Hr Ha Ho Hp. apply state_ok_good in Hr.
    destruct (hist_main keccak ecrecover dom h st o Hr Ha) as (U & U1 & U2 & U3 & U4).
    exists U. split; [exact U1|]. split; [exact U2|].
    split; [eapply Forall_impl; [|exact U3]; intros m [Hm _]; exact Hm|].
    intros HF.
    assert (Hc : forall t c x, In (t, Permit.OToken c x) h -> In c (callers h)).
    { intros t c x Hin. apply nodup_In, in_flat_map. exists (t, Permit.OToken c x). split; [exact Hin|left; reflexivity]. }
    pose proof (hist_debit keccak ecrecover dom h st o (callers h) Hr Ha Ho Hp Hc) as Hd.
    assert (H1 : sum_list (map (fun sp => spent o sp h st) (callers h)) <=
      sum_list (map (fun sp => allowance st o sp + approved_by_messages sp U) (callers h))).
    { apply sum_map_le. intros sp Hsp. destruct (U4 sp (HF sp Hsp)) as [_ Hb].
      assert (E0 : approved_by_calls o sp h = 0).
      { unfold approved_by_calls. clear -Hp. induction h as [|[t [?|c x]] h IH]; [reflexivity| |];
          cbn [map]; rewrite sum_list_cons, IH by (intros t' c' x' Hin; apply (Hp t' c' x'); right; exact Hin);
          [reflexivity|].
        unfold op_approved. cbn [snd]. destruct x; try reflexivity.
        destruct (Z.eqb_spec c o) as [->|]; [|reflexivity]. exfalso. apply (Hp t o _ (or_introl eq_refl) eq_refl). }
      assert (0 <= allowance (run h st) o sp).
      { destruct (good_run keccak ecrecover dom h st Hr Ha) as [HI _]. apply (Erc20_inv.inv_allow _ HI). }
      lia. }
    rewrite (sum_map_add (allowance st o)) in H1.
    assert (H2 : sum_list (map (fun sp => approved_by_messages sp U) (callers h)) <= sum_list (map m_value U)).
    { assert (HN : NoDup (callers h)) by apply NoDup_nodup. revert HN. generalize (callers h). intros L HN.
      clear -U3 HN. induction U3 as [|m U [_ Hm] _ IH].
      - unfold approved_by_messages. cbn. clear. induction L as [|x L IH]; [cbn; lia|]. cbn [map]. rewrite sum_list_cons. lia.
      - unfold approved_by_messages in *. cbn [map]. rewrite sum_list_cons.
        assert (E : map (fun sp => sum_list (granted sp m :: map (granted sp) U)) L =
          map (fun sp => granted sp m + sum_list (map (granted sp) U)) L) by (apply map_ext; reflexivity).
        rewrite E, (sum_map_add (fun sp => granted sp m)).
        assert (0 <= m_value m) by (unfold is_u256 in Hm; lia).
        pose proof (sum_granted_le m L HN ltac:(assumption)). lia. }
    lia.
  Qed.

  (** In particular: who gave no allowance, makes no calls and whose signature is on no
      presented message never loses a token. *)
  Theorem c83_untouched :
    forall h st o, reachable st -> Forall allowed h -> o <> 0 -> passive o h ->
    (forall sp, allowance st o sp = 0) ->
    (forall m, ~ presented h o m) ->
    balance st o <= balance (run h st) o /\ nonce (run h st) o = nonce st o.
  Proof.
    intros h st o Hr Ha Ho Hp Hz Hn.
    destruct (c83_passive_loss h st o Hr Ha Ho Hp) as (U & _ & U2 & U3 & U4).
    assert (U = []) as ->.
    { destruct U as [|m U]; [reflexivity|]. inversion U3; subst. exfalso. eapply Hn; eassumption. }
    cbn [length map] in *. split; [|lia].
    assert (HF : forall sp, In sp (callers h) -> finite_grants o sp h st []).
    { intros sp _. split; [rewrite Hz; reflexivity|]. split; [|intros m []].
      intros [t x] Hin. unfold op_approved. cbn [snd]. destruct x as [?|c x]; [reflexivity|].
      destruct x; try reflexivity. destruct (Z.eqb_spec c o) as [->|]; [|reflexivity].
      exfalso. apply (Hp t o _ Hin eq_refl). }
    specialize (U4 HF).
    assert (E : sum_list (map (allowance st o) (callers h)) = 0).
    { generalize (callers h). intros L. induction L as [|x L IH]; [reflexivity|]. cbn [map]. rewrite sum_list_cons, Hz. lia. }
    rewrite E in U4. cbn in U4. lia.
  Qed.

  (** If [o] only ever signed the requests [S] - of whatever domains and struct types - then a
      message presented with its signature is one of them, as it stands and for this domain;
      or two of the strings hashed for it and for [S] collide. *)
  Theorem c83_presented_was_signed :
    forall h o S m, hash_range keccak -> domain_wf dom -> Forall (fun q => domain_wf (fst q)) S ->
    presented h o m ->
    (forall m', presented h o m' -> exists q, In q S /\ permit_request keccak dom o m' = signing_digest keccak q) ->
    In (dom, permit_string keccak o m) S \/
    collides keccak (signing_inputs keccak (dom, permit_string keccak o m) ++ flat_map (signing_inputs keccak) S).
  Proof.
    intros h o S m Hk Hd HS Hm Hsig. destruct (Hsig m Hm) as ([d b] & Hq & E).
    assert (Hin : forall x, In x (signing_inputs keccak (d, b)) -> In x (flat_map (signing_inputs keccak) S)).
    { intros x Hx. apply in_flat_map. exists (d, b). auto. }
    rewrite Forall_forall in HS. specialize (HS _ Hq). cbn [fst] in HS.
    destruct (c53_digest_unambiguous keccak dom (keccak (permit_string keccak o m)) d (keccak b) Hk Hd HS (Hk _) (Hk _) E)
      as [[-> Eb]|(x & y & Hx & Hy & Hxy)].
    - destruct (list_eq_dec Z.eq_dec (permit_string keccak o m) b) as [->|Hne]; [left; exact Hq|right].
      exists (permit_string keccak o m), b. split; [left; reflexivity|]. split; [|auto].
      apply in_or_app. right. apply Hin. left. reflexivity.
    - right. exists x, y.
      assert (K : forall z, In z (request_inputs keccak dom (keccak (permit_string keccak o m)) ++ request_inputs keccak d (keccak b)) ->
        In z (signing_inputs keccak (dom, permit_string keccak o m) ++ flat_map (signing_inputs keccak) S)).
      { intros z Hz. apply in_app_or in Hz. apply in_or_app. destruct Hz as [Hz|Hz]; [left; right; exact Hz|right].
        apply Hin. right. exact Hz. }
      auto.
  Qed.

  (** Different messages have different strings. *)
  Definition message_wf (m : message) : Prop :=
    is_u256 (m_spender m) /\ is_u256 (m_value m) /\ is_u256 (m_nonce m) /\ is_u256 (m_deadline m).
  Theorem c83_messages_distinct :
    forall o o' m m', is_u256 o -> is_u256 o' -> message_wf m -> message_wf m' ->
    permit_string keccak o m = permit_string keccak o' m' -> o = o' /\ m = m'.
  Proof.
    intros o o' [a b c d] [a' b' c' d'] Ho Ho'. unfold message_wf, permit_string. cbn [m_spender m_value m_nonce m_deadline].
    intros (?&?&?&?) (?&?&?&?).
    intros E.
    apply app_eq_len in E; [|rewrite !word_length; reflexivity]. destruct E as [_ E].
    apply app_eq_len in E; [|rewrite !word_length; reflexivity]. destruct E as [E1 E].
    apply app_eq_len in E; [|rewrite !word_length; reflexivity]. destruct E as [E2 E].
    apply app_eq_len in E; [|rewrite !word_length; reflexivity]. destruct E as [E3 E].
    apply app_eq_len in E; [|rewrite !word_length; reflexivity]. destruct E as [E4 E5].
    apply word_inj in E1, E2, E3, E4, E5; auto. subst. auto.
  Qed.
End c83.
Print Assumptions c83_spending_covered.
Print Assumptions c83_passive_loss.
Print Assumptions c83_untouched.
Print Assumptions c83_presented_was_signed.
Print Assumptions c83_messages_distinct.

(** A collision somewhere is no excuse: every function into words collides on some list of
    strings, so the strings are named. Here a run in which all bounds are met with equality:
    owner 7 holds 1000, approved 30 to spender 8 by a call and signed 500 for it; spender 8
    takes everything. *)
Definition demo_history : list (Z * Permit.op) :=
  [(1, Permit.OToken 1 (Erc20.OMint 7 1000));
   (2, Permit.OToken 7 (Erc20.OApprove 8 30));
   (3, Permit.OToken 8 (Erc20.OTransferFrom 7 8 30));
   (1000, Permit.OPermit 7 8 500 1000 27 1 2);
   (1000, Permit.OPermit 7 8 500 1000 27 1 2);
   (1001, Permit.OToken 8 (Erc20.OTransferFrom 7 9 200));
   (1001, Permit.OToken 8 (Erc20.OBurnFrom 7 300));
   (1002, Permit.OToken 8 (Erc20.OTransferFrom 7 9 1))].
Example c83_nonvacuous :
  let run := Permit.run toy_hash demo_ecrecover demo_domain in
  let U := [Msg 8 500 0 1000] in
  Forall allowed demo_history /\
  nonces_from 0 U /\ Forall (presented toy_hash demo_ecrecover demo_domain demo_history 7) U /\
  finite_grants 7 8 demo_history Permit.init U /\
  spent toy_hash demo_ecrecover demo_domain 7 8 demo_history Permit.init = 530 /\
  approved_by_calls 7 8 demo_history = 30 /\ approved_by_messages 8 U = 500 /\
  Erc20.allowance (Permit.erc20 (run demo_history Permit.init)) 7 8 = 0 /\
  Erc20.balance_of (Permit.erc20 (run demo_history Permit.init)) 7 = 470 /\
  Nonces.nonces (Permit.nonces (run demo_history Permit.init)) 7 = 1.
Proof.
  cbv zeta. split.
  { repeat constructor; vm_compute; congruence. }
  split; [reflexivity|]. split.
  { constructor; [|constructor]. exists 1000, 27, 1, 2. split; [cbn; auto 8|]. split; [reflexivity|].
    split; [vm_compute; discriminate|]. split; [discriminate|]. exists (word 7). repeat split; vm_compute; reflexivity. }
  split.
  { split; [reflexivity|]. split; [|intros m [<-|[]]; reflexivity].
    intros to Hin. repeat (destruct Hin as [<-|Hin]; [reflexivity|]). destruct Hin. }
  repeat split; vm_compute; reflexivity.
Qed.
(** The same for a passive owner, who loses exactly what its signature grants. *)
Example c83_passive_nonvacuous :
  let h := skipn 3 demo_history in
  let st := Permit.run toy_hash demo_ecrecover demo_domain (firstn 3 demo_history) Permit.init in
  permit_state_ok toy_hash demo_ecrecover demo_domain st /\ passive 7 h /\ callers h = [8] /\
  Erc20.balance_of (Permit.erc20 st) 7 -
  Erc20.balance_of (Permit.erc20 (Permit.run toy_hash demo_ecrecover demo_domain h st)) 7 = 500.
Proof.
  cbv zeta. split; [exists (firstn 3 demo_history); split; [repeat constructor; vm_compute; congruence|reflexivity]|].
  split; [|split; vm_compute; reflexivity].
  intros t c x Hin. cbn in Hin.
  repeat (destruct Hin as [Hin|Hin]; [inversion Hin; subst; discriminate|]). destruct Hin.
Qed.
