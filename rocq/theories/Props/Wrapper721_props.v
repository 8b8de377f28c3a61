(** C42: the ERC-721 wrapper is backed one-to-one. *)
From Verif.Base Require Import Prelude Maps.
From Verif.Model Require Erc721 Wrapper721.
From Verif.Spec Require Import Wrapper721_spec.
From Verif.Proofs Require Import Erc721_lemmas Wrapper721_lemmas.
From stdpp Require Import gmap.
Import Wrapper721.
Import Erc721 (reply, Returned, Failed, RECEIVER_FN_SELECTOR, _owner_of, _get_approved, is_approved_for_all, _is_authorized).
#[global] Open Scope Z_scope.

Lemma p_init me K L : me <> 0 -> (forall i, ~ K i) -> (forall i o, ~ L i o) -> P me K L init.
Proof.
  intros Hm HK HL. split; cbn [under wrapped init].
  - apply inv_init.
  - apply inv_init.
  - intros i H. exfalso. apply H. unfold _owner_of; cbn. apply mget_empty.
  - intros i H. unfold _get_approved; cbn. apply mget_empty.
  - intros p. unfold is_approved_for_all; cbn. apply getd_empty.
  - intros i H. exfalso. eapply HK; eauto.
  - intros i o H. exfalso. eapply HL; eauto.
Qed.
Lemma nodes_mono (G G' : Z -> op -> Prop) :
  (forall c o, G c o -> G' c o) ->
  (forall o c, w_op_nodes G c o -> w_op_nodes G' c o) /\
  (forall cs, w_calls_nodes G cs -> w_calls_nodes G' cs) /\
  (forall l, w_rounds_nodes G l -> w_rounds_nodes G' l).
Proof.
  intros HG. apply w_op_calls_ind; intros; cbn [w_op_nodes w_calls_nodes w_rounds_nodes] in *; intuition.
Qed.
Lemma nodes_and (G G' : Z -> op -> Prop) h :
  w_nodes G h -> w_nodes G' h -> w_nodes (fun c o => G c o /\ G' c o) h.
Proof.
  unfold w_nodes. generalize (of_list h). clear h.
  cut ((forall o c, w_op_nodes G c o -> w_op_nodes G' c o -> w_op_nodes (fun c o => G c o /\ G' c o) c o) /\
  (forall cs, w_calls_nodes G cs -> w_calls_nodes G' cs -> w_calls_nodes (fun c o => G c o /\ G' c o) cs) /\
  (forall l, w_rounds_nodes G l -> w_rounds_nodes G' l -> w_rounds_nodes (fun c o => G c o /\ G' c o) l)).
  { intros (_ & H & _). exact H. }
  apply w_op_calls_ind; intros; cbn [w_op_nodes w_calls_nodes w_rounds_nodes] in *; intuition.
Qed.
Lemma nodes_imp (G G' : Z -> op -> Prop) h : (forall c o, G c o -> G' c o) -> w_nodes G h -> w_nodes G' h.
Proof. intros HG. apply (nodes_mono G G' HG). Qed.

Definition never {A} (_ : A) : Prop := False.
Lemma reachable_P me tok s : me <> 0 -> tok <> me -> w_reachable me tok s -> P me never (fun _ _ => False) s.
Proof.
  intros Hm Ht (hc & h & Hn & ->). eapply run_P721; auto.
  - eapply nodes_imp; [|exact Hn]. intros c o H. split; [exact H|]. split; intros; auto.
  - apply p_init; auto.
Qed.

(** In every reachable state, a wrapped token's underlying is held by the wrapper. *)
Theorem c42_backed me tok s i :
  me <> 0 -> tok <> me -> w_reachable me tok s ->
  exists_token (wrapped s) i -> owner (under s) i me.
Proof.
  intros Hm Ht HR He. apply reachable_P in HR; auto. apply exists_iff in He. apply owner_iff.
  split; [exact Hm|]. apply (p_backed _ _ _ _ HR). exact He.
Qed.
Print Assumptions c42_backed.

(** A token the wrapper holds stays there until a withdrawal names it. *)
Theorem c42_custody has_code me tok s i h :
  me <> 0 -> tok <> me -> w_reachable me tok s -> owner (under s) i me ->
  w_nodes (fun c o => w_node_wf me tok c o /\ ~ withdraws i o) h ->
  owner (under (run has_code me tok h s)) i me.
Proof.
  intros Hm Ht HR Ho Hn. apply reachable_P in HR; auto. apply owner_iff in Ho. destruct Ho as [_ Ho].
  assert (HP : P me (fun j => j = i) (fun _ _ => False) s).
  { destruct HR. split; auto; try (intros; contradiction); intros j ->; exact Ho. }
  eapply run_P721 in HP; [|exact Hm|exact Ht|].
  - apply owner_iff. split; [exact Hm|]. apply (p_K _ _ _ _ HP). reflexivity.
  - eapply nodes_imp; [|exact Hn]. intros c o [H1 H2]. split; [exact H1|]. split; [|auto].
    intros j Hj ->. contradiction.
Qed.
Print Assumptions c42_custody.

(** A holder who has given rights to nobody and does nothing keeps the wrapped token,
    whatever everybody else does to either contract, and the wrapper keeps the underlying
    one. *)
Theorem c42_passive_holder has_code me tok s i o h :
  me <> 0 -> tok <> me -> w_reachable me tok s -> unshared (wrapped s) i o ->
  w_nodes (fun c o' => w_node_wf me tok c o' /\ c <> o) h ->
  let s' := run has_code me tok h s in
  unshared (wrapped s') i o /\ owner (under s') i me.
Proof.
  intros Hm Ht HR (Ho & Ha & Hop) Hn s'. apply reachable_P in HR; auto. apply owner_iff in Ho. destruct Ho as [Hz Ho].
  apply approved_iff in Ha. destruct Ha as [_ Ha].
  assert (HP : P me never (fun j p => j = i /\ p = o) s).
  { destruct HR. split; auto. intros j p [-> ->].
    split; [exact Hz|]. split; [exact Ho|]. split; [exact Ha|]. intros q. specialize (Hop q). unfold operator in Hop.
    destruct (is_approved_for_all o q (wrapped s)); congruence. }
  apply (run_P721 has_code me tok Hm Ht _ _ h) in HP.
  - fold s' in HP. destruct (p_L _ _ _ _ HP i o) as (A & B & C & D); [auto|]. split.
    + split; [apply owner_iff; auto|]. split; [apply approved_iff; split; congruence|].
      intros p. unfold operator. rewrite D. discriminate.
    + apply owner_iff. split; [exact Hm|]. apply (p_backed _ _ _ _ HP). congruence.
  - eapply nodes_imp; [|exact Hn]. intros c o' [H1 H2]. split; [exact H1|]. split; [intros; intros []|].
    intros j p [-> ->]. exact H2.
Qed.
Print Assumptions c42_passive_holder.

(** A batch is its rounds one after the other. *)
Theorem c42_rounds has_code me tok c a i b fin l s :
  exec has_code me tok c (WDepositFor a (RCons i b fin l)) s =
    (exec has_code me tok c (WDepositFor a (RCons i b fin RNil)) ;;; exec has_code me tok c (WDepositFor a l)) s /\
  exec has_code me tok c (WWithdrawTo a (RCons i b fin l)) s =
    (exec has_code me tok c (WWithdrawTo a (RCons i b fin RNil)) ;;; exec has_code me tok c (WWithdrawTo a l)) s.
Proof.
  split; cbn [exec run_rounds]; unfold bind; match goal with |- context [match ?m s with _ => _ end] => destruct (m s) as [[]] end; reflexivity.
Qed.
Print Assumptions c42_rounds.

(** A successful withdrawal: its sender was entitled to move the wrapped token.  When the
    recipient is called, and at the end unless it acts, the wrapped token is gone and the
    underlying one belongs to the recipient; no other token has changed hands. *)
Theorem c42_withdraw has_code me tok s c a i b fin s' :
  me <> 0 -> tok <> me -> w_reachable me tok s -> c <> 0 -> a <> me ->
  exec has_code me tok c (WWithdrawTo a (RCons i b fin RNil)) s = (Ok tt, s') ->
  exists o s1,
    owner (wrapped s) i o /\ may_move (wrapped s) i o c /\ owner (under s) i me /\
    a <> 0 /\ ~ exists_token (wrapped s1) i /\ owner (under s1) i a /\
    (forall j x, j <> i -> (owner (wrapped s1) j x <-> owner (wrapped s) j x)) /\
    (forall j x, j <> i -> (owner (under s1) j x <-> owner (under s) j x)) /\
    s' = (if has_code a then run_calls has_code me tok b s1 else s1) /\
    (has_code a = true -> fin = Returned RECEIVER_FN_SELECTOR).
Proof.
  intros Hm Ht HR Hc Ham H. apply reachable_P in HR; auto. cbn [exec run_rounds] in H.
  apply bind_ok in H. destruct H as ([] & s2 & H & H0). inversion H0; subst s2. clear H0.
  apply bind_ok in H. destruct H as (x & s1 & H1 & H2).
  apply map_err_ok, zoom_w_ok in H1. destruct H1 as (t & H1 & ->). rewrite update_eq in H1.
  rewrite (proj2 (Z.eqb_neq c 0) Hc) in H1. cbn [orb] in H1.
  destruct (_is_authorized (_owner_of i (wrapped s)) c i (wrapped s)) eqn:Ha; [|discriminate].
  inversion H1. subst x t. clear H1.
  apply call_under_ok in H2. apply bind_ok in H2. destruct H2 as ([] & s2 & H2 & H3).
  apply zoom_u_ok in H2. destruct H2 as (t & H2 & ->). cbn [under wrapped] in *.
  apply transfer_from_ok in H2; [|exact Hm]. destruct H2 as (Hna & Ho & _ & ->).
  apply (auth_iff _ _ _ _ (p_wrapped _ _ _ _ HR) Hc eq_refl) in Ha. destruct Ha as [Hne Ha].
  exists (_owner_of i (wrapped s)), (mk (upd_state a i (under s)) (upd_state 0 i (wrapped s))). cbn [under wrapped].
  split; [apply owner_iff; auto|]. split; [exact Ha|]. split; [apply owner_iff; auto|].
  split; [exact Hna|]. split; [rewrite exists_iff, owner_upd; destruct (decide (i = i)); congruence|].
  split; [apply owner_iff; rewrite owner_upd; destruct (decide (i = i)); [auto|congruence]|].
  split; [intros j x Hj; rewrite !owner_iff, owner_upd; destruct (decide (i = j)); [congruence|tauto]|].
  split; [intros j x Hj; rewrite !owner_iff, owner_upd; destruct (decide (i = j)); [congruence|tauto]|].
  apply check_received_ok in H3. destruct H3 as [[-> ->]|[-> H3]]; [split; [reflexivity|discriminate]|].
  unfold by_collection in H3. rewrite (proj2 (Z.eqb_neq a me) Ham) in H3.
  unfold receiver in H3. destruct fin; inversion H3; subst. auto.
Qed.
Print Assumptions c42_withdraw.

(** Whoever is not entitled to move the wrapped token withdraws nothing, alone or in a
    batch, and nothing changes. *)
Theorem c42_withdraw_refused has_code me tok s c a i b fin l :
  me <> 0 -> tok <> me -> w_reachable me tok s -> c <> 0 ->
  (forall o, owner (wrapped s) i o -> ~ may_move (wrapped s) i o c) ->
  exists e, tx (exec has_code me tok c (WWithdrawTo a (RCons i b fin l))) s = (Err (ErrErc721 e), s).
Proof.
  intros Hm Ht HR Hc Hno. apply reachable_P in HR; auto. unfold tx. cbn [exec run_rounds].
  unfold withdraw_one, bind, map_err, zoom_w, zoom. rewrite update_eq.
  rewrite (proj2 (Z.eqb_neq c 0) Hc). cbn [orb].
  destruct (_is_authorized (_owner_of i (wrapped s)) c i (wrapped s)) eqn:Ha.
  - exfalso. apply (auth_iff _ _ _ _ (p_wrapped _ _ _ _ HR) Hc eq_refl) in Ha. destruct Ha as [Hne Ha].
    eapply Hno; [|exact Ha]. apply owner_iff. auto.
  - eexists. reflexivity.
Qed.
Print Assumptions c42_withdraw_refused.

(** The holder can always withdraw, to any account without code or that accepts. *)
Theorem c42_withdrawable has_code me tok s c a i o b fin :
  me <> 0 -> tok <> me -> w_reachable me tok s -> c <> 0 -> a <> 0 -> a <> me ->
  owner (wrapped s) i o -> may_move (wrapped s) i o c ->
  (has_code a = true -> fin = Returned RECEIVER_FN_SELECTOR) ->
  exists s', exec has_code me tok c (WWithdrawTo a (RCons i b fin RNil)) s = (Ok tt, s').
Proof.
  intros Hm Ht HR Hc Hna Ham Ho Hmv Hf. apply reachable_P in HR; auto. pose proof Ho as Ho'.
  apply owner_iff in Ho'. destruct Ho' as [Hz Ho'].
  assert (Hu : _owner_of i (under s) = me) by (apply (p_backed _ _ _ _ HR); congruence).
  assert (Hauth : _is_authorized o c i (wrapped s) = true).
  { apply auth_iff; auto. apply HR. }
  assert (Haut2 : _is_authorized me me i (under s) = true).
  { unfold _is_authorized. rewrite Z.eqb_refl. rewrite (proj2 (Z.eqb_neq me 0) Hm). reflexivity. }
  set (s1 := mk (upd_state a i (under s)) (upd_state 0 i (wrapped s))).
  assert (H1 : map_err ErrErc721 (zoom_w (Erc721._update 0 i c)) s = (Ok o, mk (under s) (upd_state 0 i (wrapped s)))).
  { apply map_err_ok, zoom_w_ok. exists (upd_state 0 i (wrapped s)). split; [|reflexivity].
    rewrite update_eq, Ho', Hauth, orb_true_r. reflexivity. }
  assert (H2 : exists s', call_under tok (u_safe_transfer_from has_code (by_collection has_code me tok (run_calls has_code me tok b) fin) me me a i [])
                 (mk (under s) (upd_state 0 i (wrapped s))) = (Ok tt, s')).
  { assert (Hr : exists s', Erc721._check_on_erc721_received has_code (by_collection has_code me tok (run_calls has_code me tok b) fin) me me a i [] s1 = (Ok tt, s')).
    { destruct (has_code a) eqn:Hca.
      - exists (run_calls has_code me tok b s1). apply check_received_ok. right. split; [exact Hca|].
        unfold by_collection. rewrite (proj2 (Z.eqb_neq a me) Ham). rewrite (Hf eq_refl). reflexivity.
      - exists s1. apply check_received_ok. left. auto. }
    destruct Hr as [s' Hr]. exists s'. apply call_under_ok. apply bind_ok. exists tt, s1. split; [|exact Hr].
    apply zoom_u_ok. exists (upd_state a i (under s)). split; [|reflexivity]. cbn [under].
    apply transfer_from_ok; auto. }
  destruct H2 as [s' H2]. exists s'. cbn [exec run_rounds]. apply bind_ok. exists tt, s'. split; [|reflexivity].
  apply bind_ok. exists o, (mk (under s) (upd_state 0 i (wrapped s))). auto.
Qed.
Print Assumptions c42_withdrawable.

(** A successful deposit: the sender owned the underlying token and the wrapper was allowed
    to take it; when the account is called, and at the end unless it acts, the wrapper holds
    the token and the account the wrapped one, which did not exist before. *)
Theorem c42_deposit has_code me tok s c a i b fin s' :
  me <> 0 -> tok <> me -> w_reachable me tok s -> c <> 0 -> c <> me ->
  exec has_code me tok c (WDepositFor a (RCons i b fin RNil)) s = (Ok tt, s') ->
  exists s1,
    owner (under s) i c /\ (approved (under s) i me \/ operator (under s) c me) /\
    ~ exists_token (wrapped s) i /\
    owner (under s1) i me /\ owner (wrapped s1) i a /\
    (forall j x, j <> i -> (owner (wrapped s1) j x <-> owner (wrapped s) j x)) /\
    (forall j x, j <> i -> (owner (under s1) j x <-> owner (under s) j x)) /\
    s' = (if has_code a then run_calls has_code me tok b s1 else s1) /\
    (has_code a = true -> a <> me /\ fin = Returned RECEIVER_FN_SELECTOR).
Proof.
  intros Hm Ht HR Hc Hcm H. apply reachable_P in HR; auto. cbn [exec run_rounds] in H.
  apply bind_ok in H. destruct H as ([] & s2 & H & H0). inversion H0; subst s2. clear H0.
  apply bind_ok in H. destruct H as ([] & s1 & H1 & H2).
  apply call_under_ok in H1. apply zoom_u_ok in H1. destruct H1 as (t & H1 & ->).
  apply transfer_from_ok in H1; [|exact Hm]. destruct H1 as (_ & Ho & Ha & ->).
  apply map_err_ok in H2. apply bind_ok in H2. destruct H2 as ([] & s2 & H2 & H3).
  apply zoom_w_ok in H2. destruct H2 as (t & H2 & ->). cbn [under wrapped] in *.
  apply mint_ok in H2. destruct H2 as (Hna & Hw & ->).
  apply (auth_iff _ _ _ _ (p_under _ _ _ _ HR) Hm Ho) in Ha. destruct Ha as [_ Ha].
  exists (mk (upd_state me i (under s)) (upd_state a i (wrapped s))). cbn [under wrapped].
  split; [apply owner_iff; auto|]. split; [destruct Ha as [Ha|[Ha|Ha]]; [congruence|auto..]|].
  split; [rewrite exists_iff; congruence|].
  split; [apply owner_iff; rewrite owner_upd; destruct (decide (i = i)); [auto|congruence]|].
  split; [apply owner_iff; rewrite owner_upd; destruct (decide (i = i)); [auto|congruence]|].
  split; [intros j x Hj; rewrite !owner_iff, owner_upd; destruct (decide (i = j)); [congruence|tauto]|].
  split; [intros j x Hj; rewrite !owner_iff, owner_upd; destruct (decide (i = j)); [congruence|tauto]|].
  apply check_received_ok in H3. destruct H3 as [[-> ->]|[-> H3]]; [split; [reflexivity|discriminate]|].
  unfold by_wrapper in H3. destruct (Z.eqb_spec a me) as [->|Ham].
  - unfold wrapper_frame, tx in H3.
    destruct (on_erc721_received _ _ _ _ _ _ _ _ _) as [[v|e|] s2] eqn:E; [|discriminate..].
    exfalso. apply received_other in E; auto.
  - unfold receiver in H3. destruct fin; inversion H3; subst. auto.
Qed.
Print Assumptions c42_deposit.

(** [on_erc721_received] answers only the collection. *)
Theorem c42_received_refused has_code me tok s c op f i d b fin :
  c <> tok ->
  tx (exec has_code me tok c (WReceived op f i d b fin)) s = (Err (UnsupportedToken c), s).
Proof.
  intros Hc. unfold tx. cbn [exec]. unfold bind, on_erc721_received.
  destruct (Z.eqb_spec tok c); [congruence|]. reflexivity.
Qed.
Print Assumptions c42_received_refused.

(** Sending the underlying token to the wrapper with a safe transfer wraps it for the
    previous owner. *)
Theorem c42_direct has_code me tok s c f i d b fin :
  me <> 0 -> tok <> me -> w_reachable me tok s -> c <> 0 ->
  has_code me = true -> has_code f = false ->
  owner (under s) i f -> may_move (under s) i f c -> f <> me ->
  exists s', exec has_code me tok c (USafeTransferFrom f me i d b fin) s = (Ok tt, s') /\
    owner (under s') i me /\ owner (wrapped s') i f.
Proof.
  intros Hm Ht HR Hc Hcm Hcf Ho Hmv Hfm. apply reachable_P in HR; auto. apply owner_iff in Ho. destruct Ho as [Hz Ho].
  exists (mk (upd_state me i (under s)) (upd_state f i (wrapped s))). cbn [under wrapped].
  split.
  - match goal with |- _ = ?r => change (u (u_safe_transfer_from has_code
        (by_collection has_code me tok (run_calls has_code me tok b) fin) c f me i d) s = r) end.
    apply u_ok. exists tt. apply bind_ok. exists tt, (mk (upd_state me i (under s)) (wrapped s)). split.
    + apply zoom_u_ok. exists (upd_state me i (under s)). split; [|reflexivity]. apply transfer_from_ok; auto.
      split; [exact Hm|]. split; [exact Ho|]. split; [|reflexivity]. apply auth_iff; auto. apply HR.
    + apply check_received_ok. right. split; [exact Hcm|]. unfold by_collection. rewrite Z.eqb_refl.
      unfold wrapper_frame.
      assert (E : on_erc721_received has_code tok
          (by_wrapper has_code me tok (run_calls has_code me tok b) fin) tok c f i d
          (mk (upd_state me i (under s)) (wrapped s)) =
          (Ok RECEIVER_FN_SELECTOR, mk (upd_state me i (under s)) (upd_state f i (wrapped s)))).
      { unfold on_erc721_received. rewrite Z.eqb_refl. cbn [negb]. apply bind_ok.
        exists tt, (mk (upd_state me i (under s)) (upd_state f i (wrapped s))). split; [|reflexivity].
        apply map_err_ok, bind_ok. exists tt, (mk (upd_state me i (under s)) (upd_state f i (wrapped s))). split.
        - apply zoom_w_ok. exists (upd_state f i (wrapped s)). split; [|reflexivity]. apply mint_ok.
          split; [exact Hz|]. split; [|reflexivity]. cbn [wrapped].
          destruct (Z.eq_dec (_owner_of i (wrapped s)) 0) as [E|E]; [exact E|].
          apply (p_backed _ _ _ _ HR) in E. congruence.
        - apply check_received_ok. left. auto. }
      unfold tx. rewrite E. reflexivity.
  - split; apply owner_iff; rewrite owner_upd; destruct (decide (i = i)); auto; congruence.
Qed.
Print Assumptions c42_direct.

(** ** Non-vacuity *)
Section examples.
  (** wrapper 50, collection 60; account 3 is a contract. *)
  Let hc (a : Z) : bool := (a =? 3) || (a =? 50) || (a =? 60).
  Let h1 : w_history :=
    [ (9, UMint 1 7); (9, UMint 1 8); (9, UMint 2 9);
      (1, USetApprovalForAll 50 true);
      (1, WDepositFor 1 (RCons 7 CNil (Failed []) (RCons 8 CNil (Failed []) RNil)));
      (2, USafeTransferFrom 2 50 9 [] CNil (Failed []));
      (9, UTransferFrom 50 9 7); (9, WWithdrawTo 9 (RCons 7 CNil (Failed []) RNil));
      (1, WTransferFrom 1 2 8);
      (* account 3 sends the token on while it is receiving it *)
      (2, WWithdrawTo 3 (RCons 8 (CCons 3 (UTransferFrom 3 1 8) CNil) (Returned RECEIVER_FN_SELECTOR) RNil)) ].
  Example c42_history :
    let s := run hc 50 60 h1 init in
    owner (under s) 7 50 /\ owner (wrapped s) 7 1 /\ owner (under s) 8 1 /\ ~ exists_token (wrapped s) 8 /\
    owner (under s) 9 50 /\ owner (wrapped s) 9 2.
  Proof. cbv zeta. rewrite exists_iff. repeat split; try (vm_compute; reflexivity). vm_compute. congruence. Qed.
  Example c42_wf : w_nodes (w_node_wf 50 60) h1.
  Proof.
    assert (two256 > 1000) by reflexivity.
    unfold w_nodes, w_node_wf; cbn; repeat split; try lia; intuition; subst; unfold is_u256; lia.
  Qed.
End examples.
