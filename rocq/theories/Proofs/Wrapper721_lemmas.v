From Verif.Base Require Import Prelude Maps.
From Verif.Model Require Erc721 Wrapper721.
From Verif.Spec Require Import Wrapper721_spec.
From Verif.Proofs Require Import Erc721_lemmas.
From stdpp Require Import gmap.
Import Wrapper721.
Import Erc721 (_owner_of, _get_approved, is_approved_for_all, _is_authorized, RECEIVER_FN_SELECTOR).
#[global] Open Scope Z_scope.

Scheme w_op_ind' := Induction for op Sort Prop
  with w_calls_ind' := Induction for calls Sort Prop
  with w_rounds_ind' := Induction for rounds Sort Prop.
Combined Scheme w_op_calls_ind from w_op_ind', w_calls_ind', w_rounds_ind'.

(** ** Plumbing *)
Lemma zoom_u_ok {A} (m : M Erc721.state Erc721.error A) s a s' :
  zoom_u m s = (Ok a, s') <-> exists t, m (under s) = (Ok a, t) /\ s' = mk t (wrapped s).
Proof.
  unfold zoom_u, zoom. destruct (m (under s)) as [r t]. split.
  - intros H. inversion H. eauto.
  - intros (t' & H1 & ->). inversion H1. reflexivity.
Qed.
Lemma zoom_w_ok {A} (m : M Erc721.state Erc721.error A) s a s' :
  zoom_w m s = (Ok a, s') <-> exists t, m (wrapped s) = (Ok a, t) /\ s' = mk (under s) t.
Proof.
  unfold zoom_w, zoom. destruct (m (wrapped s)) as [r t]. split.
  - intros H. inversion H. eauto.
  - intros (t' & H1 & ->). inversion H1. reflexivity.
Qed.
Lemma map_err_ok {S E E' A} (f : E -> E') (m : M S E A) s a s' :
  map_err f m s = (Ok a, s') <-> m s = (Ok a, s').
Proof. unfold map_err. destruct (m s) as [[]]; split; intros H; inversion H; reflexivity. Qed.
Lemma call_under_ok tok m s s' : call_under tok m s = (Ok tt, s') <-> m s = (Ok tt, s').
Proof.
  rewrite <- (tx_ok m). unfold call_under. destruct (tx m s) as [[[]|e|] t]; split; intros H; inversion H; reflexivity.
Qed.
Lemma u_ok {A} (m : M world Erc721.error A) s s' : u m s = (Ok tt, s') <-> exists a, m s = (Ok a, s').
Proof.
  unfold u. rewrite bind_ok. split.
  - intros (a & s1 & H1 & H2). apply map_err_ok in H1. inversion H2; subst. eauto.
  - intros (a & H). exists a, s'. split; [apply map_err_ok; exact H|reflexivity].
Qed.
Lemma w_ok {A} (m : M world Erc721.error A) s s' : w m s = (Ok tt, s') <-> exists a, m s = (Ok a, s').
Proof.
  unfold w. rewrite bind_ok. split.
  - intros (a & s1 & H1 & H2). apply map_err_ok in H1. inversion H2; subst. eauto.
  - intros (a & H). exists a, s'. split; [apply map_err_ok; exact H|reflexivity].
Qed.

Section inv.
  Context (has_code : Z -> bool) (me tok : Z).
  Hypothesis Hme : me <> 0.
  Hypothesis Htok : tok <> me.
  (** Tokens never withdrawn, and tokens of owners that stay passive. *)
  Context (K : Z -> Prop) (L : Z -> Z -> Prop).

  Record P (s : world) : Prop := mkP {
    p_under : Inv (under s);
    p_wrapped : Inv (wrapped s);
    p_backed : forall i, _owner_of i (wrapped s) <> 0 -> _owner_of i (under s) = me;
    p_appr : forall i, _owner_of i (under s) = me -> _get_approved i (under s) = 0;
    p_op : forall p, is_approved_for_all me p (under s) = false;
    p_K : forall i, K i -> _owner_of i (under s) = me;
    p_L : forall i o, L i o -> o <> 0 /\ _owner_of i (wrapped s) = o /\ _get_approved i (wrapped s) = 0
                        /\ forall p, is_approved_for_all o p (wrapped s) = false
  }.

  (** ** Changes of the collection *)
  Lemma not_mine c i s : P s -> c <> 0 -> c <> me ->
    _is_authorized (_owner_of i (under s)) c i (under s) = true -> _owner_of i (under s) <> me.
  Proof.
    intros HP Hc Hcm H E. unfold _is_authorized in H. rewrite E in H.
    rewrite (p_op s HP), (p_appr s HP i E) in H. lia.
  Qed.
  Lemma P_upd_u t i s : is_u256 i -> P s -> _owner_of i (under s) <> me ->
    P (mk (upd_state t i (under s)) (wrapped s)).
  Proof.
    intros Hi HP Hn. split; cbn [under wrapped]; try apply HP.
    - apply inv_upd; [exact Hi|apply HP].
    - intros j Hj. apply (p_backed s HP) in Hj. rewrite owner_upd.
      destruct (decide (i = j)); congruence.
    - intros j Hj. rewrite owner_upd in Hj. rewrite (approved_upd _ _ _ _ (inv_appr _ (p_under s HP) j)).
      destruct (decide (i = j)); [reflexivity|]. apply (p_appr s HP _ Hj).
    - intros j Hj. apply (p_K s HP) in Hj. rewrite owner_upd. destruct (decide (i = j)); congruence.
  Qed.
  Lemma P_appr_u t i s : _owner_of i (under s) <> 0 -> P s -> _owner_of i (under s) <> me ->
    P (mk (appr_state t i (under s)) (wrapped s)).
  Proof.
    intros Hi HP Hn. split; cbn [under wrapped]; try apply HP.
    - apply inv_appr_state; [exact Hi|apply HP].
    - intros j Hj. unfold _get_approved, appr_state; cbn. rewrite mget_set.
      destruct (decide (i = j)) as [->|]; [contradiction|]. apply (p_appr s HP j Hj).
  Qed.
  Lemma P_all_u c p b s : c <> 0 -> c <> me -> P s -> P (mk (all_state c p b (under s)) (wrapped s)).
  Proof.
    intros Hc Hcm HP. split; cbn [under wrapped]; try apply HP.
    - apply inv_all_state; [exact Hc|apply HP].
    - intros q. unfold is_approved_for_all, all_state; cbn. rewrite getd_set.
      destruct (decide ((c, p) = (me, q))) as [E|]; [congruence|]. apply (p_op s HP).
  Qed.
  (** The wrapper sends away a token without wrapped counterpart. *)
  Lemma P_out t i s : is_u256 i -> P s -> _owner_of i (wrapped s) = 0 -> ~ K i ->
    P (mk (upd_state t i (under s)) (wrapped s)).
  Proof.
    intros Hi HP Hn HK. split; cbn [under wrapped]; try apply HP.
    - apply inv_upd; [exact Hi|apply HP].
    - intros j Hj. rewrite owner_upd. destruct (decide (i = j)) as [->|]; [congruence|]. apply (p_backed s HP j Hj).
    - intros j Hj. rewrite owner_upd in Hj. rewrite (approved_upd _ _ _ _ (inv_appr _ (p_under s HP) j)).
      destruct (decide (i = j)); [reflexivity|]. apply (p_appr s HP _ Hj).
    - intros j Hj. rewrite owner_upd. destruct (decide (i = j)) as [->|]; [contradiction|]. apply (p_K s HP j Hj).
  Qed.
  (** ** Changes of the wrapper's token *)
  Lemma P_mint t i s : is_u256 i -> P s -> _owner_of i (wrapped s) = 0 -> _owner_of i (under s) = me ->
    P (mk (under s) (upd_state t i (wrapped s))).
  Proof.
    intros Hi HP H0 Hm. split; cbn [under wrapped]; try apply HP.
    - apply inv_upd; [exact Hi|apply HP].
    - intros j. rewrite owner_upd. destruct (decide (i = j)) as [->|]; [auto|]. apply (p_backed s HP j).
    - intros j o HL. destruct (p_L s HP j o HL) as (A & B & C & D). split; [exact A|].
      rewrite owner_upd, (approved_upd _ _ _ _ (inv_appr _ (p_wrapped s HP) j)).
      destruct (decide (i = j)) as [->|]; [congruence|]. auto.
  Qed.
  Lemma not_passive c i s : P s -> c <> 0 -> (forall o, L i o -> c <> o) ->
    _is_authorized (_owner_of i (wrapped s)) c i (wrapped s) = true -> forall o, ~ L i o.
  Proof.
    intros HP Hc Hcm H o HL. destruct (p_L s HP i o HL) as (A & B & C & D).
    unfold _is_authorized in H. rewrite B, C, D in H. specialize (Hcm o HL). lia.
  Qed.
  Lemma P_upd_w t i s : is_u256 i -> P s -> _owner_of i (wrapped s) <> 0 -> (forall o, ~ L i o) ->
    P (mk (under s) (upd_state t i (wrapped s))).
  Proof.
    intros Hi HP H0 Hm. split; cbn [under wrapped]; try apply HP.
    - apply inv_upd; [exact Hi|apply HP].
    - intros j. rewrite owner_upd. destruct (decide (i = j)) as [->|]; [|apply (p_backed s HP j)].
      intros _. apply (p_backed s HP j H0).
    - intros j o HL. destruct (p_L s HP j o HL) as (A & B & C & D). split; [exact A|].
      rewrite owner_upd, (approved_upd _ _ _ _ (inv_appr _ (p_wrapped s HP) j)).
      destruct (decide (i = j)) as [->|]; [exfalso; eapply Hm; eauto|]. auto.
  Qed.
  Lemma auth_exists c i s : P s -> c <> 0 ->
    _is_authorized (_owner_of i (wrapped s)) c i (wrapped s) = true -> _owner_of i (wrapped s) <> 0.
  Proof. intros HP Hc H. apply (auth_iff _ _ _ _ (p_wrapped s HP) Hc eq_refl) in H. tauto. Qed.
  Lemma P_appr_w c t i s : P s -> c <> 0 -> (forall o, L i o -> c <> o) ->
    _owner_of i (wrapped s) <> 0 ->
    (c = _owner_of i (wrapped s) \/ is_approved_for_all (_owner_of i (wrapped s)) c (wrapped s) = true) ->
    P (mk (under s) (appr_state t i (wrapped s))).
  Proof.
    intros HP Hc HL0 Hi Ha. split; cbn [under wrapped]; try apply HP.
    - apply inv_appr_state; [exact Hi|apply HP].
    - intros j o HL. destruct (p_L s HP j o HL) as (A & B & C & D). split; [exact A|]. split; [exact B|].
      split; [|exact D]. unfold _get_approved, appr_state; cbn. rewrite mget_set.
      destruct (decide (i = j)) as [->|]; [|exact C].
      exfalso. rewrite B in Ha. destruct Ha as [Ha|Ha]; [|rewrite D in Ha; discriminate].
      apply (HL0 o HL Ha).
  Qed.
  Lemma P_all_w c p b s : P s -> c <> 0 -> (forall i o, L i o -> c <> o) ->
    P (mk (under s) (all_state c p b (wrapped s))).
  Proof.
    intros HP Hc HL0. split; cbn [under wrapped]; try apply HP.
    - apply inv_all_state; [exact Hc|apply HP].
    - intros j o HL. destruct (p_L s HP j o HL) as (A & B & C & D). split; [exact A|]. split; [exact B|].
      split; [exact C|]. intros q. unfold is_approved_for_all, all_state; cbn. rewrite getd_set.
      destruct (decide ((c, p) = (o, q))) as [E|]; [|apply D].
      exfalso. apply (HL0 _ _ HL). congruence.
  Qed.

  (** ** Frames *)
  Definition pres {E A} (m : M world E A) : Prop := forall s a s', P s -> m s = (Ok a, s') -> P s'.
  Definition hpres (h : Erc721.handler_on world) : Prop :=
    forall to op f i d s r s', P s -> h to op f i d s = (r, s') -> P s'.

  Lemma check_pres h op f t i d : hpres h -> pres (Erc721._check_on_erc721_received has_code h op f t i d).
  Proof.
    intros Hh s [] s' HP H. apply check_received_ok in H. destruct H as [[_ ->]|[_ H]]; [exact HP|].
    eapply Hh; eauto.
  Qed.
  Lemma w_safe_mint_P h c a i d s s' :
    hpres h -> is_u256 i -> P s -> _owner_of i (under s) = me ->
    w_safe_mint has_code h c a i d s = (Ok tt, s') -> P s'.
  Proof.
    intros Hh Hi HP Hm H. apply bind_ok in H. destruct H as ([] & s1 & H1 & H2).
    apply zoom_w_ok in H1. destruct H1 as (t & H1 & ->). apply mint_ok in H1. destruct H1 as (_ & H0 & ->).
    apply check_pres in H2; auto. apply P_mint; auto.
  Qed.
  Lemma receiver_pres body fin s r s' :
    (forall s, P s -> P (body s)) -> P s -> receiver body fin s = (r, s') -> P s'.
  Proof. intros Hb HP H. unfold receiver in H. destruct fin; inversion H; subst; auto. Qed.
  Lemma refuses_pres : hpres refuses.
  Proof. intros to op f i d s r s' HP H. inversion H; subst; exact HP. Qed.
  Lemma frame_P (m : MW Z) s r s' :
    P s -> (forall v s1, m s = (Ok v, s1) -> P s1) -> wrapper_frame m s = (r, s') -> P s'.
  Proof.
    intros HP Hm H. unfold wrapper_frame, tx in H. destruct (m s) as [[v|e|] s1] eqn:E; inversion H; subst; auto.
    eapply Hm; reflexivity.
  Qed.
  Lemma received_other h c op f i d s v s' :
    c <> tok -> on_erc721_received has_code tok h c op f i d s <> (Ok v, s').
  Proof.
    intros Hc. unfold on_erc721_received. destruct (Z.eqb_spec tok c); [congruence|]. discriminate.
  Qed.
  Lemma by_wrapper_pres body fin : (forall s, P s -> P (body s)) -> hpres (by_wrapper has_code me tok body fin).
  Proof.
    intros Hb to op f i d s r s' HP H. unfold by_wrapper in H. destruct (to =? me).
    - eapply frame_P; [exact HP| |exact H]. intros v s1 E. exfalso. apply received_other in E; auto.
    - eapply receiver_pres; eauto.
  Qed.
  Lemma by_collection_P body fin to op f i d s r s' :
    (forall s, P s -> P (body s)) -> P s -> is_u256 i -> _owner_of i (under s) = to ->
    by_collection has_code me tok body fin to op f i d s = (r, s') -> P s'.
  Proof.
    intros Hb HP Hi Ho H. unfold by_collection in H. destruct (Z.eqb_spec to me) as [->|].
    - eapply frame_P; [exact HP| |exact H]. intros v s1 E. unfold on_erc721_received in E.
      rewrite Z.eqb_refl in E. cbn [negb] in E. apply bind_ok in E. destruct E as ([] & s2 & E1 & E2).
      inversion E2; subst. apply map_err_ok in E1. eapply w_safe_mint_P; [| | | |exact E1]; auto.
      apply by_wrapper_pres. exact Hb.
    - eapply receiver_pres; eauto.
  Qed.
  Lemma check_collection_P body fin op f t i d s s' :
    (forall s, P s -> P (body s)) -> P s -> is_u256 i -> _owner_of i (under s) = t ->
    Erc721._check_on_erc721_received has_code (by_collection has_code me tok body fin) op f t i d s = (Ok tt, s') ->
    P s'.
  Proof.
    intros Hb HP Hi Ho H. apply check_received_ok in H. destruct H as [[_ ->]|[_ H]]; [exact HP|].
    eapply by_collection_P; eauto.
  Qed.

  (** ** Rounds *)
  Lemma deposit_one_P h c a i s s' :
    hpres h -> is_u256 i -> c <> 0 -> c <> me -> P s ->
    deposit_one has_code me tok h c a i s = (Ok tt, s') -> P s'.
  Proof.
    intros Hh Hi Hc Hcm HP H. apply bind_ok in H. destruct H as ([] & s1 & H1 & H2).
    apply call_under_ok in H1. apply zoom_u_ok in H1. destruct H1 as (t & H1 & ->).
    apply transfer_from_ok in H1; [|exact Hme]. destruct H1 as (_ & Ho & Ha & ->).
    apply map_err_ok in H2. eapply w_safe_mint_P; [exact Hh|exact Hi| | |exact H2].
    - apply P_upd_u; auto. congruence.
    - cbn [under]. rewrite owner_upd. destruct (decide (i = i)); congruence.
  Qed.
  Lemma withdraw_one_P body fin c a i s s' :
    (forall s, P s -> P (body s)) -> is_u256 i -> c <> 0 -> (forall o, L i o -> c <> o) -> ~ K i -> P s ->
    withdraw_one has_code me tok (by_collection has_code me tok body fin) c a i s = (Ok tt, s') -> P s'.
  Proof.
    intros Hb Hi Hc HL HK HP H. apply bind_ok in H. destruct H as (x & s1 & H1 & H2).
    apply map_err_ok, zoom_w_ok in H1. destruct H1 as (t & H1 & ->). rewrite update_eq in H1.
    rewrite (proj2 (Z.eqb_neq c 0) Hc) in H1. cbn [orb] in H1.
    destruct (_is_authorized (_owner_of i (wrapped s)) c i (wrapped s)) eqn:Ha; [|discriminate].
    inversion H1. subst x t. clear H1.
    apply call_under_ok in H2. apply bind_ok in H2. destruct H2 as ([] & s2 & H2 & H3).
    apply zoom_u_ok in H2. destruct H2 as (t & H2 & ->). cbn [under wrapped] in *.
    apply transfer_from_ok in H2; [|exact Hme]. destruct H2 as (_ & Ho & _ & ->).
    eapply check_collection_P; [exact Hb| |exact Hi| |exact H3].
    - apply (P_out a i (mk (under s) (upd_state 0 i (wrapped s)))); auto.
      + apply P_upd_w; auto.
        * eapply auth_exists; eauto.
        * eapply not_passive; eauto.
      + cbn [wrapped]. rewrite owner_upd. destruct (decide (i = i)); congruence.
    - cbn [under]. rewrite owner_upd. destruct (decide (i = i)); congruence.
  Qed.

  (** ** Call trees *)
  Definition G (c : Z) (o : op) : Prop :=
    w_node_wf me tok c o /\ (forall i, withdraws i o -> ~ K i) /\ (forall i p, L i p -> c <> p).

  Lemma exec_rounds_P f l :
    (forall i body fin, In i (round_ids l) -> (forall s, P s -> P (body s)) -> pres (f i body fin)) ->
    (fix bodies l := match l with RNil => True
       | RCons _ b _ l' => (forall s, P s -> P (run_calls has_code me tok b s)) /\ bodies l' end) l ->
    pres (run_rounds has_code me tok f l).
  Proof.
    intros Hf Hb. induction l as [|i b fin l IH].
    - intros s a s' HP H. inversion H; subst. exact HP.
    - destruct Hb as [Hb Hbs]. intros s a s' HP H.
      change (bind (f i (run_calls has_code me tok b) fin) (fun _ => run_rounds has_code me tok f l) s = (Ok a, s')) in H.
      apply bind_ok in H. destruct H as (x & s1 & H1 & H2).
      apply Hf in H1; [|left; reflexivity|exact Hb|exact HP].
      eapply IH; [|exact Hbs|exact H1|exact H2]. intros j body fi Hj. apply Hf. right. exact Hj.
  Qed.

  Lemma tree_P :
    (forall o, forall c s s', w_op_nodes G c o -> P s -> exec has_code me tok c o s = (Ok tt, s') -> P s') /\
    (forall cs, forall s, w_calls_nodes G cs -> P s -> P (run_calls has_code me tok cs s)) /\
    (forall l, w_rounds_nodes G l ->
      (fix bodies l := match l with RNil => True
         | RCons _ b _ l' => (forall s, P s -> P (run_calls has_code me tok b s)) /\ bodies l' end) l).
  Proof.
    apply w_op_calls_ind.
    all: try (intros; match goal with H : w_op_nodes _ _ _ |- _ => cbn [w_op_nodes] in H; destruct H as [HG HB] end;
      pose proof HG as ((Hc & Hcm & Hct & Hid) & HK & HL); cbn [w_op_ids In] in Hid;
      match goal with H : exec _ _ _ _ _ _ = _ |- _ => cbn [exec] in H; rename H into HE end;
      match goal with H : P _ |- _ => rename H into HP end).
    - (* UTransferFrom *)
      apply u_ok in HE. destruct HE as ([] & HE). apply zoom_u_ok in HE. destruct HE as (t & HE & ->).
      apply transfer_from_ok in HE; [|exact Hc]. destruct HE as (_ & Ho & Ha & ->).
      apply P_upd_u; auto. eapply not_mine; eauto. congruence.
    - (* USafeTransferFrom *)
      apply u_ok in HE. destruct HE as ([] & HE). apply bind_ok in HE. destruct HE as ([] & s1 & H1 & H2).
      apply zoom_u_ok in H1. destruct H1 as (t & H1 & ->).
      apply transfer_from_ok in H1; [|exact Hc]. destruct H1 as (_ & Ho & Ha & ->).
      eapply check_collection_P; [| | | |exact H2].
      + intros; apply H; auto.
      + apply P_upd_u; auto. eapply not_mine; eauto. congruence.
      + auto.
      + cbn [under]. rewrite owner_upd. destruct (decide (token_id = token_id)); congruence.
    - (* UApprove *)
      apply u_ok in HE. destruct HE as ([] & HE). apply zoom_u_ok in HE. destruct HE as (t & HE & ->).
      apply approve_ok in HE; [|exact Hc]. destruct HE as ((Ho & Ha) & ->).
      apply P_appr_u; auto. intros E. rewrite E in Ha. destruct Ha as [Ha|Ha]; [congruence|].
      rewrite (p_op s HP) in Ha. discriminate.
    - (* USetApprovalForAll *)
      apply u_ok in HE. destruct HE as ([] & HE). apply zoom_u_ok in HE. destruct HE as (t & HE & ->).
      apply set_all_ok in HE. destruct HE as (_ & ->). apply P_all_u; auto.
    - (* UBurn *)
      apply u_ok in HE. destruct HE as ([] & HE). apply zoom_u_ok in HE. destruct HE as (t & HE & ->).
      apply burn_ok in HE; [|exact Hc]. destruct HE as (Ha & ->).
      apply P_upd_u; auto. eapply not_mine; eauto.
    - (* UMint *)
      apply u_ok in HE. destruct HE as ([] & HE). apply zoom_u_ok in HE. destruct HE as (t & HE & ->).
      apply mint_ok in HE. destruct HE as (_ & Ho & ->). apply P_upd_u; auto. congruence.
    - (* USafeMint *)
      apply u_ok in HE. destruct HE as ([] & HE). apply bind_ok in HE. destruct HE as ([] & s1 & H1 & H2).
      apply zoom_u_ok in H1. destruct H1 as (t & H1 & ->).
      apply mint_ok in H1. destruct H1 as (_ & Ho & ->).
      eapply check_collection_P; [| | | |exact H2].
      + intros; apply H; auto.
      + apply P_upd_u; auto. congruence.
      + auto.
      + cbn [under]. rewrite owner_upd. destruct (decide (token_id = token_id)); congruence.
    - (* WTransferFrom *)
      apply w_ok in HE. destruct HE as ([] & HE). apply zoom_w_ok in HE. destruct HE as (t & HE & ->).
      apply transfer_from_ok in HE; [|exact Hc]. destruct HE as (_ & Ho & Ha & ->). rewrite <- Ho in Ha.
      apply P_upd_w; auto; [eapply auth_exists; eauto|eapply not_passive; eauto].
    - (* WSafeTransferFrom *)
      apply w_ok in HE. destruct HE as ([] & HE). apply bind_ok in HE. destruct HE as ([] & s1 & H1 & H2).
      apply zoom_w_ok in H1. destruct H1 as (t & H1 & ->).
      apply transfer_from_ok in H1; [|exact Hc]. destruct H1 as (_ & Ho & Ha & ->). rewrite <- Ho in Ha.
      eapply check_pres; [| |exact H2].
      + apply by_wrapper_pres. intros; apply H; auto.
      + apply P_upd_w; auto; [eapply auth_exists; eauto|eapply not_passive; eauto].
    - (* WApprove *)
      apply w_ok in HE. destruct HE as ([] & HE). apply zoom_w_ok in HE. destruct HE as (t & HE & ->).
      apply approve_ok in HE; [|exact Hc]. destruct HE as ((Ho & Ha) & ->).
      eapply P_appr_w; eauto.
    - (* WSetApprovalForAll *)
      apply w_ok in HE. destruct HE as ([] & HE). apply zoom_w_ok in HE. destruct HE as (t & HE & ->).
      apply set_all_ok in HE. destruct HE as (_ & ->). apply P_all_w; auto.
    - (* WBurn *)
      apply w_ok in HE. destruct HE as ([] & HE). apply zoom_w_ok in HE. destruct HE as (t & HE & ->).
      apply burn_ok in HE; [|exact Hc]. destruct HE as (Ha & ->).
      apply P_upd_w; auto; [eapply auth_exists; eauto|eapply not_passive; eauto].
    - (* WDepositFor *)
      eapply exec_rounds_P; [|exact (H HB)|exact HP|exact HE].
      intros i body fin Hi Hb s1 [] s2 HP1 H1. eapply deposit_one_P; [| | | | |exact H1]; auto.
      apply by_wrapper_pres. exact Hb.
    - (* WWithdrawTo *)
      eapply exec_rounds_P; [|exact (H HB)|exact HP|exact HE].
      intros i body fin Hi Hb s1 [] s2 HP1 H1. eapply withdraw_one_P; [exact Hb|auto|exact Hc| |exact (HK i Hi)|exact HP1|exact H1]; eauto.
    - (* WReceived *)
      apply bind_ok in HE. destruct HE as (v & s1 & H1 & _). apply received_other in H1; [contradiction|exact Hct].
    - (* WRecover *)
      apply bind_ok in HE. destruct HE as (v & s1 & H1 & H2). inversion H2; subst. clear H2.
      apply bind_ok in H1. destruct H1 as (o & s2 & H1 & H2).
      apply map_err_ok, zoom_u_ok in H1. destruct H1 as (t & H1 & ->).
      assert (E : owner (under s) token_id o) by (unfold owner; rewrite H1; reflexivity).
      apply owner_iff in E. destruct E as (_ & E).
      assert (Et : t = under s).
      { unfold Erc721.owner_of, Erc721._require_owned in H1. mred_in H1.
        destruct (_ =? 0); inversion H1; reflexivity. }
      subst t. apply bind_ok in H2. destruct H2 as ([] & s3 & H2 & H3). mred_in H2.
      destruct (Z.eqb_spec o me) as [Eo|]; cbn [negb] in H2; [|discriminate]. inversion H2; subst s3. clear H2.
      apply bind_ok in H3. destruct H3 as ([] & s4 & H3 & H4). inversion H4; subst. apply map_err_ok in H3.
      eapply w_safe_mint_P; [| | | |exact H3].
      + apply by_wrapper_pres. intros; apply H; auto.
      + auto.
      + destruct s; exact HP.
      + cbn [under]. exact Eo.
    - intros s _ HP. exact HP.
    - intros c o IHo cs IHcs s Hn HP. cbn [w_calls_nodes] in Hn. destruct Hn as [Hn1 Hn2].
      change (P (run_calls has_code me tok cs (snd (tx (exec has_code me tok c o) s)))).
      apply IHcs; [exact Hn2|]. unfold tx.
      destruct (exec has_code me tok c o s) as [[[]|e|] s'] eqn:E; cbn [snd]; auto. eapply IHo; eauto.
    - intros _. exact I.
    - intros i b IHb fin l IHl [Hb Hl]. split; [auto|exact (IHl Hl)].
  Qed.

  Lemma run_P721 h s : w_nodes G h -> P s -> P (run has_code me tok h s).
  Proof. intros Hn HP. apply (proj1 (proj2 tree_P)); assumption. Qed.
End inv.
