(** ERC-1155: properties C44-C50. *)
From Verif.Base Require Import Prelude Maps.
From Verif.Model Require Erc1155.
From Verif.Spec Require Import Erc1155_spec.
From Verif.Proofs Require Import Erc1155_lemmas.
From stdpp Require Import gmap.
Import Erc1155.
#[global] Open Scope Z_scope.

(** A history with a re-entrant receiver: contract 9 is sent a batch with a repeated id
    and passes part of it on during the callback. *)
Definition demo_code (a : Z) : bool := a =? 9.
Definition demo : list (Z * op) :=
  [(1, IMintBatch 1 [5; 6; 5] [10; 20; 30] [] CNil (Returned 0));
   (1, SetApprovalForAll 4 true);
   (4, SafeBatchTransferFrom 1 9 [5; 5] [3; 4] [7]
         (CCons 9 (SafeTransferFrom 9 2 5 1 [] CNil (Returned 0)) CNil) (Returned 0xbc197c81));
   (1, SafeTransferFrom 1 9 6 1 [] CNil (Returned 0xbc197c81));
   (2, Burn 2 5 1);
   (3, BurnBatch 1 [6] [1])].
Lemma demo_wf : nodes node_wf demo.
Proof.
  assert (two256 > 1000) by reflexivity. cbn. unfold node_wf, is_u256; cbn.
  repeat split; try discriminate; try (repeat constructor; unfold is_u256; lia).
Qed.
Lemma demo_reachable : reachable (run base demo_code demo init).
Proof. exists demo_code, demo. split; [apply demo_wf|reflexivity]. Qed.

(** ** C44 *)
Theorem c44_supply_is_minted_minus_burned s id :
  reachable s -> id_total s id = log_minted (log s) id - log_burned (log s) id.
Proof. intros H. apply (inv_total s (reachable_inv s H)). Qed.
Print Assumptions c44_supply_is_minted_minus_burned.
Theorem c44_balances_in_range s a id : reachable s -> is_u256 (balance_of a id s) /\ balance_of 0 id s = 0.
Proof. intros H. apply reachable_inv in H. split; [apply (inv_range s H)|apply (inv_zero s H)]. Qed.
Print Assumptions c44_balances_in_range.
(** The exact effect of a call: it moves its tokens, records them in one event, and then at
    most runs the receiver's own calls. *)
Theorem c44_call_effect s has_code c o f t ids vs s' :
  reachable s -> node_wf c o -> op_move o = Some (f, t, ids, vs) ->
  exec base has_code c o s = (Ok tt, s') ->
  exists s1 e,
    moved f t (combine ids vs) s s1 /\ length ids = length vs /\
    (forall id, id_total s1 id = id_total s id - (if f =? 0 then 0 else amount (combine ids vs) id)
                                               + (if t =? 0 then 0 else amount (combine ids vs) id)) /\
    log s1 = log s ++ [e] /\ ev_move e = Some (f, t, combine ids vs) /\
    (s' = s1 \/ s' = run_calls base has_code (op_body o) s1).
Proof.
  intros HR [_ Hw] Em H. apply reachable_inv in HR. apply exec_front in H. destruct H as (s1 & Hf & Hs').
  apply front_base in Hf. rewrite Em in *. destruct Hf as (Hu & _).
  apply update_ok in Hu; [|exact Hw|apply HR]. destruct Hu as (El & Hm & T & _ & G).
  exists s1, (update_event c f t ids vs).
  repeat (split; [assumption|]). split; [apply update_event_move; exact El|exact Hs'].
Qed.
Print Assumptions c44_call_effect.
(** When a single transfer succeeds: never with too small a balance, never by wrapping. *)
Theorem c44_single_transfer_iff s has_code c f t id v d body fin :
  reachable s -> is_u256 v -> has_code t = false ->
  (exists s', exec base has_code c (SafeTransferFrom f t id v d body fin) s = (Ok tt, s')) <->
  (c = f \/ operator s f c) /\ f <> 0 /\ t <> 0 /\ v <= balance_of f id s /\
  (f = t \/ balance_of t id s + v < two256).
Proof.
  intros HR Hv Hc. apply reachable_inv in HR. pose proof (inv_range s HR f id) as Rf.
  pose proof (inv_range s HR t id) as Rt. unfold is_u256 in *.
  assert (E : forall s', exec base has_code c (SafeTransferFrom f t id v d body fin) s = (Ok tt, s') <->
     authorized s c f /\ t <> 0 /\ f <> 0 /\ _update c f t [id] [v] s = (Ok tt, s')).
  { intros s'. cbn [exec]. unfold safe_transfer_from, do_safe_transfer_from. rewrite bind_ok. split.
    - intros ([] & s0 & Ha & H). apply authorize_ok in Ha. destruct Ha as [Ha ->].
      rewrite !bind_fail_if, !Z.eqb_neq, accept_ok in H. destruct H as (Ht & Hf & s1 & H1 & H2).
      destruct H2 as [[_ ->]|(_ & H2 & _)]; [auto|congruence].
    - intros (Ha & Ht & Hf & H). exists tt, s. split; [apply authorize_ok; auto|].
      rewrite !bind_fail_if, !Z.eqb_neq, accept_ok. repeat split; auto. exists s'. auto. }
  assert (U : f <> 0 -> t <> 0 -> (exists s', _update c f t [id] [v] s = (Ok tt, s')) <->
     v <= balance_of f id s /\ (f = t \/ balance_of t id s + v < two256)).
  { intros Hf Ht. transitivity (exists s1, do_update f t id v s = (Ok tt, s1)).
    - split.
      + intros (s' & H). apply update_iff in H. destruct H as (_ & s1 & H & _). cbn [combine do_updates] in H.
        apply bind_ok in H. destruct H as ([] & s2 & H & _). eauto.
      + intros (s1 & H). eexists. apply update_iff. split; [reflexivity|]. exists s1. split; [|reflexivity].
        cbn [combine do_updates]. apply bind_ok. exists tt, s1. split; [exact H|reflexivity].
    - unfold do_update. mred. destruct (Z.eqb_spec f 0); [contradiction|]. destruct (Z.eqb_spec t 0); [contradiction|].
      cbn [negb]. mred. destruct (Z.ltb_spec (balance_of f id s) v).
      + split; [intros (? & H'); discriminate|lia].
      + rewrite wsub_small by lia. rewrite balance_set.
        match goal with |- context [?x <? two256] => destruct (Z.ltb_spec x two256) as [Hl|Hl] end;
          destruct (decide (id = id /\ f = t)) as [[_ D]|D].
        * split; [auto|]. intros _. eauto.
        * split; [|intros _; eauto]. intros _. split; [lia|]. right. lia.
        * lia.
        * split; [intros (? & H'); discriminate|]. intros [_ [?|?]]; [|lia]. exfalso. tauto. }
  split.
  - intros (s' & H). apply E in H. destruct H as (Ha & Ht & Hf & H). repeat split; auto; apply U; eauto.
  - intros (Ha & Hf & Ht & H). apply U in H; auto. destruct H as (s' & H). exists s'. apply E. auto.
Qed.
Print Assumptions c44_single_transfer_iff.
Example c44_demo :
  let s := run base demo_code demo init in
  id_total s 5 = 39 /\ id_total s 6 = 20 /\ balance_of 1 5 s = 33 /\ balance_of 9 5 s = 6 /\ balance_of 9 6 s = 0
  /\ log_minted (log s) 5 = 40 /\ log_burned (log s) 5 = 1.
Proof. vm_compute. repeat split; reflexivity. Qed.

(** ** C45 *)
Theorem c45_batch_is_sequence s has_code c k d ids vs :
  ids <> [] ->
  (exists s', exec base has_code c (batch_call k d ids vs) s = (Ok tt, s')) <->
  length ids = length vs /\
  exists s', sequence has_code c (map (single_call k d) (combine ids vs)) s = (Ok tt, s').
Proof.
  intros Hne. split.
  - intros (s' & H). apply batch_exec in H. destruct H as [Hp H]. apply update_iff in H.
    destruct H as (El & s1 & H1 & _). split; [exact El|].
    destruct (singles_sequence has_code k c d _ s s1 Hp H1) as (s2 & H2 & _). eauto.
  - intros (El & s' & H). apply sequence_singles in H. destruct H as (Hp & s1 & H1 & _).
    eexists. apply batch_exec. split.
    + apply Hp. destruct ids, vs; cbn in *; congruence.
    + apply update_iff. split; [exact El|]. exists s1. split; [exact H1|reflexivity].
Qed.
Print Assumptions c45_batch_is_sequence.
Theorem c45_same_effect s has_code c k d ids vs s1 s2 a id o p :
  exec base has_code c (batch_call k d ids vs) s = (Ok tt, s1) ->
  sequence has_code c (map (single_call k d) (combine ids vs)) s = (Ok tt, s2) ->
  balance_of a id s1 = balance_of a id s2 /\ (operator s1 o p <-> operator s2 o p).
Proof.
  intros H1 H2. apply batch_exec in H1. destruct H1 as [_ H1]. apply update_iff in H1.
  destruct H1 as (El & s3 & H3 & ->). apply sequence_singles in H2. destruct H2 as (_ & s4 & H4 & [B O]).
  rewrite H3 in H4. inversion H4; subst s4. unfold balance_of, operator, is_approved_for_all. cbn. rewrite B, O. tauto.
Qed.
Print Assumptions c45_same_effect.
(** Lists of different lengths are refused for every kind of batch and receiver. *)
Theorem c45_length_mismatch s has_code c o f t ids vs s' :
  op_move o = Some (f, t, ids, vs) -> length ids <> length vs -> exec base has_code c o s <> (Ok tt, s').
Proof.
  intros Em Hl H. apply exec_front in H. destruct H as (s1 & H & _). apply front_base in H. rewrite Em in H.
  destruct H as (H & _). apply update_iff in H. tauto.
Qed.
Print Assumptions c45_length_mismatch.
(** The empty batch still needs authorisation and valid addresses, and moves nothing. *)
Theorem c45_empty_batch s has_code c f t d s' :
  exec base has_code c (batch_call (BTransfer f t) d [] []) s = (Ok tt, s') <->
  (c = f \/ operator s f c) /\ f <> 0 /\ t <> 0 /\
  s' = mk (balances s) (operator_approvals s) (log s ++ [TransferBatch c f t [] []]).
Proof.
  rewrite batch_exec, update_iff. cbn [kind_pre kind_move fst snd combine do_updates]. unfold authorized. split.
  - intros ((Ha & Hf & Ht) & _ & s1 & H1 & ->). inversion H1; subst. auto.
  - intros (Ha & Hf & Ht & ->). repeat split; auto. exists s. split; reflexivity.
Qed.
Print Assumptions c45_empty_batch.
Theorem c45_failure_changes_nothing s has_code c o :
  (forall s', exec base has_code c o s <> (Ok tt, s')) -> snd (tx (exec base has_code c o) s) = s.
Proof.
  intros H. unfold tx. destruct (exec base has_code c o s) as [[[]|e|] s']; try reflexivity. destruct (H s'). reflexivity.
Qed.
Print Assumptions c45_failure_changes_nothing.
Example c45_demo :
  let s := run base demo_code demo init in
  fst (exec base demo_code 1 (batch_call (BTransfer 1 9) [] [5; 6; 5] [30; 20; 3]) s) = Ok tt /\
  fst (exec base demo_code 1 (batch_call (BTransfer 1 9) [] [5; 6; 5] [30; 20; 4]) s) = Err (InsufficientBalance 1 3 4 5).
Proof. split; vm_compute; reflexivity. Qed.

(** ** C46 *)
Theorem c46_only_holder_or_operator s has_code c o f t ids vs s' :
  is_public o -> op_move o = Some (f, t, ids, vs) ->
  exec base has_code c o s = (Ok tt, s') -> c = f \/ operator s f c.
Proof.
  intros Hp Em H. apply exec_front in H. destruct H as (s1 & H & _). apply front_base in H. rewrite Em in H.
  destruct H as (_ & _ & _ & H). apply H. exact Hp.
Qed.
Print Assumptions c46_only_holder_or_operator.
Theorem c46_approval_only_by_holder s has_code h a p :
  nodes (fun c o => forall b, ~ (c = a /\ o = SetApprovalForAll p b)) h ->
  operator (run base has_code h s) a p <-> operator s a p.
Proof.
  intros Hn.
  assert (G : forall s', is_approved_for_all a p s' = is_approved_for_all a p s ->
     is_approved_for_all a p (run base has_code h s') = is_approved_for_all a p s).
  { intros s' E.
    refine (run_P base (fun x => is_approved_for_all a p x = is_approved_for_all a p s) _ _ has_code h s' Hn E).
    intros c o s1 s2 Hg HE H. apply front_base in H. destruct (op_move o) as [[[[f t] is] vs]|].
    - destruct H as (H & _). apply update_iff in H. destruct H as (_ & s3 & H & ->).
      rewrite <- HE. unfold is_approved_for_all. cbn. f_equal.
      clear - H. revert s1 s3 H. generalize (combine is vs) as m. induction m as [|[i v] m IH]; intros s1 s3 H.
      + inversion H. reflexivity.
      + cbn [do_updates] in H. apply bind_ok in H. destruct H as ([] & s4 & H1 & H2). apply IH in H2.
        apply do_update_frame in H1. congruence.
    - destruct H as (q & b & -> & H). apply set_all_inv in H. destruct H as [_ ->]. rewrite <- HE.
      unfold is_approved_for_all. cbn. rewrite getd_set. destruct (decide _) as [E1|]; [|reflexivity].
      inversion E1; subst. exfalso. apply (Hg b). auto. }
  unfold operator. rewrite (G s eq_refl). tauto.
Qed.
Print Assumptions c46_approval_only_by_holder.
(** An account with no operators that makes no calls never loses tokens, whatever everybody
    else does (including minting). *)
Theorem c46_passive_holder_keeps_tokens s has_code h a id :
  reachable s -> (forall p, ~ operator s a p) ->
  nodes (fun c o => node_wf c o /\ c <> a /\ (is_public o \/ is_mint o)) h ->
  balance_of a id s <= balance_of a id (run base has_code h s).
Proof.
  intros HR Hno Hn. apply reachable_inv in HR.
  set (P := fun x => Inv x /\ (forall p, ~ operator x a p) /\ balance_of a id s <= balance_of a id x).
  assert (HP : P (run base has_code h s)).
  { refine (run_P base P _ _ has_code h s Hn _); [|split; [exact HR|split; [exact Hno|lia]]].
    intros c o s1 s2 (Hw & Hc & Ho) (HI & Hp & Hb) H.
    pose proof (inv_front _ _ _ _ Hw HI H) as HI2. destruct Hw as [_ Hw].
    apply front_base in H. split; [exact HI2|].
    destruct (op_move o) as [[[[f t] is] vs]|] eqn:Em.
    - destruct H as (H & Hm & _ & Hauth). apply update_ok in H; [|exact Hw|apply HI].
      destruct H as (El & (B & _ & O) & _). split; [intros p; rewrite O; apply Hp|].
      rewrite B. pose proof (amount_nonneg (combine is vs) id (combine_snd is vs _ Hw)).
      assert (E : share f a (amount (combine is vs) id) = 0).
      { unfold share. destruct (Z.eqb_spec f a) as [->|]; [|reflexivity]. destruct (Z.eqb_spec a 0) as [->|Ha]; [reflexivity|].
        exfalso. destruct Ho as [Ho|Ho].
        - destruct (Hauth Ho) as [_ [?|?]]; [congruence|]. eapply Hp; eauto.
        - destruct o; cbn in Ho, Em; try contradiction; inversion Em; subst; congruence. }
      rewrite E. unfold share. destruct (_ && _); lia.
    - destruct H as (q & b & -> & H). apply set_all_inv in H. destruct H as [_ ->]. split; [|exact Hb].
      intros p. unfold operator, is_approved_for_all. cbn. rewrite getd_set. destruct (decide _) as [E|].
      + inversion E; subst. congruence.
      + apply Hp. }
  apply HP.
Qed.
Print Assumptions c46_passive_holder_keeps_tokens.
Example c46_demo :
  let s := run base demo_code demo init in
  operator s 1 4 /\ ~ operator s 1 3 /\ (forall p, ~ operator s 9 p) /\ balance_of 9 5 s = 6 /\
  fst (tx (exec base demo_code 3 (BurnBatch 1 [6] [1])) s) = Err (MissingApprovalForAll 3 1) /\
  nodes (fun c o => node_wf c o /\ c <> 9 /\ (is_public o \/ is_mint o)) [(3, Burn 9 5 1); (4, IMint 9 5 2 [] CNil (Returned 0xf23a6e61))].
Proof.
  split; [vm_compute; reflexivity|]. split; [vm_compute; discriminate|]. split.
  { intros p. unfold operator, is_approved_for_all.
    assert (E : operator_approvals (run base demo_code demo init) = {[(1, 4) := true]}) by (vm_compute; reflexivity).
    rewrite E. unfold getd. rewrite lookup_singleton_ne by congruence. discriminate. }
  split; [vm_compute; reflexivity|]. split; [vm_compute; reflexivity|].
  assert (two256 > 1000) by reflexivity. cbn. unfold node_wf, is_u256; cbn.
  repeat split; try discriminate; auto; repeat constructor; unfold is_u256; lia.
Qed.

(** ** C47 *)
(** [h] is an arbitrary receiver: it may do anything to the state before answering. The
    call succeeds exactly if it would for a receiver without code, and a receiver with code
    gave the required answer. *)
Theorem c47_batch_transfer s has_code (h : handler state) c f t ids vs d s' :
  safe_batch_transfer_from base has_code h c f t ids vs d s = (Ok tt, s') <->
  exists s1, safe_batch_transfer_from base (fun _ => false) h c f t ids vs d s = (Ok tt, s1) /\
    (has_code t = false /\ s' = s1 \/
     has_code t = true /\ exists tr sel, hook ids vs tr sel /\ h t c f tr d s1 = (Returned sel, s')).
Proof.
  assert (E : forall hc x, safe_batch_transfer_from base hc h c f t ids vs d s = (Ok tt, x) <->
    authorized s c f /\ t <> 0 /\ f <> 0 /\ exists s1, _update c f t ids vs s = (Ok tt, s1) /\
      (hc t = false /\ x = s1 \/
       hc t = true /\ h t c f (snd (receiver_data ids vs)) d s1 = (Returned (fst (receiver_data ids vs)), x))).
  { intros hc x. unfold safe_batch_transfer_from, do_safe_transfer_from. rewrite bind_ok. split.
    - intros ([] & s0 & Ha & H). apply authorize_ok in Ha. destruct Ha as [Ha ->].
      rewrite !bind_fail_if, !Z.eqb_neq, accept_ok in H. destruct H as (Ht & Hf & s1 & H1 & H2).
      repeat split; auto. exists s1. split; [exact H1|]. destruct H2 as [[[?|?] ->]|(_ & H2)]; auto. contradiction.
    - intros (Ha & Ht & Hf & s1 & H1 & H2). exists tt, s. split; [apply authorize_ok; auto|].
      rewrite !bind_fail_if, !Z.eqb_neq, accept_ok. repeat split; auto. exists s1. split; [exact H1|].
      destruct H2 as [[? ->]|H2]; auto. }
  rewrite E. split.
  - intros (Ha & Ht & Hf & s1 & H1 & H2). exists s1. split.
    + apply E. repeat split; auto. exists s1. auto.
    + destruct H2 as [H2|[Hc H2]]; [auto|]. right. split; [exact Hc|]. eexists _, _. split; [|exact H2].
      apply hook_data; [apply update_inv in H1; tauto|auto].
  - intros (s1 & H1 & H2). apply E in H1. destruct H1 as (Ha & Ht & Hf & s2 & H1 & [[_ ->]|[? _]]); [|discriminate].
    repeat split; auto. exists s2. split; [exact H1|]. destruct H2 as [H2|(Hc & tr & sel & Hh & H2)]; [auto|].
    right. split; [exact Hc|]. apply hook_data in Hh; [|apply update_inv in H1; tauto]. destruct Hh as [-> ->]. exact H2.
Qed.
Print Assumptions c47_batch_transfer.
Theorem c47_single_transfer s has_code (h : handler state) c f t id v d s' :
  safe_transfer_from base has_code h c f t id v d s = (Ok tt, s') <->
  exists s1, safe_transfer_from base (fun _ => false) h c f t id v d s = (Ok tt, s1) /\
    (has_code t = false /\ s' = s1 \/
     has_code t = true /\ h t c f (Single id v) d s1 = (Returned 0xf23a6e61, s')).
Proof.
  rewrite (c47_batch_transfer s has_code h c f t [id] [v] d s'). apply ex_iff. intros s1. apply and_iff_compat_l, or_iff_compat_l, and_iff_compat_l.
  split.
  - intros (tr & sel & [(i & w & Ei & Ew & -> & ->)|(Hl & _)] & H); [|cbn in Hl; congruence].
    inversion Ei; inversion Ew; subst. exact H.
  - intros H. eexists _, _. split; [|exact H]. left. exists id, v. auto.
Qed.
Print Assumptions c47_single_transfer.
Theorem c47_batch_mint s has_code (h : handler state) c t ids vs d s' :
  _mint_batch base has_code h c t ids vs d s = (Ok tt, s') <->
  exists s1, _mint_batch base (fun _ => false) h c t ids vs d s = (Ok tt, s1) /\
    (has_code t = false /\ s' = s1 \/
     has_code t = true /\ exists tr sel, hook ids vs tr sel /\ h t c 0 tr d s1 = (Returned sel, s')).
Proof.
  assert (E : forall hc x, _mint_batch base hc h c t ids vs d s = (Ok tt, x) <->
    t <> 0 /\ exists s1, _update c 0 t ids vs s = (Ok tt, s1) /\
      (hc t = false /\ x = s1 \/
       hc t = true /\ h t c 0 (snd (receiver_data ids vs)) d s1 = (Returned (fst (receiver_data ids vs)), x))).
  { intros hc x. unfold _mint_batch, _do_mint. rewrite bind_fail_if, Z.eqb_neq, accept_ok. apply and_iff_compat_l_imp. intros Ht.
    apply ex_iff. intros s1. apply and_iff_compat_l. tauto. }
  rewrite E. split.
  - intros (Ht & s1 & H1 & H2). exists s1. split.
    + apply E. split; auto. exists s1. auto.
    + destruct H2 as [H2|[Hc H2]]; [auto|]. right. split; [exact Hc|]. eexists _, _. split; [|exact H2].
      apply hook_data; [apply update_inv in H1; tauto|auto].
  - intros (s1 & H1 & H2). apply E in H1. destruct H1 as (Ht & s2 & H1 & [[_ ->]|[? _]]); [|discriminate].
    split; auto. exists s2. split; [exact H1|]. destruct H2 as [H2|(Hc & tr & sel & Hh & H2)]; [auto|].
    right. split; [exact Hc|]. apply hook_data in Hh; [|apply update_inv in H1; tauto]. destruct Hh as [-> ->]. exact H2.
Qed.
Print Assumptions c47_batch_mint.
Theorem c47_single_mint s has_code (h : handler state) c t id v d s' :
  _mint base has_code h c t id v d s = (Ok tt, s') <->
  exists s1, _mint base (fun _ => false) h c t id v d s = (Ok tt, s1) /\
    (has_code t = false /\ s' = s1 \/
     has_code t = true /\ h t c 0 (Single id v) d s1 = (Returned 0xf23a6e61, s')).
Proof.
  rewrite (c47_batch_mint s has_code h c t [id] [v] d s'). apply ex_iff. intros s1. apply and_iff_compat_l, or_iff_compat_l, and_iff_compat_l.
  split.
  - intros (tr & sel & [(i & w & Ei & Ew & -> & ->)|(Hl & _)] & H); [|cbn in Hl; congruence].
    inversion Ei; inversion Ew; subst. exact H.
  - intros H. eexists _, _. split; [|exact H]. left. exists id, v. auto.
Qed.
Print Assumptions c47_single_mint.
(** In the demo, 1's transfer to contract 9 failed because 9 answered with the batch
    selector; with the right answer it succeeds. *)
Example c47_demo :
  let s := run base demo_code demo init in
  fst (exec base demo_code 1 (SafeTransferFrom 1 9 6 1 [] CNil (Returned 0xbc197c81)) s) = Err (InvalidReceiver 9) /\
  fst (exec base demo_code 1 (SafeTransferFrom 1 9 6 1 [] CNil (Failed [1])) s) = Err (InvalidReceiverWithReason [1]) /\
  fst (exec base demo_code 1 (SafeTransferFrom 1 9 6 1 [] CNil (Returned 0xf23a6e61)) s) = Ok tt.
Proof. repeat split; vm_compute; reflexivity. Qed.

(** ** C48 *)
Theorem c48_balance_of_batch s accounts ids :
  (length accounts = length ids ->
     exists l, balance_of_batch accounts ids s = (Ok l, s) /\ length l = length ids /\
       forall n a i, nth_error accounts n = Some a -> nth_error ids n = Some i -> nth_error l n = Some (balance_of a i s)) /\
  (length accounts <> length ids ->
     balance_of_batch accounts ids s =
       (Err (InvalidArrayLength (Z.of_nat (length ids)) (Z.of_nat (length accounts))), s)).
Proof.
  unfold balance_of_batch, require_equal_arrays_length. split; intros El.
  - rewrite El, Nat.eqb_refl. eexists. split; [reflexivity|]. split.
    + rewrite map_length, combine_length. lia.
    + clear El. revert ids. induction accounts as [|x accounts IH]; intros [|y ids] [|n] a i H1 H2; cbn in *; try discriminate.
      * congruence.
      * apply IH; assumption.
  - mred. destruct (Nat.eqb_spec (length ids) (length accounts)); [congruence|reflexivity].
Qed.
Print Assumptions c48_balance_of_batch.
Theorem c48_events_replay s a id : reachable s -> balance_of a id s = log_balance (log s) a id.
Proof. intros H. apply (inv_balance s (reachable_inv s H)). Qed.
Print Assumptions c48_events_replay.
Theorem c48_approval_events_replay s o p : reachable s -> is_approved_for_all o p s = log_operator (log s) o p false.
Proof. intros H. apply (inv_op s (reachable_inv s H)). Qed.
Print Assumptions c48_approval_events_replay.
Example c48_demo :
  let s := run base demo_code demo init in
  fst (balance_of_batch [1; 9; 2] [5; 5; 6] s) = Ok [33; 6; 0] /\ log_balance (log s) 1 5 = 33 /\ length (log s) = 5%nat.
Proof. repeat split; vm_compute; reflexivity. Qed.

(** ** C49 *)
Lemma supply_tracked s : supply_reachable supply_entry s -> tracked s.
Proof.
  intros (hc & h & Hn & ->).
  refine (run_P supply tracked _ _ hc h supply_init Hn tracked_init).
  intros c o s1 s2 [Hw Hs] HT H. eapply tracked_front; eauto.
Qed.
Theorem c49_total_supply_is_sum_of_balances s id :
  supply_reachable supply_entry s -> mget (total_supply s) id = id_total (erc1155 s) id.
Proof. intros H. apply supply_tracked in H. apply H. Qed.
Print Assumptions c49_total_supply_is_sum_of_balances.
Theorem c49_exists_iff_nonzero s id :
  supply_reachable supply_entry s -> exists_id id s = true <-> id_total (erc1155 s) id <> 0.
Proof.
  intros H. apply supply_tracked in H. destruct H as (HI & _ & _ & HT & _).
  pose proof (id_total_nonneg _ id (inv_range _ HI)). unfold exists_id. rewrite HT, Z.ltb_lt. lia.
Qed.
Print Assumptions c49_exists_iff_nonzero.
(** Burnable's functions on the inner contract (reachable through [Deref]) bypass the tracking. *)
Theorem c49_inner_burn_refuted :
  exists s id, supply_reachable (fun _ => True) s /\ mget (total_supply s) id <> id_total (erc1155 s) id.
Proof.
  pose (h := [(1, IMint 1 5 10 [] CNil (Returned 0)); (1, Burn 1 5 4)]).
  exists (run supply demo_code h supply_init), 5. split.
  - exists demo_code, h. split; [|reflexivity]. assert (two256 > 1000) by reflexivity.
    cbn. unfold node_wf, is_u256; cbn. repeat split; try discriminate; repeat constructor; unfold is_u256; lia.
  - vm_compute. discriminate.
Qed.
Print Assumptions c49_inner_burn_refuted.
Definition supply_demo : list (Z * op) :=
  [(1, IMintBatch 1 [5; 6; 5] [10; 20; 30] [] CNil (Returned 0));
   (1, SafeBatchTransferFrom 1 9 [5; 5] [3; 4] [] (CCons 9 (IBurn 9 5 2) CNil) (Returned 0xbc197c81));
   (1, IBurnBatch 1 [6; 5] [20; 1])].
Example c49_demo :
  let s := run supply demo_code supply_demo supply_init in
  supply_reachable supply_entry s /\ mget (total_supply s) 5 = 37 /\ exists_id 5 s = true /\ exists_id 6 s = false /\
  balance_of 9 5 (erc1155 s) = 5 /\ total_supply_all s = 37.
Proof.
  split.
  - exists demo_code, supply_demo. split; [|reflexivity]. assert (two256 > 1000) by reflexivity.
    cbn. unfold node_wf, is_u256; cbn. repeat split; try discriminate; repeat constructor; unfold is_u256; lia.
  - vm_compute. repeat split; reflexivity.
Qed.

(** ** C50 *)
(** False as stated: [values.iter().sum()] wraps, so that a batch mint of 2^255 tokens of
    each of two ids leaves [total_supply_all] at zero and is not rejected. *)
Theorem c50_total_supply_all_refuted :
  exists s, supply_reachable supply_entry s /\ supply_sum s = two256 /\ total_supply_all s = 0.
Proof.
  pose (h := [(1, IMintBatch 1 [5; 6] [(2 ^ 255); (2 ^ 255)] [] CNil (Returned 0))]).
  exists (run supply demo_code h supply_init). split.
  - exists demo_code, h. split; [|reflexivity]. assert ((2 ^ 255) < two256 /\ 0 <= (2 ^ 255)) by (unfold two256; lia).
    cbn. unfold node_wf, is_u256; cbn. repeat split; try discriminate; repeat constructor; unfold is_u256; lia.
  - split; vm_compute; reflexivity.
Qed.
Print Assumptions c50_total_supply_all_refuted.
(** It is always the sum modulo 2^256 ... *)
Theorem c50_total_supply_all_mod_partial s :
  supply_reachable supply_entry s -> total_supply_all s = supply_sum s mod two256.
Proof. intros H. apply supply_tracked in H. apply H. Qed.
Print Assumptions c50_total_supply_all_mod_partial.
(** ... and exact as long as no minted batch by itself adds up to 2^256 or more; *)
Theorem c50_total_supply_all_exact_partial s :
  supply_reachable (fun o => supply_entry o /\ small_mints o) s -> total_supply_all s = supply_sum s.
Proof.
  intros (hc & h & Hn & ->).
  refine (proj2 (run_P supply exact_all _ _ hc h supply_init Hn (conj tracked_init eq_refl))).
  intros c o s1 s2 (Hw & Hs & Hm) HT H. eapply exact_front; eauto.
Qed.
Print Assumptions c50_total_supply_all_exact_partial.
(** a mint whose amount would take it to 2^256 or more is rejected. *)
Theorem c50_overflowing_mint_rejected_partial s has_code c o t ids vs s' :
  supply_reachable (fun o => supply_entry o /\ small_mints o) s ->
  node_wf c o -> is_mint o -> small_mints o -> op_move o = Some (0, t, ids, vs) ->
  two256 <= supply_sum s + vsum vs -> exec supply has_code c o s <> (Ok tt, s').
Proof.
  intros HR Hw Hmint Hsm Em Hov H.
  assert (HE : exact_all s).
  { destruct HR as (hc & h & Hn & ->).
    refine (run_P supply exact_all _ _ hc h supply_init Hn (conj tracked_init eq_refl)).
    intros c' o' s1 s2 (Hw' & Hs & Hm) HT H'. eapply exact_front; eauto. }
  apply exec_front in H. destruct H as (s1 & H & _).
  assert (Hs : supply_entry o) by (destruct o; cbn in *; tauto).
  pose proof (exact_front _ _ _ _ Hw Hs Hsm HE H) as [(_ & _ & HA & _) HE1].
  destruct Hw as [_ Hw]. apply front_supply in H; [|exact Hs]. rewrite Em in *. destruct H as (H & Hft & _).
  destruct HE as [HT HE]. apply supply_update_ok in H; auto. destruct H as (_ & A & _).
  destruct (A eq_refl) as [A1 _]. unfold is_u256 in HA. lia.
Qed.
Print Assumptions c50_overflowing_mint_rejected_partial.
Example c50_demo :
  let s := run supply demo_code supply_demo supply_init in
  supply_reachable (fun o => supply_entry o /\ small_mints o) s /\
  fst (exec supply demo_code 1 (IMint 1 7 (two256 - 37) [] CNil (Returned 0)) s) = Panic /\
  fst (exec supply demo_code 1 (IMint 1 7 (two256 - 38) [] CNil (Returned 0)) s) = Ok tt.
Proof.
  split.
  - exists demo_code, supply_demo. split; [|reflexivity]. assert (two256 > 1000) by reflexivity.
    cbn. unfold node_wf, is_u256; cbn. repeat split; try discriminate; repeat constructor; unfold is_u256; lia.
  - split; vm_compute; reflexivity.
Qed.
