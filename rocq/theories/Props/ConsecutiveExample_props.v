(** C80: the erc721-consecutive example from its constructor on. *)
From Verif.Base Require Import Prelude Maps.
From Verif.Model Require Erc721 Consecutive ConsecutiveExample.
From Verif.Spec Require Import Consecutive_spec ConsecutiveExample_spec.
From Verif.Proofs Require Import Consecutive_lemmas ConsecutiveExample_lemmas.
From Verif.Props Require Import Consecutive_props.
From stdpp Require Import gmap.
Import Consecutive ConsecutiveExample.
#[global] Open Scope Z_scope.

Section props.
  (** Arguments of the constructor, of their Solidity types. *)
  Context (first max : Z) (receivers amounts : list Z).
  Context (Hfirst : 0 <= first < two96) (Hamounts : Forall (fun k => 0 <= k) amounts)
    (Hlen : Z.of_nat (length receivers) < two64).

  (** Deployment succeeds exactly for arguments that can be served: batches that would run
      out of the 96-bit id space are refused, *)
  Theorem c80_deployable : (exists s, construct receivers amounts first max = Some s) <-> serviceable first max receivers amounts.
  Proof.
    split.
    - intros [s E]. exact (proj1 (loop_some first max Hfirst receivers amounts init 0 (istart first) s (J_init first Hfirst) Hamounts Hlen E)).
    - intros S. destruct (construct receivers amounts first max) as [s|] eqn:E; [eauto|].
      destruct (loop_none first max Hfirst receivers amounts init 0 (istart first) (J_init first Hfirst) Hamounts Hlen E S).
  Qed.

  Lemma deployed_R s : construct receivers amounts first max = Some s ->
    exists i, R first false (Z.of_nat (length receivers)) s i /\ forall id, iown i id = initial_owner first (combine receivers amounts) id.
  Proof.
    intros E. destruct (loop_some first max Hfirst receivers amounts init 0 (istart first) s (J_init first Hfirst) Hamounts Hlen E) as [_ HJ].
    eexists. split; [exact (J_closed first _ _ _ HJ)|]. intros id. pose proof (combine_nonneg receivers amounts Hamounts) as Hn.
    rewrite all_batches_own by exact Hn. cbn [istart inext iown].
    destruct ((first <=? id) && (id <? first + amount_of (combine receivers amounts))) eqn:B; [reflexivity|].
    clear -B Hn. symmetry. revert first B. induction Hn as [|[to k] l Hk Hl IH]; intros first B; [reflexivity|].
    cbn [initial_owner amount_of fold_right snd] in *. fold (amount_of l) in B. pose proof (amount_nonneg l Hl).
    replace ((first <=? id) && (id <? first + k)) with false by lia. apply IH. lia.
  Qed.

  (** and from then on, whatever is called by whomever, every id belongs to whom the
      constructor's lists and the calls that succeeded give it, and balances count the owned
      ids. No condition on which ids are minted one by one (C39) and none on the id space
      (C38) is needed. *)
  Theorem c80_ownership_exact s h : construct receivers amounts first max = Some s -> Forall call_wf h ->
    let s' := run first h s in
    let own := owners_after first h s (initial_owner first (combine receivers amounts)) in
    (forall id a, owner first s' id a <-> a <> 0 /\ own id = a) /\
    (forall id, own id = 0 -> no_owner first s' id) /\
    (forall a, a <> 0 -> exists l, tokens_of first s' a l /\
       balance s' a (Z.of_nat (length l) mod two256) /\
       ((exists j, is_u256 j /\ ~ owner first s' j a) -> balance s' a (Z.of_nat (length l)))).
  Proof.
    intros E Hh s' own. destruct (deployed_R s E) as (i & HR & Hi). destruct (ops_wf h Hh) as [W1 W2].
    pose proof (R_run_closed first max Hfirst (ops h) _ s i HR W1 W2) as HR'.
    destruct (R_agrees first Hfirst _ _ _ _ HR') as (A1 & A2 & A3). rewrite <- (run_ops first max h s) in A1, A2, A3. fold s' in A1, A2, A3.
    assert (O : forall id, iown (ideal_run first max (ops h) s i) id = own id).
    { intros id. rewrite owners_after_ops. unfold own. clear -Hi. revert s id.
      assert (G : forall h f g s id, (forall j, f j = g j) -> owners_after first h s f id = owners_after first h s g id).
      { clear. induction h as [|[c o] h IH]; intros f g s id Hfg; [apply Hfg|]. cbn [owners_after].
        destruct (tx _ s) as [[x|e|] s1]; apply IH; auto. intros j. destruct o; cbn [moves]; rewrite ?Hfg; reflexivity. }
      intros s id. apply G. exact Hi. }
    split; [intros id a; rewrite A1, O; tauto|]. split; [intros id Ho; apply A2; rewrite O; exact Ho|exact A3].
  Qed.

  (** An indexer that applies the ConsecutiveTransfer logs of the deployment and then every
      Transfer log knows all owners. *)
  Theorem c80_logs_determine_owners s h id a : construct receivers amounts first max = Some s -> Forall call_wf h ->
    owner first (run first h s) id a <-> a <> 0 /\ owner_by_logs (run first h s) id = a.
  Proof.
    intros E Hh. destruct (deployed_R s E) as (i & HR & Hi). destruct (ops_wf h Hh) as [W1 W2].
    pose proof (R_run_closed first max Hfirst (ops h) _ s i HR W1 W2) as HR'. rewrite (run_ops first max h s).
    rewrite (r_log _ _ _ _ _ HR' eq_refl id). apply (R_agrees first Hfirst _ _ _ _ HR').
  Qed.

  (** Transfers need the owner's consent, *)
  Theorem c80_transfers_authorised_partial s h c f t id s2 : construct receivers amounts first max = Some s -> Forall call_wf h ->
    c <> 0 -> exec first c (PTransferFrom f t id) (run first h s) = (Ok tt, s2) ->
    owner first (run first h s) id f /\
    (c = f \/ Erc721.is_approved_for_all f c (erc721 (run first h s)) = true \/ fst (get_approved first id (run first h s)) = Ok c).
  Proof.
    intros E Hh Hc He. destruct (deployed_R s E) as (i & HR & Hi). destruct (ops_wf h Hh) as [W1 W2].
    pose proof (R_run_closed first max Hfirst (ops h) _ s i HR W1 W2) as HR'. rewrite <- (run_ops first max h s) in HR'.
    set (s1 := run first h s) in *. pose proof (r_sorted _ _ _ _ _ HR') as Hs. pose proof (r_len_ok _ _ _ _ _ HR') as Hl.
    cbn [exec] in He. unfold transfer_from in He. rewrite bindr in He. unfold fail_if at 1 in He. destruct (Z.eqb_spec t 0); [discriminate|].
    rewrite bindr, (update_eq first t id c s1 Hs Hl) in He. rewrite (proj2 (Z.eqb_neq c 0) Hc) in He. cbn [orb] in He.
    destruct (Erc721._is_authorized (own_val first s1 id) c id (erc721 s1)) eqn:Ea; [|discriminate].
    unfold fail_if in He. destruct (Z.eqb_spec (own_val first s1 id) f) as [E1|]; [|discriminate].
    assert (Hf : f <> 0).
    { intros ->. rewrite E1 in Ea. unfold Erc721._is_authorized in Ea. rewrite (proj2 (Z.eqb_neq c 0) Hc), (r_op0 _ _ _ _ _ HR') in Ea.
      rewrite (r_appr _ _ _ _ _ HR') in Ea by (rewrite <- (r_own _ _ _ _ _ HR'); exact E1).
      rewrite (proj2 (Z.eqb_neq 0 c)) in Ea by congruence. discriminate. }
    assert (Eo : owner_of first id s1 = (Ok f, s1)).
    { unfold owner_of, _require_owned. rewrite bindr, (owner_eq first s1 id Hs Hl), E1. mred.
      rewrite (proj2 (Z.eqb_neq f 0) Hf). reflexivity. }
    split; [unfold owner; rewrite Eo; reflexivity|]. rewrite E1 in Ea. unfold Erc721._is_authorized in Ea.
    rewrite (proj2 (Z.eqb_neq c 0) Hc) in Ea. cbn [negb andb] in Ea. apply orb_true_iff in Ea. destruct Ea as [Ea|Ea].
    - apply orb_true_iff in Ea. destruct Ea as [Ea|Ea]; [left; symmetry; apply Z.eqb_eq; exact Ea|right; left; exact Ea].
    - right; right. apply Z.eqb_eq in Ea. unfold get_approved. unfold owner_of in Eo. rewrite bindr, Eo. cbn. rewrite Ea. reflexivity.
  Qed.
End props.
Print Assumptions c80_deployable.
Print Assumptions c80_ownership_exact.
Print Assumptions c80_logs_determine_owners.
Print Assumptions c80_transfers_authorised_partial.

(** but burning does not: the example exposes [_burn], so anybody can burn any token. *)
Theorem c80_only_owner_disposes_refuted :
  exists first max receivers amounts s c id,
    construct receivers amounts first max = Some s /\ c <> 5 /\ owner first s id 5 /\
    fst (Erc721.balance_of c (erc721 s)) = Ok 0 /\ Erc721.is_approved_for_all 5 c (erc721 s) = false /\
    fst (get_approved first id s) = Ok 0 /\
    no_owner first (run first [(c, PBurn id)] s) id.
Proof.
  exists 10, 100, [5], [3]. destruct (construct [5] [3] 10 100) as [s|] eqn:E; [|discriminate E].
  exists s, 66, 11. vm_compute in E. injection E as <-.
  split; [reflexivity|]. split; [discriminate|]. repeat match goal with |- _ /\ _ => split end; vm_compute; reflexivity.
Qed.
Print Assumptions c80_only_owner_disposes_refuted.
(** In general: whatever token exists, a call of [burn] by whomever removes it. *)
Theorem c80_anybody_burns (first max : Z) receivers amounts s h c id a :
  0 <= first < two96 -> Forall (fun k => 0 <= k) amounts -> Z.of_nat (length receivers) < two64 ->
  construct receivers amounts first max = Some s -> Forall call_wf h -> owner first (run first h s) id a ->
  is_ok (fst (exec first c (PBurn id) (run first h s))) = true.
Proof.
  intros Hfirst Ha Hlen E Hh Ho. destruct (deployed_R first max receivers amounts Hfirst Ha Hlen s E) as (i & HR & Hi). destruct (ops_wf h Hh) as [W1 W2].
  pose proof (R_run_closed first max Hfirst (ops h) _ s i HR W1 W2) as HR'. rewrite <- (run_ops first max h s) in HR'.
  set (s1 := run first h s) in *. pose proof (r_sorted _ _ _ _ _ HR') as Hs. pose proof (r_len_ok _ _ _ _ _ HR') as Hl.
  cbn [exec]. unfold _burn. rewrite bindr, (update_eq first 0 id 0 s1 Hs Hl). cbn [Z.eqb orb].
  unfold owner, owner_of, _require_owned in Ho. rewrite bindr, (owner_eq first s1 id Hs Hl) in Ho. mred_in Ho. unfold fail_if.
  destruct (own_val first s1 id =? 0); [discriminate Ho|reflexivity].
Qed.
Print Assumptions c80_anybody_burns.

(** Non-vacuity: a deployment with an empty batch, then single mints beyond the batches,
    a burn of such an id and of one of a batch, a re-mint. *)
Definition calls : list (Z * call) :=
  [(1, PMint 7 50); (5, PTransferFrom 5 8 10); (9, PBurn 50); (9, PBurn 12); (1, PMint 9 12); (3, PBurn 99)].
Example c80_nonvacuous :
  exists s, construct [5; 0; 6] [3; 0; 2; 77] 10 100 = Some s /\ Forall call_wf calls /\
  let s' := run 10 calls s in
  map (fun id => fst (owner_of 10 id s')) [10; 11; 12; 13; 14] = [Ok 8; Ok 5; Ok 9; Ok 6; Ok 6] /\
  map (fun a => fst (balance_of a s')) [5; 6; 7; 8; 9] = [Ok 1; Ok 2; Ok 0; Ok 1; Ok 1] /\
  map (owner_by_logs s') [10; 11; 12; 13; 14; 50; 99] = [8; 5; 9; 6; 6; 0; 0] /\
  construct [5] [3] (two96 - 3) 100 = None.
Proof.
  assert (two256 > 1000) by reflexivity.
  destruct (construct [5; 0; 6] [3; 0; 2; 77] 10 100) as [s|] eqn:E; [|discriminate E]. exists s. vm_compute in E. injection E as <-.
  split; [reflexivity|]. split.
  { unfold calls. repeat apply List.Forall_cons; try apply List.Forall_nil; unfold call_wf, is_u256; cbn; split; try discriminate; lia. }
  cbv zeta. repeat match goal with |- _ /\ _ => split end; vm_compute; reflexivity.
Qed.
