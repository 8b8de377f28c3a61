(** Property theorems for the ERC-20 token (C01-C06). *)
From Verif.Base Require Import Prelude Maps.
From Verif.Model Require Import Erc20.
From Verif.Spec Require Import Erc20_spec.
From Verif.Proofs Require Import Erc20_inv Erc20_api Erc20_hist.
From stdpp Require Import gmap.
#[global] Open Scope Z_scope.

(** A concrete non-trivial history used as non-vacuity witness: mint, approve, spend,
    self transfer, burn, and failing calls. *)
Definition demo_hist : list (Z * op) :=
  [(9, OMint 1 1000); (1, OTransfer 2 300); (1, OApprove 3 250); (3, OTransferFrom 1 2 100);
   (2, OTransfer 2 50); (3, OBurnFrom 1 50); (2, OBurn 10); (5, OTransfer 1 1);
   (9, OMint 1 (two256 - 1)); (3, OTransferFrom 1 2 101)].
Lemma demo_wf : hist_wf demo_hist.
Proof. unfold hist_wf, demo_hist. repeat constructor; unfold op_wf, is_u256, two256; cbn; lia. Qed.
Definition demo_state : state := run demo_hist init.
Lemma demo_reachable : reachable demo_state.
Proof. exists demo_hist. split; [exact demo_wf|reflexivity]. Qed.

(** ** C01 *)
Theorem c01_supply_is_sum_of_balances :
  forall h, hist_wf h ->
  let s := run h init in
  (exists l, covers s l) /\
  (forall l, covers s l -> total_supply s = sum_balances s l) /\
  0 <= total_supply s < two256 /\
  balance_of s 0 = 0 /\
  (forall a, 0 <= balance_of s a <= total_supply s).
Proof.
  intros h Hh s. pose proof (inv_run h init Hh inv_init) as HI. fold s in HI.
  split; [apply covers_exists|]. split; [intros l Hl; apply conservation_inv; assumption|].
  split; [split; [apply (supply_nonneg s HI)|apply (inv_max s HI)]|].
  split; [apply (inv_zero s HI)|].
  intros a. split; [apply (bal_nonneg s HI)|apply (bal_le_supply s HI)].
Qed.
Print Assumptions c01_supply_is_sum_of_balances.

(** The wrapping arithmetic of [_update] never wraps: in every reachable state the
    credit and the supply change equal their values over the unbounded integers. *)
Theorem c01_no_wrap_around :
  forall s from to v s', reachable s -> is_u256 v -> _update from to v s = (Ok tt, s') ->
  (forall a, a <> 0 -> balance_of s' a = balance_of s a - delta a from v + delta a to v) /\
  total_supply s' = total_supply s + delta from 0 v - delta to 0 v.
Proof.
  intros s from to v s' Hr Hv H. destruct (update_ok from to v s s' (reachable_inv s Hr) Hv H) as (H1&_&H2&_).
  split; assumption.
Qed.
Print Assumptions c01_no_wrap_around.

Example c01_nonvacuous :
  hist_wf demo_hist /\ total_supply demo_state = 940 /\
  balance_of demo_state 1 = 550 /\ balance_of demo_state 2 = 390 /\
  covers demo_state [1; 2].
Proof.
  split; [exact demo_wf|]. split; [vm_compute; reflexivity|].
  split; [vm_compute; reflexivity|]. split; [vm_compute; reflexivity|].
  split; [repeat constructor; cbn; intuition lia|].
  intros a Ha. destruct (Z.eq_dec a 1); [left; lia|]. destruct (Z.eq_dec a 2); [right; left; lia|].
  exfalso. apply Ha. unfold balance_of.
  destruct (Z.eq_dec a 0) as [->|]; [vm_compute; reflexivity|].
  unfold demo_state, mget.
  assert (E : balances (run demo_hist init) = {[1 := 550; 2 := 390]}) by (apply (bool_decide_unpack _); vm_compute; exact I).
  rewrite E. rewrite lookup_insert_ne, lookup_singleton_ne by lia. reflexivity.
Qed.

(** ** C02 *)
Theorem c02_transfer_exact :
  forall s c to v, reachable s -> is_u256 v ->
  (fst (transfer c to v s) = Ok true <-> (c <> 0 /\ to <> 0 /\ v <= balance_of s c)) /\
  (forall s', transfer c to v s = (Ok true, s') ->
     balances_moved s s' c to v /\ same_allowances s s' /\
     total_supply s' = total_supply s /\ log s' = log s ++ [Transfer c to v]) /\
  (forall r s', transfer c to v s = (r, s') -> r <> Ok true ->
     s' = s /\ exists e, r = Err e /\ error_justified s c c to v e).
Proof. intros s c to v Hr. exact (transfer_spec s c to v (reachable_inv s Hr)). Qed.
Print Assumptions c02_transfer_exact.

Theorem c02_transfer_from_exact :
  forall s c from to v, reachable s -> is_u256 v ->
  (fst (transfer_from c from to v s) = Ok true <->
     (c <> 0 /\ from <> 0 /\ to <> 0 /\ v <= balance_of s from /\
      (allowance s from c = U256_MAX \/ v <= allowance s from c))) /\
  (forall s', transfer_from c from to v s = (Ok true, s') ->
     balances_moved s s' from to v /\
     allowance s' from c =
       (if allowance s from c =? U256_MAX then U256_MAX else allowance s from c - v) /\
     other_allowances_same s s' from c /\
     total_supply s' = total_supply s /\ log s' = log s ++ [Transfer from to v]) /\
  (forall r s', transfer_from c from to v s = (r, s') -> r <> Ok true ->
     exists e, r = Err e /\ error_justified s c from to v e).
Proof.
  intros s c from to v Hr Hv.
  destruct (transfer_from_spec s c from to v (reachable_inv s Hr) Hv) as (H1&H2&H3).
  split; [exact H1|]. split; [exact H2|].
  intros r s' E Hne. destruct (H3 r s' E Hne) as (_&_&_&_&_&He). exact He.
Qed.
Print Assumptions c02_transfer_from_exact.

Example c02_nonvacuous :
  reachable demo_state /\ is_u256 100 /\
  fst (transfer 2 1 100 demo_state) = Ok true /\
  fst (transfer_from 3 1 2 100 demo_state) = Ok true /\
  fst (transfer 2 1 1000 demo_state) = Err (InsufficientBalance 2 390 1000).
Proof.
  split; [exact demo_reachable|]. split; [unfold is_u256, two256; lia|].
  repeat split; vm_compute; reflexivity.
Qed.

(** ** C03 *)
Theorem c03_allowance_budget :
  forall s o sp h, reachable s -> hist_wf h ->
  Forall (fun cx => public_op (snd cx)) h -> no_approval o sp h ->
  (allowance s o sp = U256_MAX -> allowance (run h s) o sp = U256_MAX) /\
  (allowance s o sp <> U256_MAX ->
     total_taken o sp h s = allowance s o sp - allowance (run h s) o sp /\
     0 <= total_taken o sp h s <= allowance s o sp).
Proof.
  intros s o sp h Hr Hwf Hpub Hna.
  pose proof (reachable_inv s Hr) as HI.
  destruct (budget_run o sp h s HI Hwf Hpub Hna) as [H1 H2].
  split; [exact H1|]. intros Hn. destruct (H2 Hn) as (E&E0&_).
  pose proof (inv_allow _ (inv_run h s Hwf HI) o sp) as Hr'. unfold is_u256 in Hr'. lia.
Qed.
Print Assumptions c03_allowance_budget.

(** A balance can only be decreased by its owner or by a spender within its allowance. *)
Theorem c03_debits_are_authorised :
  forall s o c x, reachable s -> op_wf x -> public_op x -> o <> 0 ->
  balance_of (step s (c, x)) o < balance_of s o ->
  let d := balance_of s o - balance_of (step s (c, x)) o in
  (c = o /\ (exists to, x = OTransfer to d) \/ c = o /\ x = OBurn d) \/
  ((exists to, x = OTransferFrom o to d) \/ x = OBurnFrom o d) /\
   (allowance s o c = U256_MAX \/ d <= allowance s o c).
Proof. intros s o c x Hr. exact (debit_authorised o c x s (reachable_inv s Hr)). Qed.
Print Assumptions c03_debits_are_authorised.

Example c03_nonvacuous :
  let h := [(3, OTransferFrom 1 2 60); (1, OTransfer 2 5); (3, OBurnFrom 1 40); (3, OTransferFrom 1 2 1)] in
  reachable demo_state /\ hist_wf h /\ Forall (fun cx => public_op (snd cx)) h /\ no_approval 1 3 h /\
  allowance demo_state 1 3 = 100 /\ total_taken 1 3 h demo_state = 100 /\
  allowance (run h demo_state) 1 3 = 0.
Proof.
  cbv zeta. split; [exact demo_reachable|].
  split; [repeat constructor; unfold op_wf, is_u256, two256; cbn; lia|].
  split; [repeat constructor; exact I|].
  split; [repeat constructor; exact I|].
  repeat split; vm_compute; reflexivity.
Qed.

(** ** C04 *)
Theorem c04_events_are_a_complete_ledger :
  forall h, hist_wf h ->
  let s := run h init in
  (forall a, a <> 0 -> balance_of s a = sum_events (event_balance a) (log s)) /\
  total_supply s = sum_events event_supply (log s) /\
  (forall o sp, allowance s o sp <= last_approval o sp (log s) 0).
Proof.
  intros h Hh s. pose proof (ledger_run h init Hh inv_init ledger_init) as [H1 H2].
  split; [exact H1|]. split; [exact H2|]. exact (bounded_run h init Hh inv_init bounded_init).
Qed.
Print Assumptions c04_events_are_a_complete_ledger.

Example c04_nonvacuous :
  hist_wf demo_hist /\ length (log demo_state) = 7%nat /\
  sum_events (event_balance 2) (log demo_state) = 390 /\
  sum_events event_supply (log demo_state) = 940 /\ last_approval 1 3 (log demo_state) 0 = 250.
Proof. split; [exact demo_wf|]. repeat split; vm_compute; reflexivity. Qed.

(** ** C05 *)
(** Transaction level: any failing call leaves the whole state as it was. *)
Theorem c05_failed_transactions_change_nothing :
  forall s c x, is_ok (fst (tx (exec c x) s)) = false -> step s (c, x) = s.
Proof.
  intros s c x H. unfold step. cbn [fst snd].
  destruct (tx_cases (exec c x) s) as [(u & s' & E & Et)|[Hf Hs]]; [rewrite Et in H; discriminate|exact Hs].
Qed.
Print Assumptions c05_failed_transactions_change_nothing.

(** Library level: no write happens before the error in these calls. *)
Theorem c05_library_calls_fail_cleanly :
  forall s c a b v, reachable s -> is_u256 v ->
  (forall r s', transfer c a v s = (r, s') -> is_ok r = false -> s' = s) /\
  (forall r s', approve c a v s = (r, s') -> is_ok r = false -> s' = s) /\
  (forall r s', _mint a v s = (r, s') -> is_ok r = false -> s' = s) /\
  (forall r s', _burn a v s = (r, s') -> is_ok r = false -> s' = s) /\
  (forall r s', _update a b v s = (r, s') -> is_ok r = false -> s' = s).
Proof.
  intros s c a b v Hr Hv. pose proof (reachable_inv s Hr) as HI.
  split; [|split; [|split; [|split]]]; intros r s' E Hf.
  - destruct (transfer_spec s c a v HI Hv) as (_&_&H). destruct (H r s' E); [|assumption].
    intros ->; discriminate.
  - destruct (approve_spec s c a v) as (_&_&H). destruct (H r s' E); [|assumption].
    intros ->; discriminate.
  - destruct (mint_spec s a v HI Hv) as (_&_&H). destruct (H r s' E); [|assumption].
    intros ->; discriminate.
  - destruct (burn_spec s a v HI Hv) as (_&_&H). destruct (H r s' E); [|assumption].
    intros ->; discriminate.
  - destruct (update_cases a b v s HI Hv) as [(?&?&s1&E')|[(?&?&E')|[(?&?&s1&E')|(?&?&E')]]];
      rewrite E' in E; inversion E; subst; auto; discriminate.
Qed.
Print Assumptions c05_library_calls_fail_cleanly.

(** Library level: a failing transfer_from may have spent the allowance, nothing else. *)
Theorem c05_transfer_from_failure_frame :
  forall s c from to v r s', reachable s -> is_u256 v ->
  transfer_from c from to v s = (r, s') -> is_ok r = false ->
  same_balances s s' /\ total_supply s' = total_supply s /\ log s' = log s /\
  other_allowances_same s s' from c /\
  (allowance s' from c = allowance s from c \/
   allowance s' from c = allowance s from c - v).
Proof.
  intros s c from to v r s' Hr Hv E Hf.
  destruct (transfer_from_spec s c from to v (reachable_inv s Hr) Hv) as (_&_&H).
  destruct (H r s' E) as (H1&H2&H3&H4&H5&_); [intros ->; discriminate|].
  repeat split; auto. destruct H5 as [->|[_ ->]]; [auto|]. unfold allowance_after.
  destruct (allowance s from c =? U256_MAX) eqn:E'; [left; lia|auto].
Qed.
Print Assumptions c05_transfer_from_failure_frame.

(** ... and it really can: an allowance is spent by a transfer_from that fails. *)
Theorem c05_transfer_from_not_clean_at_library_level_refuted :
  exists s c from to v e s', reachable s /\ is_u256 v /\
    transfer_from c from to v s = (Err e, s') /\ allowance s' from c <> allowance s from c.
Proof.
  exists (run [(9, OMint 1 10); (1, OApprove 3 50)] init), 3, 1, 2, 20, (InsufficientBalance 1 10 20).
  eexists. split.
  { eexists. split; [|reflexivity]. repeat constructor; unfold op_wf, is_u256, two256; cbn; lia. }
  split; [unfold is_u256, two256; lia|]. split; [reflexivity|]. vm_compute. discriminate.
Qed.
Print Assumptions c05_transfer_from_not_clean_at_library_level_refuted.

Example c05_nonvacuous :
  reachable demo_state /\ is_ok (fst (tx (exec 3 (OTransferFrom 1 2 101)) demo_state)) = false /\
  is_ok (fst (_mint 4 (two256 - 1) demo_state)) = false.
Proof. split; [exact demo_reachable|]. split; vm_compute; reflexivity. Qed.

(** ** C06 *)
Theorem c06_mint_exact :
  forall s a v, reachable s -> is_u256 v ->
  (fst (_mint a v s) = Ok tt <-> (a <> 0 /\ total_supply s + v < two256)) /\
  (forall s', _mint a v s = (Ok tt, s') ->
     balance_of s' a = balance_of s a + v /\
     (forall b, b <> a -> balance_of s' b = balance_of s b) /\
     total_supply s' = total_supply s + v /\ same_allowances s s' /\
     log s' = log s ++ [Transfer 0 a v]) /\
  (forall r s', _mint a v s = (r, s') -> r <> Ok tt ->
     s' = s /\ (r = if a =? 0 then Err (InvalidReceiver 0) else Panic)).
Proof. intros s a v Hr. exact (mint_spec s a v (reachable_inv s Hr)). Qed.
Print Assumptions c06_mint_exact.

Theorem c06_burn_exact :
  forall s a v, reachable s -> is_u256 v ->
  (fst (_burn a v s) = Ok tt <-> (a <> 0 /\ v <= balance_of s a)) /\
  (forall s', _burn a v s = (Ok tt, s') ->
     balance_of s' a = balance_of s a - v /\
     (forall b, b <> a -> balance_of s' b = balance_of s b) /\
     total_supply s' = total_supply s - v /\ same_allowances s s' /\
     log s' = log s ++ [Transfer a 0 v]) /\
  (forall r s', _burn a v s = (r, s') -> r <> Ok tt ->
     s' = s /\ (r = if a =? 0 then Err (InvalidSender 0)
                    else Err (InsufficientBalance a (balance_of s a) v))).
Proof. intros s a v Hr. exact (burn_spec s a v (reachable_inv s Hr)). Qed.
Print Assumptions c06_burn_exact.

Theorem c06_burn_from_exact :
  forall s c a v, reachable s -> is_u256 v ->
  (fst (burn_from c a v s) = Ok tt <->
     (c <> 0 /\ a <> 0 /\ v <= balance_of s a /\
      (allowance s a c = U256_MAX \/ v <= allowance s a c))) /\
  (forall s', burn_from c a v s = (Ok tt, s') ->
     balance_of s' a = balance_of s a - v /\
     (forall b, b <> a -> balance_of s' b = balance_of s b) /\
     total_supply s' = total_supply s - v /\
     allowance s' a c =
       (if allowance s a c =? U256_MAX then U256_MAX else allowance s a c - v) /\
     other_allowances_same s s' a c /\
     log s' = log s ++ [Transfer a 0 v]).
Proof. intros s c a v Hr. exact (burn_from_spec s c a v (reachable_inv s Hr)). Qed.
Print Assumptions c06_burn_from_exact.

Example c06_nonvacuous :
  reachable demo_state /\ is_ok (fst (_mint 7 (two256 - 941) demo_state)) = true /\
  is_ok (fst (_burn 2 390 demo_state)) = true /\ is_ok (fst (_burn 2 391 demo_state)) = false /\
  fst (_mint 7 (two256 - 940) demo_state) = Panic /\
  is_ok (fst (burn_from 3 1 100 demo_state)) = true.
Proof. split; [exact demo_reachable|]. repeat split; vm_compute; reflexivity. Qed.
