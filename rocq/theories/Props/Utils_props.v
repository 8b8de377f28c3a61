(** Property theorems for Nonces (C27, C67) and Pausable (C26). *)
From Verif.Base Require Import Prelude Maps.
From Verif.Model Require Nonces Pausable.
From Verif.Spec Require Import Utils_spec.
From stdpp Require Import gmap.
#[global] Open Scope Z_scope.

(** ** C27 *)
Module N := Nonces.

Lemma use_nonce_eq a s :
  N.use_nonce a s =
  if N.nonces s a + 1 <? two256
  then (Ok (N.nonces s a), N.mk (mset (N.nonce_map s) a (N.nonces s a + 1)))
  else (Panic, s).
Proof. unfold N.use_nonce. mred. destruct (_ <? _); reflexivity. Qed.

(** [use_nonce] returns the current nonce and increments it, touching no other account;
    it fails (by panic, without effect) only when the nonce is 2^256-1. *)
Theorem c27_use_nonce_exact :
  forall s a,
  (N.nonces s a < two256 - 1 ->
     exists s', N.use_nonce a s = (Ok (N.nonces s a), s') /\
       N.nonces s' a = N.nonces s a + 1 /\
       forall b, b <> a -> N.nonces s' b = N.nonces s b) /\
  (two256 - 1 <= N.nonces s a -> N.use_nonce a s = (Panic, s)).
Proof.
  intros s a. rewrite use_nonce_eq. destruct (Z.ltb_spec (N.nonces s a + 1) two256); split; intros; try lia.
  - eexists. split; [reflexivity|]. unfold N.nonces; cbn. split; [apply mget_set_eq|].
    intros b Hb. apply mget_set_ne. congruence.
  - reflexivity.
Qed.
Print Assumptions c27_use_nonce_exact.

(** [use_checked_nonce] succeeds iff the given nonce is the current one, and reports the
    current one otherwise. *)
Theorem c27_use_checked_nonce_exact :
  forall s a n, N.nonces s a < two256 - 1 ->
  (n = N.nonces s a ->
     exists s', N.use_checked_nonce a n s = (Ok tt, s') /\ N.nonces s' a = n + 1 /\
       forall b, b <> a -> N.nonces s' b = N.nonces s b) /\
  (n <> N.nonces s a ->
     fst (N.use_checked_nonce a n s) = Err (N.InvalidAccountNonce a (N.nonces s a)) /\
     snd (tx (N.use_checked_nonce a n) s) = s).
Proof.
  intros s a n Hlt. unfold N.use_checked_nonce, tx, bind. rewrite use_nonce_eq.
  replace (N.nonces s a + 1 <? two256) with true by lia. unfold fail_if.
  split; intros Hn.
  - replace (n =? N.nonces s a) with true by lia. cbn [negb]. eexists. split; [reflexivity|].
    unfold N.nonces in *; cbn. split; [rewrite mget_set_eq; lia|]. intros b Hb. apply mget_set_ne. congruence.
  - replace (n =? N.nonces s a) with false by lia. cbn [negb]. split; reflexivity.
Qed.
Print Assumptions c27_use_checked_nonce_exact.

Lemma nonce_step_cases s o a :
  (exists n, fst (tx (N.exec o) s) = Ok n /\ n = N.nonces s (nonce_op_owner o) /\
     N.nonces (N.step s o) a = N.nonces s a + (if nonce_op_owner o =? a then 1 else 0)) \/
  (is_ok (fst (tx (N.exec o) s)) = false /\ N.step s o = s).
Proof.
  unfold N.step, tx. destruct o as [b|b m]; cbn [N.exec nonce_op_owner];
    unfold N.use_checked_nonce, bind, fail_if; rewrite use_nonce_eq;
    destruct (N.nonces s b + 1 <? two256); try (right; split; reflexivity).
  - left. eexists. split; [reflexivity|]. split; [reflexivity|]. unfold N.nonces; cbn.
    rewrite mget_set. destruct (decide (b = a)) as [->|Hne]; [rewrite Z.eqb_refl; lia|].
    replace (b =? a) with false by lia. lia.
  - destruct (m =? N.nonces s b) eqn:Em; cbn [negb]; [|right; split; reflexivity].
    left. eexists. split; [reflexivity|]. split; [lia|]. unfold N.nonces; cbn.
    rewrite mget_set. destruct (decide (b = a)) as [->|Hne]; [rewrite Z.eqb_refl; lia|].
    replace (b =? a) with false by lia. lia.
Qed.

Lemma handed_out_from a h : forall s (k : nat), N.nonces s a = Z.of_nat k ->
  handed_out a h s = map Z.of_nat (seq k (length (handed_out a h s))) /\
  N.nonces (N.run h s) a = Z.of_nat (k + length (handed_out a h s)).
Proof.
  induction h as [|o h IH]; intros s k Hk.
  - cbn. split; [reflexivity|]. rewrite Hk. lia.
  - cbn [handed_out N.run fold_left]. fold (N.run h (N.step s o)).
    destruct (nonce_step_cases s o a) as [(n & E & Hn & Hs)|[E Hs]].
    + rewrite E. destruct (Z.eqb_spec (nonce_op_owner o) a) as [Eo|Eo].
      * destruct (IH (N.step s o) (S k)) as [H1 H2]; [lia|].
        cbn [app length seq map]. split.
        -- f_equal; [rewrite Hn, Eo; exact Hk|exact H1].
        -- rewrite H2. lia.
      * destruct (IH (N.step s o) k) as [H1 H2]; [lia|]. cbn [app]. split; [exact H1|exact H2].
    + destruct (fst (tx (N.exec o) s)); try discriminate E; rewrite Hs; cbn [app]; apply IH; exact Hk.
Qed.

(** Over every history of transactions, the values consumed for an account are
    0, 1, 2, ... without gap or repetition, whatever happens to other accounts, and the
    public getter counts them. *)
Theorem c27_handed_out_in_order :
  forall h a,
  let l := handed_out a h N.init in
  l = count_up (length l) /\ N.nonces (N.run h N.init) a = Z.of_nat (length l).
Proof.
  intros h a l. apply (handed_out_from a h N.init 0). unfold N.nonces. apply mget_empty.
Qed.
Print Assumptions c27_handed_out_in_order.

(** No digest can be replayed: the same (account, nonce) pair is accepted at most once. *)
Theorem c27_checked_nonce_accepted_once :
  forall h1 h2 a n,
  let s := N.run h1 N.init in
  is_ok (fst (N.use_checked_nonce a n s)) = true ->
  is_ok (fst (N.use_checked_nonce a n (N.run h2 (N.step s (N.OUseChecked a n))))) = false.
Proof.
  intros h1 h2 a n s Hok.
  destruct (c27_handed_out_in_order h1 a) as [_ Hk]. fold s in Hk.
  destruct (nonce_step_cases s (N.OUseChecked a n) a) as [(m & E & Hm & Hs)|[E Hs]].
  - cbn [nonce_op_owner] in *. rewrite Z.eqb_refl in Hs.
    assert (Hn : n = N.nonces s a).
    { revert Hok. unfold N.use_checked_nonce, bind, fail_if. rewrite use_nonce_eq.
      destruct (_ <? _); [|discriminate]. destruct (n =? N.nonces s a) eqn:En; [lia|discriminate]. }
    destruct (handed_out_from a h2 (N.step s (N.OUseChecked a n)) (S (length (handed_out a h1 N.init)))) as [_ H2]; [lia|].
    revert H2. generalize (N.run h2 (N.step s (N.OUseChecked a n))). intros s2 H2.
    unfold N.use_checked_nonce, bind, fail_if. rewrite use_nonce_eq.
    destruct (_ <? _); [|reflexivity]. replace (n =? N.nonces s2 a) with false by lia. reflexivity.
  - exfalso. revert E. unfold N.exec, tx, bind. revert Hok.
    destruct (N.use_checked_nonce a n s) as [[[]| |] ?]; cbn; congruence.
Qed.
Print Assumptions c27_checked_nonce_accepted_once.

Definition nonce_demo : list N.op :=
  [N.OUse 7; N.OUse 8; N.OUseChecked 7 1; N.OUseChecked 7 1; N.OUseChecked 8 5; N.OUse 7].
Example c27_nonvacuous :
  handed_out 7 nonce_demo N.init = [0; 1; 2] /\ handed_out 8 nonce_demo N.init = [0] /\
  N.nonces (N.run nonce_demo N.init) 7 = 3 /\ N.nonces (N.run nonce_demo N.init) 7 < two256 - 1.
Proof. repeat split. Qed.
Example c27_overflow_case_nonvacuous :
  N.use_nonce 5 (N.mk {[5 := two256 - 1]}) = (Panic, N.mk {[5 := two256 - 1]}).
Proof. reflexivity. Qed.

(** ** C67: the full claim is false at library level. [use_checked_nonce] writes the
    incremented nonce before comparing, so a caller that handles the error (instead of
    letting the transaction revert) has burnt the nonce. *)
Theorem c67_rejected_nonce_not_consumed_refuted :
  exists s a n e s', N.use_checked_nonce a n s = (Err e, s') /\
    N.nonces s' a <> N.nonces s a.
Proof.
  exists N.init, 1, 5, (N.InvalidAccountNonce 1 0). eexists. split; [vm_compute; reflexivity|].
  vm_compute. discriminate.
Qed.
Print Assumptions c67_rejected_nonce_not_consumed_refuted.

(** What does hold: the failing call consumes exactly one nonce of exactly that account
    at library level, and consumes nothing when the error is propagated to the
    transaction boundary. *)
Theorem c67_rejected_nonce_consumes_one_unless_reverted_partial :
  forall s a n e s', N.use_checked_nonce a n s = (Err e, s') ->
  e = N.InvalidAccountNonce a (N.nonces s a) /\ n <> N.nonces s a /\
  N.nonces s' a = N.nonces s a + 1 /\
  (forall b, b <> a -> N.nonces s' b = N.nonces s b) /\
  tx (N.use_checked_nonce a n) s = (Err e, s).
Proof.
  intros s a n e s' H. assert (H0 : tx (N.use_checked_nonce a n) s = (Err e, s)) by (unfold tx; rewrite H; reflexivity).
  rewrite H0. revert H. unfold N.use_checked_nonce, bind, fail_if.
  rewrite use_nonce_eq. destruct (_ <? _); [|discriminate].
  destruct (n =? N.nonces s a) eqn:En; cbn [negb]; [discriminate|]. intros H. inversion H; subst.
  split; [reflexivity|]. split; [lia|]. unfold N.nonces; cbn. split; [apply mget_set_eq|].
  split; [intros b Hb; apply mget_set_ne; congruence|]. reflexivity.
Qed.
Print Assumptions c67_rejected_nonce_consumes_one_unless_reverted_partial.
Example c67_nonvacuous :
  fst (N.use_checked_nonce 7 9 (N.run nonce_demo N.init)) = Err (N.InvalidAccountNonce 7 3).
Proof. reflexivity. Qed.

(** ** C26 *)
Module P := Pausable.

(** Each call succeeds exactly in the right state, with exactly one event; otherwise the
    documented error and no effect, even at library level. *)
Theorem c26_pause_unpause_exact :
  forall s c,
  P.pause c s = (if P.paused s then (Err P.EnforcedPause, s)
                 else (Ok tt, P.mk true (P.log s ++ [P.Paused c]))) /\
  P.unpause c s = (if P.paused s then (Ok tt, P.mk false (P.log s ++ [P.Unpaused c]))
                   else (Err P.ExpectedPause, s)) /\
  P.when_not_paused s = (if P.paused s then Err P.EnforcedPause else Ok tt, s) /\
  P.when_paused s = (if P.paused s then Ok tt else Err P.ExpectedPause, s).
Proof.
  intros [b l] c. unfold P.pause, P.unpause, P.when_not_paused, P.when_paused. mred.
  destruct b; cbn; repeat split; reflexivity.
Qed.
Print Assumptions c26_pause_unpause_exact.

Definition PInv (s : P.state) : Prop :=
  alternates true (P.log s) /\ P.paused s = negb (Nat.even (length (P.log s))).

Lemma alternates_snoc l e : forall b,
  alternates b l -> is_pause e = xorb (negb b) (Nat.even (length l)) -> alternates b (l ++ [e]).
Proof.
  induction l as [|x l IH]; intros b H He; cbn [alternates app length] in *.
  - split; [|exact I]. rewrite He. destruct b; reflexivity.
  - destruct H as [H1 H2]. split; [exact H1|]. apply IH; [exact H2|]. rewrite He.
    rewrite Nat.even_succ, <- Nat.negb_even. destruct b, (Nat.even (length l)); reflexivity.
Qed.

Lemma pinv_step s co : PInv s -> PInv (P.step s co).
Proof.
  intros [Ha Hp]. destruct co as [c [|]]; unfold P.step, tx; cbn [fst snd P.exec].
  - destruct (c26_pause_unpause_exact s c) as (-> & _). destruct (P.paused s) eqn:E; cbn; [split; congruence|].
    split; cbn.
    + apply alternates_snoc; [exact Ha|]. cbn. destruct (Nat.even _); [reflexivity|discriminate].
    + rewrite app_length, Nat.add_comm, Nat.add_1_l, Nat.even_succ, <- Nat.negb_even.
      destruct (Nat.even _); [reflexivity|discriminate].
  - destruct (c26_pause_unpause_exact s c) as (_ & -> & _). destruct (P.paused s) eqn:E; cbn; [|split; congruence].
    split; cbn.
    + apply alternates_snoc; [exact Ha|]. cbn. destruct (Nat.even _); [discriminate|reflexivity].
    + rewrite app_length, Nat.add_comm, Nat.add_1_l, Nat.even_succ, <- Nat.negb_even.
      destruct (Nat.even _); [discriminate|reflexivity].
Qed.

Lemma pinv_run h : forall s, PInv s -> PInv (P.run h s).
Proof. induction h as [|x h IH]; intros s H; [exact H|]. apply IH, pinv_step, H. Qed.

Lemma paused_run h : forall s, P.paused (P.run h s) = last_kind (P.paused s) h.
Proof.
  induction h as [|[c o] h IH]; intros s; [reflexivity|].
  cbn [P.run fold_left last_kind]. fold (P.run h (P.step s (c, o))). rewrite IH.
  unfold P.step, tx. destruct (c26_pause_unpause_exact s c) as (E1 & E2 & _).
  destruct o; cbn [fst snd P.exec]; [rewrite E1|rewrite E2];
    destruct (P.paused s) eqn:E; cbn; rewrite ?E; reflexivity.
Qed.

(** Over every history from deployment: the flag is the kind of the last call of the
    history (every successful call sets it, every failing one asked for the value it
    already had), events alternate starting with Paused, and the flag can be read off the
    last event. *)
Theorem c26_state_machine :
  forall h,
  let s := P.run h P.init in
  P.paused s = last_kind false h /\
  alternates true (P.log s) /\
  (P.log s = [] -> P.paused s = false) /\
  (forall l e, P.log s = l ++ [e] -> P.paused s = is_pause e).
Proof.
  intros h s. split; [apply (paused_run h P.init)|].
  assert (HI : PInv s) by (apply pinv_run; split; [exact I|reflexivity]).
  destruct HI as [Ha Hp]. split; [exact Ha|]. split; [intros E; rewrite Hp, E; reflexivity|].
  intros l e E. rewrite E in Ha, Hp. rewrite Hp, app_length, Nat.add_comm, Nat.add_1_l, Nat.even_succ, <- Nat.negb_even, negb_involutive.
  clear -Ha. assert (G : forall b, alternates b (l ++ [e]) -> is_pause e = xorb (negb b) (Nat.even (length l))).
  { clear. induction l as [|x l IH]; intros b H; cbn [alternates app length] in *.
    - destruct H as [H _]. rewrite H. destruct b; reflexivity.
    - destruct H as [_ H]. rewrite (IH _ H), Nat.even_succ, <- Nat.negb_even.
      destruct b, (Nat.even (length l)); reflexivity. }
  rewrite (G true Ha). destruct (Nat.even (length l)); reflexivity.
Qed.
Print Assumptions c26_state_machine.
Example c26_nonvacuous :
  let h := [(1, P.OUnpause); (1, P.OPause); (2, P.OPause); (3, P.OUnpause); (4, P.OPause)] in
  P.run h P.init = P.mk true [P.Paused 1; P.Unpaused 3; P.Paused 4].
Proof. reflexivity. Qed.
