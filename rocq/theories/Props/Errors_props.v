(** C84: which error a failing call reports. *)
From Verif.Base Require Import Prelude Maps.
From Verif.Model Require Erc20 Pausable Erc20Example Erc721 Erc1155 AccessControl SafeErc20 Erc20World Wrapper Erc4626 Math.
From Verif.Spec Require Import Erc20_spec World_spec Errors_spec.
From Verif.Spec Require Erc4626_spec.
From Verif.Proofs Require Import Erc20_inv World_lemmas.
From Verif.Proofs Require Erc4626_lemmas.
From Verif.Props Require Wrapper_props.
From stdpp Require Import gmap.
#[global] Open Scope Z_scope.
#[local] Open Scope list_scope.

Lemma bal_allow o sp x s a : Erc20.balance_of (Erc20.set_allowance o sp x s) a = Erc20.balance_of s a.
Proof. reflexivity. Qed.

Ltac sift :=
  repeat (match goal with |- context [if ?x then _ else _] => destruct x eqn:? end; mred;
          cbn [first_failing app outcome fst Erc20Example.erc20 Erc20Example.cap Erc20Example.pausable]; rewrite ?bal_allow); try reflexivity; try congruence; try lia.

(** ** ERC-20, from every state *)
Theorem c84_erc20 :
  forall s c a b v,
  outcome (fst (Erc20.transfer c b v s)) = first_failing (erc20_move s c b v) /\
  outcome (fst (Erc20.transfer_from c a b v s)) = first_failing (erc20_spending s a c v ++ erc20_move s a b v) /\
  outcome (fst (Erc20.approve c b v s)) =
    first_failing [(c =? 0, Err (Erc20.InvalidApprover 0)); (b =? 0, Err (Erc20.InvalidSpender 0))] /\
  outcome (fst (Erc20.burn c v s)) = first_failing (erc20_debit s c v) /\
  outcome (fst (Erc20.burn_from c a v s)) = first_failing (erc20_spending s a c v ++ erc20_debit s a v) /\
  outcome (fst (Erc20._mint b v s)) = first_failing (erc20_mint s b v).
Proof.
  intros s c a b v.
  unfold Erc20.transfer_from, Erc20.burn_from, Erc20.transfer, Erc20.approve, Erc20.burn, Erc20._mint,
    Erc20._burn, Erc20._transfer, Erc20._spend_allowance, Erc20._approve, Erc20._update,
    erc20_spending, erc20_debit, erc20_move, erc20_mint, Erc20.total_supply.
  repeat split; mred; sift.
Qed.
Print Assumptions c84_erc20.

(** ** examples/erc20, from every state: paused first, then the cap, then the token *)
Theorem c84_erc20_example :
  forall s c a b v,
  let t := Erc20Example.erc20 s in
  let up l := lift_checks Erc20Example.Erc20Error l in
  outcome (fst (Erc20Example.transfer c b v s)) = first_failing (ex20_running s ++ up (erc20_move t c b v)) /\
  outcome (fst (Erc20Example.transfer_from c a b v s)) =
    first_failing (ex20_running s ++ up (erc20_spending t a c v ++ erc20_move t a b v)) /\
  outcome (fst (Erc20Example.burn c v s)) = first_failing (ex20_running s ++ up (erc20_debit t c v)) /\
  outcome (fst (Erc20Example.burn_from c a v s)) =
    first_failing (ex20_running s ++ up (erc20_spending t a c v ++ erc20_debit t a v)) /\
  outcome (fst (Erc20Example.mint b v s)) =
    first_failing (ex20_running s ++
      [(two256 <=? Erc20.total_supply t + v, Panic);
       (Erc20Example.cap s <? Erc20.total_supply t + v,
        Err (Erc20Example.ExceededCap (Erc20.total_supply t + v) (Erc20Example.cap s)))] ++
      up (erc20_mint t b v)) /\
  outcome (fst (Erc20Example.pause c s)) = first_failing (ex20_running s) /\
  outcome (fst (Erc20Example.unpause c s)) =
    first_failing [(negb (Pausable.paused (Erc20Example.pausable s)), Err (Erc20Example.PausableError Pausable.ExpectedPause))].
Proof.
  intros s c a b v t up. unfold t, up, Erc20Example.transfer, Erc20Example.transfer_from, Erc20Example.burn,
    Erc20Example.burn_from, Erc20Example.mint, Erc20Example.pause, Erc20Example.unpause,
    Erc20Example.when_not_paused, Erc20Example.on_pausable, Erc20Example.on_erc20, ex20_running,
    Pausable.pause, Pausable.unpause, Pausable.when_not_paused, Pausable.when_paused,
    Erc20.transfer_from, Erc20.burn_from, Erc20.transfer, Erc20.approve, Erc20.burn, Erc20._mint,
    Erc20._burn, Erc20._transfer, Erc20._spend_allowance, Erc20._approve, Erc20._update,
    erc20_spending, erc20_debit, erc20_move, erc20_mint, Erc20.total_supply, lift_checks.
  repeat split; mred; cbn [map app fst snd]; sift.
Qed.
Print Assumptions c84_erc20_example.

(** ** ERC-721, from every state; the caller is not the zero address *)
Lemma may_move_authorized s c id : c <> 0 ->
  Erc721._is_authorized (Erc721._owner_of id s) c id s = erc721_may_move s c id.
Proof.
  intros Hc. unfold Erc721._is_authorized, erc721_may_move. replace (c =? 0) with false by lia. cbn [negb andb].
  rewrite (Z.eqb_sym c (Erc721._owner_of id s)), (Z.eqb_sym c (Erc721._get_approved id s)). reflexivity.
Qed.
Theorem c84_erc721 :
  forall s c from to id b, c <> 0 ->
  outcome (fst (Erc721.transfer_from c from to id s)) =
    first_failing ([(to =? 0, Err (Erc721.InvalidReceiver 0))] ++ erc721_auth s c id ++ erc721_from s from id) /\
  outcome (fst (Erc721.burn c id s)) = first_failing (erc721_auth s c id) /\
  outcome (fst (Erc721.approve c to id s)) =
    (let o := Erc721._owner_of id s in
     first_failing [(o =? 0, Err (Erc721.NonexistentToken id));
                    (negb ((o =? c) || Erc721.is_approved_for_all o c s), Err (Erc721.InvalidApprover c))]) /\
  outcome (fst (Erc721.set_approval_for_all c to b s)) = first_failing [(to =? 0, Err (Erc721.InvalidOperator 0))] /\
  outcome (fst (Erc721._mint to id s)) =
    first_failing [(to =? 0, Err (Erc721.InvalidReceiver 0));
                   (negb (Erc721._owner_of id s =? 0), Err (Erc721.InvalidSender 0))] /\
  outcome (fst (Erc721._burn id s)) = first_failing [(Erc721._owner_of id s =? 0, Err (Erc721.NonexistentToken id))] /\
  outcome (fst (Erc721._transfer from to id s)) =
    first_failing ([(to =? 0, Err (Erc721.InvalidReceiver 0));
                    (Erc721._owner_of id s =? 0, Err (Erc721.NonexistentToken id))] ++ erc721_from s from id).
Proof.
  intros s c from to id b Hc.
  unfold Erc721.transfer_from, Erc721.burn, Erc721.approve, Erc721.set_approval_for_all,
    Erc721._set_approval_for_all, Erc721._mint, Erc721._burn, Erc721._transfer, Erc721._update,
    Erc721._check_authorized, Erc721._approve, Erc721._require_owned, Erc721.emit, erc721_auth, erc721_from.
  rewrite <- may_move_authorized by exact Hc.
  repeat split; mred; rewrite ?orb_false_l; cbn [negb Z.eqb].
  all: replace (c =? 0) with false by lia; cbn [negb andb orb].
  all: repeat (match goal with |- context [if ?x then _ else _] => destruct x eqn:? end; mred;
          cbn [first_failing app outcome fst]); try reflexivity; try congruence.
  all: try lia.
  apply Z.eqb_eq in Heqb0. subst to. reflexivity.
Qed.
Print Assumptions c84_erc721.

(** The safe variants: the same checks, then the receiver's answer in the state after the move. *)
Lemma outcome_then {S E A B} (m : M S E A) (k : M S E B) (l l' : list (check E)) s :
  outcome (fst (m s)) = first_failing l ->
  (forall c r, In (c, r) l -> r <> Ok tt) ->
  (first_failing l = Ok tt -> outcome (fst (k (snd (m s)))) = first_failing l') ->
  outcome (fst (bind m (fun _ => k) s)) = first_failing (l ++ l').
Proof.
  intros H Hn Hk. unfold bind. destruct (m s) as [r s1]. cbn [fst snd] in *.
  induction l as [|[[] x] l IH]; cbn [first_failing app] in *.
  - destruct r; cbn in *; try discriminate. apply Hk. reflexivity.
  - pose proof (Hn true x ltac:(left; reflexivity)).
    destruct r; cbn in *; try (rewrite <- H; reflexivity). congruence.
  - apply IH; [exact H|intros c0 r0 Hin; apply (Hn c0 r0); right; exact Hin|exact Hk].
Qed.
Ltac errors_only := intros ? ? Hin; cbn in Hin;
  repeat match type of Hin with _ \/ _ => destruct Hin as [Hin|Hin] | False => destruct Hin end;
  inversion Hin; discriminate.

Lemma answer721 (has_code : Z -> bool) (h : Erc721.handler) op from to id data s :
  outcome (fst (Erc721._check_on_erc721_received has_code h op from to id data s)) =
  first_failing (erc721_answer has_code to (fst (h to op from id data s))).
Proof.
  unfold Erc721._check_on_erc721_received, erc721_answer. destruct (has_code to); [|reflexivity]. cbn [negb]. mred.
  destruct (h to op from id data s) as [[v|[|x r]] s2]; cbn [fst first_failing]; try reflexivity.
  change Erc721.RECEIVER_FN_SELECTOR with 0x150b7a02. destruct (v =? 0x150b7a02); reflexivity.
Qed.
Theorem c84_erc721_safe :
  forall (has_code : Z -> bool) (h : Erc721.handler) s c from to id data, c <> 0 ->
  outcome (fst (Erc721.safe_transfer_from_with_data has_code h c from to id data s)) =
    first_failing (([(to =? 0, Err (Erc721.InvalidReceiver 0))] ++ erc721_auth s c id ++ erc721_from s from id) ++
      erc721_answer has_code to (fst (h to c from id data (snd (Erc721.transfer_from c from to id s))))) /\
  outcome (fst (Erc721._safe_mint has_code h c to id data s)) =
    first_failing ([(to =? 0, Err (Erc721.InvalidReceiver 0));
                    (negb (Erc721._owner_of id s =? 0), Err (Erc721.InvalidSender 0))] ++
      erc721_answer has_code to (fst (h to c 0 id data (snd (Erc721._mint to id s))))) /\
  outcome (fst (Erc721._safe_transfer has_code h c from to id data s)) =
    first_failing (([(to =? 0, Err (Erc721.InvalidReceiver 0));
                     (Erc721._owner_of id s =? 0, Err (Erc721.NonexistentToken id))] ++ erc721_from s from id) ++
      erc721_answer has_code to (fst (h to c from id data (snd (Erc721._transfer from to id s))))).
Proof.
  intros has_code h s c from to id data Hc.
  destruct (c84_erc721 s c from to id true Hc) as (T & _ & _ & _ & Mi & _ & Tr).
  split; [|split].
  - apply outcome_then; [exact T|errors_only|]. intros _. apply answer721.
  - apply outcome_then; [exact Mi|errors_only|]. intros _. apply answer721.
  - apply outcome_then; [exact Tr|errors_only|]. intros _. apply answer721.
Qed.
Print Assumptions c84_erc721_safe.

(** ** ERC-1155, from every state whose balances are 256-bit words *)
Lemma bal1155_set a id v s a' id' :
  Erc1155.balance_of a' id' (Erc1155.set_balance a id v s) =
  if (a' =? a) && (id' =? id) then v else Erc1155.balance_of a' id' s.
Proof.
  unfold Erc1155.balance_of, Erc1155.set_balance. cbn [Erc1155.balances]. rewrite getd_set.
  destruct (decide (id = id')) as [->|Hi].
  - rewrite mget_set. destruct (decide (a = a')) as [->|Ha].
    + rewrite !Z.eqb_refl. reflexivity.
    + replace (a' =? a) with false by lia. reflexivity.
  - replace (id' =? id) with false by lia. rewrite andb_false_r. reflexivity.
Qed.
Lemma batch_sum_snoc id l i v : batch_sum id (l ++ [(i, v)]) = batch_sum id l + (if i =? id then v else 0).
Proof. induction l as [|[j w] l IH]; cbn; [lia|]. rewrite IH. lia. Qed.
Lemma batch_never_ok s from to : forall todo done c r, In (c, r) (batch_checks s from to done todo) -> r <> Ok tt.
Proof.
  induction todo as [|[id v] todo IH]; intros done c r Hin; [destruct Hin|].
  destruct Hin as [H|[H|H]]; [inversion H; discriminate|inversion H; discriminate|]. eapply IH, H.
Qed.
Lemma do_updates_outcome s from to : forall todo done t,
  Forall (fun e => is_u256 (snd e)) todo ->
  (forall a id, is_u256 (Erc1155.balance_of a id t)) ->
  (forall a id, Erc1155.balance_of a id t = held s from to done done a id) ->
  outcome (fst (Erc1155.do_updates from to todo t)) = first_failing (batch_checks s from to done todo).
Proof.
  induction todo as [|[id v] todo IH]; intros done t Hv Hr Ht; [reflexivity|].
  inversion Hv as [|? ? Hv0 Hv']; subst. cbn [snd] in Hv0.
  cbn [Erc1155.do_updates batch_checks]. unfold Erc1155.do_update. mred.
  rewrite <- Ht. pose proof (Hr from id) as Rf. unfold is_u256 in Hv0, Rf.
  assert (K : forall t', (forall a i, is_u256 (Erc1155.balance_of a i t')) ->
    (forall a i, Erc1155.balance_of a i t' = held s from to (done ++ [(id, v)]) done a i) ->
    outcome (fst ((let (r, s') := if negb (to =? 0)
       then (if Erc1155.balance_of to id t' + v <? two256
             then (Ok tt, Erc1155.set_balance to id (Erc1155.balance_of to id t' + v) t')
             else (Panic, t')) else (Ok tt, t') in
      match r with Ok _ => Erc1155.do_updates from to todo s' | Err e => (Err e, s') | Panic => (Panic, s') end))) =
    first_failing ((negb (to =? 0) && (two256 <=? held s from to (done ++ [(id, v)]) done to id + v), Panic)
                   :: batch_checks s from to (done ++ [(id, v)]) todo)).
  { intros t' Hr' Ht'. cbn [first_failing]. rewrite <- Ht'. pose proof (Hr' to id) as Rt. unfold is_u256 in Rt.
    destruct (Z.eqb_spec to 0) as [E|E]; cbn [negb andb].
    - apply IH; [exact Hv'|exact Hr'|]. intros a i. rewrite Ht'. unfold held.
      replace (to =? 0) with true by lia. cbn [negb]. rewrite !andb_false_r. reflexivity.
    - destruct (Z.ltb_spec (Erc1155.balance_of to id t' + v) two256).
      + replace (two256 <=? Erc1155.balance_of to id t' + v) with false by lia.
        apply IH; [exact Hv'| |].
        * intros a i. rewrite bal1155_set. destruct (_ && _); [unfold is_u256; lia|apply Hr'].
        * intros a i. rewrite bal1155_set, !Ht'. unfold held. rewrite !batch_sum_snoc.
          rewrite (Z.eqb_sym id i).
          destruct (Z.eqb_spec a to) as [->|]; cbn [andb]; [|lia].
          replace (to =? 0) with false by lia. cbn [negb].
          destruct (Z.eqb_spec i id) as [->|]; cbn [andb]; rewrite ?Z.eqb_refl; cbn [andb]; destruct ((to =? from) && _); lia.
      + replace (two256 <=? Erc1155.balance_of to id t' + v) with true by lia. reflexivity. }
  cbn [first_failing].
  destruct (Z.eqb_spec from 0) as [E|E]; cbn [negb andb].
  - refine (eq_trans _ (K t _ _)).
    + destruct (negb (to =? 0)); [|reflexivity]. destruct (_ <? two256); reflexivity.
    + exact Hr.
    + intros a i. rewrite Ht. unfold held. replace (from =? 0) with true by lia. cbn [negb].
      rewrite !andb_false_r. reflexivity.
  - destruct (Z.ltb_spec (Erc1155.balance_of from id t) v); [reflexivity|].
    set (t1 := Erc1155.set_balance from id (wsub (Erc1155.balance_of from id t) v) t).
    refine (eq_trans _ (K t1 _ _)).
    + destruct (negb (to =? 0)); [|reflexivity]. destruct (_ <? two256); reflexivity.
    + intros a i. unfold t1. rewrite bal1155_set.
      destruct ((a =? from) && (i =? id)); [apply wsub_range|apply Hr].
    + intros a i. unfold t1. rewrite bal1155_set, wsub_small by lia. rewrite !Ht. unfold held. rewrite !batch_sum_snoc.
      rewrite (Z.eqb_sym id i).
      destruct (Z.eqb_spec a from) as [->|]; cbn [andb]; [|reflexivity].
      replace (from =? 0) with false by lia. cbn [negb].
      destruct (Z.eqb_spec i id) as [->|]; rewrite ?Z.eqb_refl; cbn [andb]; destruct ((from =? to) && negb (to =? 0)); lia.
Qed.

Section erc1155.
  Context (has_code : Z -> bool) (h : Erc1155.handler Erc1155.state).
  Notation words s := (forall a id, is_u256 (Erc1155.balance_of a id s)).

  Lemma update_outcome op from to ids values s :
    words s -> Forall is_u256 values ->
    outcome (fst (Erc1155._update op from to ids values s)) = first_failing (erc1155_update s from to ids values).
  Proof.
    intros Hw Hv. unfold Erc1155._update, Erc1155.require_equal_arrays_length, erc1155_update, erc1155_lengths. mred.
    cbn [app first_failing]. destruct (Nat.eqb (length ids) (length values)); cbn [negb]; [|reflexivity].
    assert (Hf : Forall (fun e => is_u256 (snd e)) (combine ids values)).
    { apply Forall_forall. intros [i v] Hin. apply elem_of_list_In in Hin. apply in_combine_r in Hin.
      apply elem_of_list_In in Hin. exact (proj1 (Forall_forall _ _) Hv v Hin). }
    pose proof (do_updates_outcome s from to (combine ids values) [] s Hf Hw) as K.
    assert (H0 : forall a id, Erc1155.balance_of a id s = held s from to [] [] a id).
    { intros a id. unfold held. cbn [batch_sum]. destruct (_ && _); destruct (_ && _); lia. }
    specialize (K H0). destruct (Erc1155.do_updates from to (combine ids values) s) as [[[]|e|] s1]; cbn [fst outcome] in K;
      rewrite <- K; try reflexivity.
    destruct ids as [|i [|? ?]]; [reflexivity| |reflexivity]. destruct values; reflexivity.
  Qed.
  Lemma answer1155 op from to (d : Z * Erc1155.transfer) data s :
    outcome (fst (Erc1155._check_on_erc1155_received has_code h op from to d data s)) =
    first_failing (erc1155_answer has_code to (fst d) (fst (h to op from (snd d) data s))).
  Proof.
    unfold Erc1155._check_on_erc1155_received, erc1155_answer. destruct (has_code to); [|reflexivity]. cbn [negb]. mred.
    destruct (h to op from (snd d) data s) as [[v|[|x r]] s2]; cbn [fst first_failing]; try reflexivity.
    destruct (v =? fst d); reflexivity.
  Qed.
  Lemma update_errors s from to ids values c r : In (c, r) (erc1155_update s from to ids values) -> r <> Ok tt.
  Proof.
    unfold erc1155_update, erc1155_lengths. intros Hin. apply in_app_or in Hin. destruct Hin as [[H|[]]|H].
    - inversion H. discriminate.
    - eapply batch_never_ok, H.
  Qed.
  Lemma hook_data ids values : length ids = length values ->
    Erc1155.receiver_data ids values = erc1155_hook ids values.
  Proof. destruct ids as [|i [|j l]], values as [|v [|w l']]; intros H; try reflexivity; discriminate H. Qed.
  Lemma equal_lengths s from to ids values :
    first_failing (erc1155_update s from to ids values) = Ok tt -> length ids = length values.
  Proof.
    unfold erc1155_update, erc1155_lengths. cbn [app first_failing].
    destruct (Nat.eqb_spec (length ids) (length values)); [auto|]. cbn. discriminate.
  Qed.
  (** The receiver is asked in the state after the move. *)
  Definition asked (op from to : Z) (ids values data : list Z) (s : Erc1155.state) : list (check Erc1155.error) :=
    let after := snd (Erc1155._update op from to ids values s) in
    erc1155_answer has_code to (fst (erc1155_hook ids values))
      (fst (h to op from (snd (erc1155_hook ids values)) data after)).
  Lemma accept_outcome op from to ids values data s :
    words s -> Forall is_u256 values -> to <> 0 ->
    outcome (fst (Erc1155._update_with_acceptance_check Erc1155.base has_code h op from to ids values data s)) =
    first_failing (erc1155_update s from to ids values ++ asked op from to ids values data s).
  Proof.
    intros Hw Hv Ht. unfold Erc1155._update_with_acceptance_check. replace (to =? 0) with false by lia. cbn [negb].
    apply outcome_then; [apply update_outcome; assumption|apply update_errors|].
    intros Hok. rewrite answer1155, (hook_data ids values) by (eapply equal_lengths, Hok). reflexivity.
  Qed.

  Theorem c84_erc1155 :
    forall s c from to ids values data id v,
    words s -> Forall is_u256 values -> is_u256 v ->
    let receiver := (to =? 0, Err (Erc1155.InvalidReceiver 0)) in
    let sender := (from =? 0, Err (Erc1155.InvalidSender 0)) in
    outcome (fst (Erc1155.safe_batch_transfer_from Erc1155.base has_code h c from to ids values data s)) =
      first_failing (erc1155_auth s c from ++ [receiver; sender] ++
        erc1155_update s from to ids values ++ asked c from to ids values data s) /\
    outcome (fst (Erc1155.safe_transfer_from Erc1155.base has_code h c from to id v data s)) =
      first_failing (erc1155_auth s c from ++ [receiver; sender] ++
        erc1155_update s from to [id] [v] ++ asked c from to [id] [v] data s) /\
    outcome (fst (Erc1155._mint_batch Erc1155.base has_code h c to ids values data s)) =
      first_failing (receiver :: erc1155_update s 0 to ids values ++ asked c 0 to ids values data s) /\
    outcome (fst (Erc1155._mint Erc1155.base has_code h c to id v data s)) =
      first_failing (receiver :: erc1155_update s 0 to [id] [v] ++ asked c 0 to [id] [v] data s) /\
    outcome (fst (Erc1155._burn_batch Erc1155.base has_code h c from ids values s)) =
      first_failing (sender :: erc1155_update s from 0 ids values) /\
    outcome (fst (Erc1155._burn Erc1155.base has_code h c from id v s)) =
      first_failing (sender :: erc1155_update s from 0 [id] [v]) /\
    outcome (fst (Erc1155.burn_batch Erc1155.base c from ids values s)) =
      first_failing (erc1155_auth s c from ++ sender :: erc1155_update s from 0 ids values) /\
    outcome (fst (Erc1155.burn Erc1155.base c from id v s)) =
      first_failing (erc1155_auth s c from ++ sender :: erc1155_update s from 0 [id] [v]) /\
    outcome (fst (Erc1155.set_approval_for_all c to true s)) =
      first_failing [(to =? 0, Err (Erc1155.InvalidOperator 0))] /\
    outcome (fst (Erc1155.balance_of_batch values ids s)) = first_failing (erc1155_lengths ids values).
  Proof.
    intros s c from to ids values data id v Hw Hvs Hv receiver sender.
    assert (Hv1 : Forall is_u256 [v]) by (constructor; [exact Hv|constructor]).
    assert (Auth : forall (k : M Erc1155.state Erc1155.error unit) l, outcome (fst (k s)) = first_failing l ->
      outcome (fst (bind (Erc1155.authorize_transfer c from) (fun _ => k) s)) = first_failing (erc1155_auth s c from ++ l)).
    { intros k l Hk. unfold Erc1155.authorize_transfer, erc1155_auth. mred. cbn [app first_failing].
      destruct (_ && _); [reflexivity|exact Hk]. }
    assert (Move : forall ids values, Forall is_u256 values ->
      outcome (fst (Erc1155.do_safe_transfer_from Erc1155.base has_code h c from to ids values data s)) =
      first_failing ([receiver; sender] ++ erc1155_update s from to ids values ++ asked c from to ids values data s)).
    { intros is vs Hf. unfold Erc1155.do_safe_transfer_from, receiver, sender. mred. cbn [app first_failing].
      destruct (Z.eqb_spec to 0) as [->|]; [reflexivity|]. destruct (Z.eqb_spec from 0) as [->|]; [reflexivity|].
      apply accept_outcome; assumption. }
    assert (Mint : forall ids values, Forall is_u256 values ->
      outcome (fst (Erc1155._do_mint Erc1155.base has_code h c to ids values data s)) =
      first_failing (receiver :: erc1155_update s 0 to ids values ++ asked c 0 to ids values data s)).
    { intros is vs Hf. unfold Erc1155._do_mint, receiver. mred. cbn [first_failing].
      destruct (Z.eqb_spec to 0) as [->|]; [reflexivity|]. apply accept_outcome; assumption. }
    assert (Burn : forall ids values, Forall is_u256 values ->
      outcome (fst (Erc1155._do_burn Erc1155.base has_code h c from ids values s)) =
      first_failing (sender :: erc1155_update s from 0 ids values)).
    { intros is vs Hf. unfold Erc1155._do_burn, sender, Erc1155._update_with_acceptance_check. mred. cbn [first_failing].
      destruct (Z.eqb_spec from 0) as [->|]; [reflexivity|]. cbn [negb Z.eqb].
      rewrite <- (update_outcome c from 0 is vs s Hw Hf). cbn [Erc1155.base Erc1155.sys_update].
      destruct (Erc1155._update c from 0 is vs s) as [[[]|e|] s1]; reflexivity. }
    assert (Inner : forall ids values, Forall is_u256 values ->
      outcome (fst (Erc1155.inner_burn Erc1155.base c from ids values s)) =
      first_failing (sender :: erc1155_update s from 0 ids values)).
    { intros is vs Hf. unfold Erc1155.inner_burn, sender. mred. cbn [first_failing].
      destruct (Z.eqb_spec from 0) as [->|]; [reflexivity|].
      exact (update_outcome c from 0 is vs s Hw Hf). }
    split; [apply Auth, Move; assumption|]. split; [apply Auth, Move; assumption|].
    split; [apply Mint; assumption|]. split; [apply Mint; assumption|].
    split; [apply Burn; assumption|]. split; [apply Burn; assumption|].
    split; [apply Auth, Inner; assumption|]. split; [apply Auth, Inner; assumption|].
    split.
    - unfold Erc1155.set_approval_for_all, Erc1155._set_approval_for_all, Erc1155.emit. mred.
      destruct (Z.eqb_spec to 0) as [->|]; reflexivity.
    - unfold Erc1155.balance_of_batch, Erc1155.require_equal_arrays_length, erc1155_lengths. mred.
      cbn [first_failing]. destruct (negb _); reflexivity.
  Qed.
End erc1155.
Print Assumptions c84_erc1155.

(** ** AccessControl, from every state *)
Theorem c84_access_control :
  forall s c role a,
  outcome (fst (AccessControl.grant_role c role a s)) = first_failing (ac_admin s c role) /\
  outcome (fst (AccessControl.revoke_role c role a s)) = first_failing (ac_admin s c role) /\
  outcome (fst (AccessControl.renounce_role c role a s)) =
    first_failing [(negb (c =? a), Err AccessControl.BadConfirmation)].
Proof.
  intros s c role a. unfold AccessControl.grant_role, AccessControl.revoke_role, AccessControl.renounce_role,
    AccessControl.only_role, AccessControl._check_role, AccessControl._grant_role, AccessControl._revoke_role, ac_admin.
  repeat split; mred; sift.
Qed.
Print Assumptions c84_access_control.

(** Calls failing more than one check. *)
Example c84_nonvacuous :
  let s20 := snd (Erc20.approve 1 3 10 (snd (Erc20._mint 1 5 Erc20.init))) in
  fst (Erc20.transfer_from 3 1 0 20 s20) = Err (Erc20.InsufficientAllowance 3 10 20) /\
  fst (Erc20.transfer_from 3 1 0 7 s20) = Err (Erc20.InvalidReceiver 0) /\
  fst (Erc20.transfer_from 3 1 2 7 s20) = Err (Erc20.InsufficientBalance 1 5 7) /\
  let s721 := snd (Erc721._mint 1 7 Erc721.init) in
  fst (Erc721.transfer_from 2 3 0 7 s721) = Err (Erc721.InvalidReceiver 0) /\
  fst (Erc721.transfer_from 2 3 4 7 s721) = Err (Erc721.InsufficientApproval 2 7) /\
  fst (Erc721.transfer_from 1 3 4 7 s721) = Err (Erc721.IncorrectOwner 3 7 1) /\
  let s1155 := snd (Erc1155._update 9 0 1 [7] [5] Erc1155.init) in
  let call c to ids vs := fst (Erc1155.safe_batch_transfer_from Erc1155.base (fun a => a =? 4)
    (fun _ _ _ _ _ s => (Erc1155.Failed [1], s)) c 1 to ids vs [] s1155) in
  call 2 0 [7] [] = Err (Erc1155.MissingApprovalForAll 2 1) /\
  call 1 0 [7] [] = Err (Erc1155.InvalidReceiver 0) /\
  call 1 4 [7] [] = Err (Erc1155.InvalidArrayLength 1 0) /\
  call 1 4 [7; 7] [3; 3] = Err (Erc1155.InsufficientBalance 1 2 3 7) /\
  call 1 4 [7; 7] [3; 2] = Err (Erc1155.InvalidReceiverWithReason [1]) /\
  call 1 2 [7; 7] [3; 2] = Ok tt.
Proof. vm_compute. repeat split; reflexivity. Qed.

(** ** The wrapper and the vault over a token of the library *)
Section assets.
  Context (this asset : Z) (Hthis : this <> 0).
  Notation x := (Erc20World.honest_ext this asset).
  Import SafeErc20 Erc20World.

  Lemma push_outcome to v w : Inv (asset_st w) -> is_u256 v ->
    fst (safe_transfer x asset to v w) =
      (if push_refused (asset_st w) this to v then Err (SafeErc20FailedOperation asset) else Ok tt) /\
    tok (snd (safe_transfer x asset to v w)) = tok w.
  Proof.
    intros HI Hv. unfold push_refused.
    destruct (safe_transfer_honest this asset to v w HI Hv) as [(_ & A & B & u' & E & _)|(N & E)]; rewrite E; cbn [fst snd].
    - replace (to =? 0) with false by lia. replace (Erc20.balance_of (asset_st w) this <? v) with false by lia. auto.
    - split; [|reflexivity]. destruct (Z.eqb_spec to 0); [reflexivity|].
      destruct (Z.ltb_spec (Erc20.balance_of (asset_st w) this) v); [reflexivity|]. exfalso. apply N. auto.
  Qed.
  Lemma pull_outcome from v w : Inv (asset_st w) -> is_u256 v ->
    fst (safe_transfer_from x asset from this v w) =
      (if pull_refused (asset_st w) this from v then Err (SafeErc20FailedOperation asset) else Ok tt) /\
    tok (snd (safe_transfer_from x asset from this v w)) = tok w.
  Proof.
    intros HI Hv. unfold pull_refused.
    destruct (safe_transfer_from_honest this asset from v w HI Hv) as [(_ & A & B & C & u' & E & _)|(N & E)];
      rewrite E; cbn [fst snd]; unfold can_take in *.
    - replace (from =? 0) with false by lia. replace (Erc20.balance_of (asset_st w) from <? v) with false by lia.
      replace (negb (Erc20.allowance (asset_st w) from this =? U256_MAX) && (Erc20.allowance (asset_st w) from this <? v))
        with false by lia. auto.
    - split; [|reflexivity].
      destruct ((from =? 0) || (Erc20.balance_of (asset_st w) from <? v) ||
        negb (Erc20.allowance (asset_st w) from this =? U256_MAX) && (Erc20.allowance (asset_st w) from this <? v)) eqn:D;
        [reflexivity|]. exfalso. apply N. split; [exact Hthis|]. lia.
  Qed.
  Lemma outcome_lift {E} (f : Erc20.error -> E) (m : M Erc20.state Erc20.error unit) l w :
    outcome (fst (m (tok w))) = first_failing l ->
    outcome (fst (map_err f (on_tok m) w)) = first_failing (lift_checks f l).
  Proof.
    intros H. unfold map_err, on_tok, zoom. destruct (m (tok w)) as [r t']. cbn [fst] in *.
    revert H. induction l as [|[[] y] l IH]; cbn [first_failing lift_checks map fst snd]; intros H.
    - destruct r; cbn in *; congruence.
    - destruct r as [[]|e|], y as [[]|e'|]; cbn in *; congruence.
    - apply IH, H.
  Qed.
  Lemma lift_errors {E} (f : Erc20.error -> E) l : (forall c r, In (c, r) l -> r <> Ok tt) ->
    forall c r, In (c, r) (lift_checks f l) -> r <> Ok tt.
  Proof.
    intros H c r Hin. unfold lift_checks in Hin. apply in_map_iff in Hin. destruct Hin as ([c0 r0] & [= <- <-] & Hin).
    specialize (H c0 r0 Hin). cbn. destruct r0 as [[]|e|]; congruence.
  Qed.

  Theorem c84_wrapper :
    forall w c a v, Wrapper_props.reachable this asset w -> c <> this -> is_u256 v ->
    outcome (fst (Wrapper.deposit_for x asset c a v w)) =
      first_failing ([(a =? this, Err (Wrapper.InvalidReceiver this));
                      (pull_refused (asset_st w) this c v,
                       Err (Wrapper.ErrSafeErc20 (SafeErc20FailedOperation asset)))] ++
                     lift_checks Wrapper.ErrErc20 (erc20_mint (tok w) a v)) /\
    outcome (fst (Wrapper.deposit_for x asset this a v w)) = Err (Wrapper.InvalidSender this) /\
    outcome (fst (Wrapper.withdraw_to x asset c a v w)) =
      first_failing ([(a =? this, Err (Wrapper.InvalidReceiver this))] ++
                     lift_checks Wrapper.ErrErc20 (erc20_debit (tok w) c v) ++
                     [(push_refused (asset_st w) this a v,
                       Err (Wrapper.ErrSafeErc20 (SafeErc20FailedOperation asset)))]) /\
    outcome (fst (Wrapper._recover x asset a w)) =
      first_failing [((a =? 0) && negb (Erc20.balance_of (asset_st w) this =? Erc20.total_supply (tok w)),
                      Err (Wrapper.ErrErc20 (Erc20.InvalidReceiver 0)))].
  Proof.
    intros w c a v Hr Hc Hv. destruct (Wrapper_props.reachable_winv this asset Hthis w Hr) as [HA HT HN HB].
    split; [|split; [|split]].
    - unfold Wrapper.deposit_for. cbn [self honest_ext]. unfold bind at 1, fail_if at 1.
      replace (c =? this) with false by lia.
      apply (outcome_then _ _ [(a =? this, Err (Wrapper.InvalidReceiver this))]); [|errors_only|].
      { unfold fail_if. cbn. destruct (Z.eqb_spec a this) as [->|]; reflexivity. }
      intros _. unfold fail_if at 1. cbn [fst snd]. replace (snd _) with w by (destruct (a =? this); reflexivity).
      destruct (pull_outcome c v w HA Hv) as [P Q].
      apply (outcome_then _ _ [(pull_refused (asset_st w) this c v, Err (Wrapper.ErrSafeErc20 (SafeErc20FailedOperation asset)))]);
        [|errors_only|].
      { unfold map_err. destruct (safe_transfer_from x asset c this v w) as [r w1]. cbn [fst snd] in *. subst r. cbn [first_failing].
        destruct (pull_refused _ _ _ _); reflexivity. }
      intros _.
      assert (Q' : tok (snd (map_err Wrapper.ErrSafeErc20 (safe_transfer_from x asset c this v) w)) = tok w).
      { unfold map_err. destruct (safe_transfer_from x asset c this v w) as [[]?]; exact Q. }
      rewrite <- Q'. set (w1 := snd _). clearbody w1.
      rewrite <- (app_nil_r (lift_checks _ _)).
      apply outcome_then; [|apply lift_errors; errors_only|reflexivity].
      apply outcome_lift. apply (c84_erc20 (tok w1) c a a v).
    - unfold Wrapper.deposit_for. cbn [self honest_ext]. unfold bind at 1, fail_if at 1. rewrite Z.eqb_refl. reflexivity.
    - unfold Wrapper.withdraw_to. cbn [self honest_ext].
      apply (outcome_then _ _ [(a =? this, Err (Wrapper.InvalidReceiver this))]); [|errors_only|].
      { unfold fail_if. cbn. destruct (Z.eqb_spec a this) as [->|]; reflexivity. }
      intros _. unfold fail_if at 1. cbn [fst snd]. replace (snd _) with w by (destruct (a =? this); reflexivity).
      apply outcome_then; [|apply lift_errors; errors_only|].
      { apply outcome_lift. apply (c84_erc20 (tok w) c a a v). }
      intros _.
      assert (Q : asset_st (snd (map_err Wrapper.ErrErc20 (on_tok (Erc20._burn c v)) w)) = asset_st w).
      { unfold map_err, on_tok, zoom. destruct (Erc20._burn c v (tok w)) as [[[]| |]?]; reflexivity. }
      rewrite <- Q. set (w1 := snd _) in *. assert (HA1 : Inv (asset_st w1)) by (rewrite Q; exact HA). clearbody w1.
      rewrite <- (app_nil_r [_]).
      apply outcome_then; [|errors_only|reflexivity].
      destruct (push_outcome a v w1 HA1 Hv) as [P _].
      unfold map_err. destruct (safe_transfer x asset a v w1) as [r w2]. cbn [fst snd] in *. subst r. cbn [first_failing].
      destruct (push_refused _ _ _ _); reflexivity.
    - destruct (Wrapper_props.recover_cases this asset a w) as [HE [(Hd & t' & E & _)|([Ha Hx] & e & E)]].
      + constructor; assumption.
      + rewrite E. cbn [fst outcome first_failing].
        unfold asset_bal, share_supply in *.
        destruct (Z.eqb_spec a 0); destruct (Z.eqb_spec (Erc20.balance_of (asset_st w) this) (Erc20.total_supply (tok w)));
          cbn; try reflexivity. lia.
      + subst a. unfold asset_bal, share_supply in *. cbn [first_failing].
        replace (Erc20.balance_of (asset_st w) this =? Erc20.total_supply (tok w)) with false by lia. cbn.
        unfold Wrapper._recover in *. destruct (balance_of x asset (self x) w) as [b|] eqn:Eb.
        * revert E. mred. destruct (_ <=? b); [|discriminate]. destruct (0 <? _); [|discriminate].
          unfold on_tok, zoom, Erc20._mint, bind, fail_if. cbn. reflexivity.
        * exfalso. cbn [self honest_ext] in Eb. rewrite (balance_of_honest this asset this w HA) in Eb. discriminate.
  Qed.

  (** Vault: a conversion that overflows panics; a conversion that succeeds gives the amounts. *)
  Theorem c84_vault :
    forall offset, 0 <= offset < 256 ->
    forall w c r o q m, Erc4626_spec.reachable this asset offset w -> is_u256 q ->
    let max := Erc20.balance_of (tok w) o in
    (fst (Erc4626.preview_deposit x asset offset q w) = Panic -> fst (Erc4626.deposit x asset offset c q r w) = Panic) /\
    (fst (Erc4626.preview_deposit x asset offset q w) = Ok m ->
       outcome (fst (Erc4626.deposit x asset offset c q r w)) = first_failing (vault_in w this asset c r q m)) /\
    (fst (Erc4626.preview_mint x asset offset q w) = Panic -> fst (Erc4626.mint x asset offset c q r w) = Panic) /\
    (fst (Erc4626.preview_mint x asset offset q w) = Ok m ->
       outcome (fst (Erc4626.mint x asset offset c q r w)) = first_failing (vault_in w this asset c r m q)) /\
    (max < q -> fst (Erc4626.redeem x asset offset c q r o w) = Err (Erc4626.ExceededMaxRedeem o q max)) /\
    (q <= max -> fst (Erc4626.preview_redeem x asset offset q w) = Panic ->
       fst (Erc4626.redeem x asset offset c q r o w) = Panic) /\
    (q <= max -> fst (Erc4626.preview_redeem x asset offset q w) = Ok m ->
       outcome (fst (Erc4626.redeem x asset offset c q r o w)) = first_failing (vault_out w this asset c r o m q)) /\
    (fst (Erc4626.max_withdraw x asset offset o w) = Panic -> fst (Erc4626.withdraw x asset offset c q r o w) = Panic) /\
    (forall top, fst (Erc4626.max_withdraw x asset offset o w) = Ok top ->
       (top < q -> fst (Erc4626.withdraw x asset offset c q r o w) = Err (Erc4626.ExceededMaxWithdraw o q top)) /\
       (q <= top -> fst (Erc4626.preview_withdraw x asset offset q w) = Panic ->
          fst (Erc4626.withdraw x asset offset c q r o w) = Panic) /\
       (q <= top -> fst (Erc4626.preview_withdraw x asset offset q w) = Ok m ->
          outcome (fst (Erc4626.withdraw x asset offset c q r o w)) = first_failing (vault_out w this asset c r o q m))).
  Proof.
    intros offset Hoff w c r o q m Hr Hq max.
    apply (Erc4626_lemmas.reachable_vinv this asset offset) in Hr; [|exact Hthis|exact Hoff].
    pose proof (Erc4626_lemmas.vinv_ok this w Hr) as Hok.
    assert (HA : Inv (asset_st w)) by apply Hr.
    assert (In : forall a s, is_u256 a ->
      outcome (fst (Erc4626._deposit x asset c r a s w)) = first_failing (vault_in w this asset c r a s)).
    { intros a s Ha. unfold Erc4626._deposit, vault_in. cbn [self honest_ext].
      destruct (pull_outcome c a w HA Ha) as [P Q].
      apply outcome_then; [|errors_only|].
      { unfold map_err. destruct (safe_transfer_from x asset c this a w) as [r0 w1]. cbn [fst snd] in *. subst r0. cbn [first_failing].
        destruct (pull_refused _ _ _ _); reflexivity. }
      intros _.
      assert (Q' : tok (snd (map_err Erc4626.ErrSafeErc20 (safe_transfer_from x asset c this a) w)) = tok w).
      { unfold map_err. destruct (safe_transfer_from x asset c this a w) as [[]?]; exact Q. }
      rewrite <- Q'. set (w1 := snd _). clearbody w1.
      rewrite <- (app_nil_r (lift_checks _ _)).
      apply outcome_then; [|apply lift_errors; errors_only|reflexivity].
      apply outcome_lift. apply (c84_erc20 (tok w1) c r r s). }
    assert (Out : forall a s, is_u256 a ->
      outcome (fst (Erc4626._withdraw x asset c r o a s w)) = first_failing (vault_out w this asset c r o a s)).
    { intros a s Ha. unfold Erc4626._withdraw, vault_out.
      assert (Ends : forall w1, asset_st w1 = asset_st w ->
        (forall b, Erc20.balance_of (tok w1) b = Erc20.balance_of (tok w) b) ->
        outcome (fst ((map_err Erc4626.ErrErc20 (on_tok (Erc20._burn o s)) ;;;
           map_err Erc4626.ErrSafeErc20 (safe_transfer x asset r a) ;;;
           modify (log_ev (Withdraw c r o a s))) w1)) =
        first_failing (lift_checks Erc4626.ErrErc20 (erc20_debit (tok w) o s) ++
          [(push_refused (asset_st w) this r a, Err (Erc4626.ErrSafeErc20 (SafeErc20FailedOperation asset)))])).
      { intros w1 EA EB.
        apply outcome_then; [|apply lift_errors; errors_only|].
        { apply outcome_lift. destruct (c84_erc20 (tok w1) o o o s) as (_ & _ & _ & H & _).
          unfold Erc20.burn in H. rewrite H. unfold erc20_debit. rewrite EB. reflexivity. }
        intros _.
        assert (Q : asset_st (snd (map_err Erc4626.ErrErc20 (on_tok (Erc20._burn o s)) w1)) = asset_st w).
        { rewrite <- EA. unfold map_err, on_tok, zoom. destruct (Erc20._burn o s (tok w1)) as [[[]| |]?]; reflexivity. }
        rewrite <- Q. set (w2 := snd _) in *. assert (HA2 : Inv (asset_st w2)) by (rewrite Q; exact HA). clearbody w2.
        rewrite <- (app_nil_r [_]).
        apply outcome_then; [|errors_only|reflexivity].
        destruct (push_outcome r a w2 HA2 Ha) as [P _].
        unfold map_err. destruct (safe_transfer x asset r a w2) as [r0 w3]. cbn [fst snd] in *. subst r0. cbn [first_failing].
        destruct (push_refused _ _ _ _); reflexivity. }
      unfold lift_checks. rewrite map_app. fold (lift_checks Erc4626.ErrErc20 (erc20_debit (tok w) o s)).
      rewrite <- app_assoc. destruct (c =? o) eqn:Eco; cbn [negb].
      { cbn [map app]. apply (Ends w); reflexivity. }
      fold (lift_checks Erc4626.ErrErc20 (erc20_spending (tok w) o c s)).
      assert (Hs : outcome (fst (Erc20._spend_allowance o c s (tok w))) = first_failing (erc20_spending (tok w) o c s)).
      { unfold Erc20._spend_allowance, Erc20._approve, erc20_spending. mred. sift. }
      apply outcome_then.
      + apply outcome_lift, Hs.
      + apply lift_errors. unfold erc20_spending. destruct (_ =? U256_MAX); errors_only.
      + intros _. unfold map_err, on_tok, zoom, Erc20._spend_allowance, Erc20._approve. mred.
        apply Ends; repeat match goal with |- context [if ?b then _ else _] => destruct b end; reflexivity. }
    assert (D : U256_MAX <? q = false) by (unfold is_u256, U256_MAX in *; lia).
    assert (Sh : forall a rr, is_u256 a -> snd (Erc4626._convert_to_shares x asset offset a rr w) = w /\
       (forall s, fst (Erc4626._convert_to_shares x asset offset a rr w) = Ok s -> is_u256 s)).
    { intros a rr Ha. destruct (Erc4626_lemmas.to_shares_cases this asset offset Hoff a rr w Hok Ha) as [(s & _ & _ & B & E)|(_ & E)];
        rewrite E; cbn; split; try reflexivity; intros s0 [= <-]; exact B. }
    assert (As : forall a rr, is_u256 a -> snd (Erc4626._convert_to_assets x asset offset a rr w) = w /\
       (forall s, fst (Erc4626._convert_to_assets x asset offset a rr w) = Ok s -> is_u256 s)).
    { intros a rr Ha. destruct (Erc4626_lemmas.to_assets_cases this asset offset Hoff a rr w Hok Ha) as [(s & _ & _ & B & E)|(_ & E)];
        rewrite E; cbn; split; try reflexivity; intros s0 [= <-]; exact B. }
    assert (Hmax : is_u256 max) by (unfold max; apply bal_u256, Hr).
    unfold Erc4626.deposit, Erc4626.mint, Erc4626.redeem, Erc4626.withdraw, Erc4626.max_deposit, Erc4626.max_mint,
      Erc4626.max_redeem, Erc4626.max_withdraw, Erc4626.preview_deposit, Erc4626.preview_mint,
      Erc4626.preview_redeem, Erc4626.preview_withdraw.
    mred. rewrite !D. fold max.
    destruct (Sh q Math.Floor Hq) as [S1 S2]. destruct (Sh q Math.Ceil Hq) as [S3 S4].
    destruct (As q Math.Floor Hq) as [A1 A2]. destruct (As q Math.Ceil Hq) as [A3 A4].
    destruct (As max Math.Floor Hmax) as [A5 A6].
    assert (Fin_in : forall a s (b : Z), is_u256 a ->
      outcome (fst (match Erc4626._deposit x asset c r a s w with
                    | (Ok _, s') => (@Ok Erc4626.error Z b, s') | (Err e, s') => (Err e, s') | (Panic, s') => (Panic, s') end)) =
      first_failing (vault_in w this asset c r a s)).
    { intros a s b Ha. rewrite <- (In a s Ha). destruct (Erc4626._deposit x asset c r a s w) as [[| |] ?]; reflexivity. }
    assert (Fin_out : forall a s (b : Z), is_u256 a ->
      outcome (fst (match Erc4626._withdraw x asset c r o a s w with
                    | (Ok _, s') => (@Ok Erc4626.error Z b, s') | (Err e, s') => (Err e, s') | (Panic, s') => (Panic, s') end)) =
      first_failing (vault_out w this asset c r o a s)).
    { intros a s b Ha. rewrite <- (Out a s Ha). destruct (Erc4626._withdraw x asset c r o a s w) as [[| |] ?]; reflexivity. }
    split; [|split; [|split; [|split; [|split; [|split; [|split; [|split]]]]]]].
    - intros HP. destruct (Erc4626._convert_to_shares x asset offset q Math.Floor w) as [y w1]; cbn [fst snd] in *; subst y w1. reflexivity.
    - intros HP. specialize (S2 m HP). destruct (Erc4626._convert_to_shares x asset offset q Math.Floor w) as [y w1]; cbn [fst snd] in *; subst y w1.
      apply Fin_in, Hq.
    - intros HP. destruct (Erc4626._convert_to_assets x asset offset q Math.Ceil w) as [y w1]; cbn [fst snd] in *; subst y w1. reflexivity.
    - intros HP. specialize (A4 m HP). destruct (Erc4626._convert_to_assets x asset offset q Math.Ceil w) as [y w1]; cbn [fst snd] in *; subst y w1.
      apply Fin_in, A4.
    - intros Hlt. replace (max <? q) with true by lia. reflexivity.
    - intros Hle HP. replace (max <? q) with false by lia.
      destruct (Erc4626._convert_to_assets x asset offset q Math.Floor w) as [y w1]; cbn [fst snd] in *; subst y w1. reflexivity.
    - intros Hle HP. replace (max <? q) with false by lia. specialize (A2 m HP).
      destruct (Erc4626._convert_to_assets x asset offset q Math.Floor w) as [y w1]; cbn [fst snd] in *; subst y w1.
      apply Fin_out, A2.
    - intros HP. destruct (Erc4626._convert_to_assets x asset offset max Math.Floor w) as [y w1]; cbn [fst snd] in *; subst y w1. reflexivity.
    - intros top HT. destruct (Erc4626._convert_to_assets x asset offset max Math.Floor w) as [y w1]; cbn [fst snd] in *; subst y w1.
      split; [|split].
      + intros Hlt. replace (top <? q) with true by lia. reflexivity.
      + intros Hle HP. replace (top <? q) with false by lia.
        destruct (Erc4626._convert_to_shares x asset offset q Math.Ceil w) as [y w1]; cbn [fst snd] in *; subst y w1. reflexivity.
      + intros Hle HP. replace (top <? q) with false by lia. specialize (S4 m HP).
        destruct (Erc4626._convert_to_shares x asset offset q Math.Ceil w) as [y w1]; cbn [fst snd] in *; subst y w1.
        apply Fin_out, Hq.
  Qed.
End assets.
Print Assumptions c84_wrapper.
Print Assumptions c84_vault.

(** Non-vacuous: a wrapper and a vault holding 70 for account 1, and calls failing more than one check. *)
Example c84_assets_nonvacuous :
  let x := Erc20World.honest_ext 100 200 in
  let t := snd (Erc20.approve 1 100 60 (snd (Erc20._mint 1 130 Erc20.init))) in
  let w := snd (Wrapper.deposit_for x 200 1 1 50 (Erc20World.mkw t Erc20.init [])) in
  fst (Wrapper.deposit_for x 200 1 100 500 w) = Err (Wrapper.InvalidReceiver 100) /\
  fst (Wrapper.deposit_for x 200 1 0 500 w) = Err (Wrapper.ErrSafeErc20 (SafeErc20.SafeErc20FailedOperation 200)) /\
  fst (Wrapper.deposit_for x 200 1 0 10 w) = Err (Wrapper.ErrErc20 (Erc20.InvalidReceiver 0)) /\
  fst (Wrapper.withdraw_to x 200 2 0 1 w) = Err (Wrapper.ErrErc20 (Erc20.InsufficientBalance 2 0 1)) /\
  fst (Wrapper.withdraw_to x 200 1 0 1 w) = Err (Wrapper.ErrSafeErc20 (SafeErc20.SafeErc20FailedOperation 200)) /\
  let v := snd (Erc4626.deposit x 200 0 1 50 1 (Erc20World.mkw t Erc20.init [])) in
  fst (Erc4626.redeem x 200 0 2 51 0 1 v) = Err (Erc4626.ExceededMaxRedeem 1 51 50) /\
  fst (Erc4626.redeem x 200 0 2 50 0 1 v) = Err (Erc4626.ErrErc20 (Erc20.InsufficientAllowance 2 0 50)) /\
  fst (Erc4626.redeem x 200 0 1 50 0 1 v) = Err (Erc4626.ErrSafeErc20 (SafeErc20.SafeErc20FailedOperation 200)) /\
  fst (Erc4626.redeem x 200 0 1 50 1 1 v) = Ok 50.
Proof. vm_compute. repeat split; reflexivity. Qed.
