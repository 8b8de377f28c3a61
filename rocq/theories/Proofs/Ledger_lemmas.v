(** The library's token keeps an ideal ledger. *)
From Verif.Base Require Import Prelude Bytes Maps.
From Coq Require Import String List.
From Verif.Model Require Erc20.
From Verif.Spec Require Import SolAbi_spec LogMeaning_spec Errors_spec Entry_spec Ledger_spec.
From Verif.Spec Require Erc20_spec.
From Verif.Proofs Require Erc20_inv Erc20_api.
From Verif.Props Require Errors_props.
#[global] Open Scope Z_scope.
Local Open Scope list_scope.
Local Open Scope Z_scope.

Definition order_op (r : order) : Erc20.op :=
  match r with
  | Pay t v => Erc20.OTransfer t v
  | Allow sp v => Erc20.OApprove sp v
  | Draw f t v => Erc20.OTransferFrom f t v
  | Issue a v => Erc20.OMint a v
  end.
Lemma order_op_wf r : order_fits r -> Erc20.op_wf (order_op r).
Proof. destruct r; cbn; tauto. Qed.

Definition keeps (t : Erc20.state) (b : ledger) : Prop :=
  l_supply b = Erc20.total_supply t /\
  (forall a, is_address a -> l_balance b a = Erc20.balance_of t a) /\
  (forall o sp, is_address o -> is_address sp -> l_allowance b o sp = Erc20.allowance t o sp).
Definition ledger_of (t : Erc20.state) : ledger := mkLedger (Erc20.total_supply t) (Erc20.balance_of t) (Erc20.allowance t).

Lemma balance_fits t a : Erc20_inv.Inv t -> is_u256 (Erc20.balance_of t a).
Proof.
  intros HI. pose proof (Erc20_inv.bal_nonneg _ HI a). pose proof (Erc20_inv.bal_le_supply _ HI a). pose proof (Erc20_inv.inv_max _ HI).
  unfold is_u256. lia.
Qed.
Lemma supply_fits t : Erc20_inv.Inv t -> is_u256 (Erc20.total_supply t).
Proof. intros HI. pose proof (Erc20_inv.supply_nonneg _ HI). pose proof (Erc20_inv.inv_max _ HI). unfold is_u256, Erc20.total_supply. lia. Qed.
Lemma allowance_fits t o sp : Erc20_inv.Inv t -> is_u256 (Erc20.allowance t o sp).
Proof. intros HI. apply (Erc20_inv.inv_allow _ HI). Qed.
Lemma ledger_of_ok t : Erc20_inv.Inv t -> ledger_fits (ledger_of t) /\ keeps t (ledger_of t).
Proof.
  intros HI. split; [|repeat split]. split; [apply supply_fits, HI|].
  split; [intros a; apply balance_fits, HI|intros; apply allowance_fits, HI].
Qed.

Lemma decide_app {B} l m (b : B) : decide (l ++ m) b = match decide l b with Yes _ => decide m b | No r => No r end.
Proof. induction l as [|[x r] l IH]; [reflexivity|]. cbn [app decide]. destruct x; [reflexivity|exact IH]. Qed.
(** A list of checks of the code, as reasons. *)
Definition reasons {E} (f : E -> reason) (l : list (check E)) : checks :=
  map (fun c => (fst c, match snd c with Err e => Some (f e) | _ => None end)) l.
Definition no_ok {E} (l : list (check E)) : Prop := List.Forall (fun c => match snd c with Ok _ => False | _ => True end) l.
Lemma decide_reasons {E B} (f : E -> reason) l (b : B) : no_ok l ->
  decide (reasons f l) b = match first_failing l with Ok _ => Yes b | Err e => No (Some (f e)) | Panic => No None end.
Proof.
  induction 1 as [|[x r] l H _ IH]; [reflexivity|]. cbn [reasons map decide first_failing fst snd] in *.
  destruct x; [destruct r; [contradiction|reflexivity..]|exact IH].
Qed.

Ltac decides := cbn [first_failing decide may_spend may_move may_approve erc20_move erc20_mint map app fst snd];
  repeat match goal with
  | |- context [if ?x then _ else _] => destruct x eqn:?; cbn [first_failing decide app map fst snd]
  end; try reflexivity; try lia.
Lemma outcome_ret {S E A} (m : M S E A) s : outcome (fst ((m ;;; ret tt) s)) = outcome (fst (m s)).
Proof. mred. destruct (m s) as [[a|e|] s']; reflexivity. Qed.
(** The verdict on an order is the outcome of the call. *)
Lemma order_verdict {B} t b c r (x : B) : keeps t b -> is_address c -> order_fits r ->
  decide (order_checks c r b) x =
  match outcome (fst (Erc20.exec c (order_op r) t)) with
  | Ok _ => Yes x
  | Err e => No (Some (reason_erc20 e))
  | Panic => No None
  end.
Proof.
  intros (A1 & A2 & A3) Hc Hr.
  destruct r as [a v|a v|a d v|a v]; cbn [order_op Erc20.exec order_fits order_checks] in *; unfold Erc20.ignore; rewrite ?outcome_ret.
  - destruct (Errors_props.c84_erc20 t c c a v) as (-> & _). unfold may_move, erc20_move. rewrite (A2 c Hc). decides.
  - destruct (Errors_props.c84_erc20 t c c a v) as (_ & _ & -> & _). decides.
  - destruct (Errors_props.c84_erc20 t c a d v) as (_ & -> & _). unfold may_spend, may_move, erc20_spending, erc20_move.
    rewrite (A2 a), (A3 a c) by tauto. decides.
  - destruct (Errors_props.c84_erc20 t c c a v) as (_ & _ & _ & _ & _ & ->). unfold erc20_mint. rewrite A1. decides.
Qed.
Ltac fits := intros E; inversion E; subst; cbn [reason_erc20 numbers];
  repeat (apply List.Forall_cons; [first [solve [auto]|unfold is_u256 in *; lia]|]); apply List.Forall_nil.
Lemma order_reason t c r e : Erc20_inv.Inv t -> is_address c -> order_fits r ->
  outcome (fst (Erc20.exec c (order_op r) t)) = Err e -> reason_fits (reason_erc20 e).
Proof.
  intros HI Hc Hr.
  pose proof (fun a => balance_fits t a HI) as Gb. pose proof (supply_fits t HI) as Gs. pose proof (fun o sp => allowance_fits t o sp HI) as Ga.
  assert (Z0 : is_u256 0) by (split; [lia|reflexivity]).
  assert (Ad : forall x, is_address x -> is_u256 x) by (unfold is_address, is_u256, two256; lia).
  assert (Hc' := Ad c Hc). unfold reason_fits.
  destruct r as [a v|a v|a d v|a v]; cbn [order_op Erc20.exec order_fits] in *; unfold Erc20.ignore; rewrite ?outcome_ret.
  all: repeat match goal with H : _ /\ _ |- _ => destruct H end.
  all: repeat match goal with H : is_address ?x |- _ => lazymatch goal with K : is_u256 x |- _ => fail | _ => pose proof (Ad x H) end end.
  - destruct (Errors_props.c84_erc20 t c c a v) as (-> & _). unfold erc20_move. decides; fits.
  - destruct (Errors_props.c84_erc20 t c c a v) as (_ & _ & -> & _). decides; fits.
  - destruct (Errors_props.c84_erc20 t c a d v) as (_ & -> & _). unfold erc20_spending, erc20_move. decides; fits.
  - destruct (Errors_props.c84_erc20 t c c a v) as (_ & _ & _ & _ & _ & ->). unfold erc20_mint. decides; fits.
Qed.

(** Books that keep with a state keep with the state after the effect. *)
Lemma keeps_approval t t' b o sp v : keeps t b -> is_address o -> is_address sp ->
  Erc20.allowance t' o sp = v -> Erc20_spec.other_allowances_same t t' o sp -> Erc20_spec.same_balances t t' ->
  Erc20.total_supply t' = Erc20.total_supply t -> keeps t' (with_allowance b o sp v).
Proof.
  intros (A1 & A2 & A3) Ho Hsp B3 B4 B1 B2. split; [cbn; rewrite B2; exact A1|]. split; cbn [with_allowance l_balance l_allowance].
  - intros x Hx. rewrite B1. apply A2, Hx.
  - intros x y Hx Hy. destruct ((x =? o) && (y =? sp)) eqn:D.
    + replace x with o by lia. replace y with sp by lia. symmetry. exact B3.
    + rewrite B4; [apply A3; assumption|]. intros K3. inversion K3. lia.
Qed.
Lemma order_keeps t b c r u t' : Erc20_inv.Inv t -> keeps t b -> is_address c -> order_fits r ->
  Erc20.exec c (order_op r) t = (Ok u, t') -> keeps t' (order_effect c r b).
Proof.
  intros HI A Hc Hr E. pose proof A as (A1 & A2 & A3). pose proof (Erc20_inv.inv_zero _ HI) as Z0.
  assert (HI' : Erc20_inv.Inv t').
  { assert (St : t' = Erc20.step t (c, order_op r)) by (unfold Erc20.step, tx; cbn [fst snd]; rewrite E; reflexivity).
    rewrite St. apply Erc20_inv.inv_step; [exact HI|]. cbn [snd]. apply order_op_wf, Hr. }
  pose proof (Erc20_inv.inv_zero _ HI') as Z1.
  assert (Dr : forall A (m : M Erc20.state Erc20.error A) s0, (m ;;; ret tt) s0 = (Ok u, t') -> exists x, m s0 = (Ok x, t')).
  { intros A0 m s0. mred. destruct (m s0) as [[x|e|] s1]; cbn; intros K; inversion K; eauto. }
  assert (Sp : forall f v, (forall x y, (x, y) <> (f, c) -> Erc20.allowance t' x y = Erc20.allowance t x y) ->
    Erc20.allowance t' f c = Erc20_spec.allowance_after t f c v -> is_address f ->
    forall x y, is_address x -> is_address y -> l_allowance (after_spending b f c v) x y = Erc20.allowance t' x y).
  { intros f v K1 K2 Hf x y Hx Hy. unfold Erc20_spec.allowance_after in K2. unfold after_spending.
    rewrite <- (A3 f c Hf Hc) in K2. destruct (l_allowance b f c =? U256_MAX) eqn:Em.
    - destruct ((x =? f) && (y =? c)) eqn:D; [replace x with f by lia; replace y with c by lia; rewrite K2; lia|].
      rewrite K1; [apply A3; assumption|]. intros K3. inversion K3. lia.
    - cbn [with_allowance l_allowance]. destruct ((x =? f) && (y =? c)) eqn:Ex.
      + replace x with f by lia. replace y with c by lia. symmetry. exact K2.
      + rewrite K1; [apply A3; assumption|]. intros D. inversion D. lia. }
  assert (Mv : forall f d v, is_address f -> is_address d -> f <> 0 -> d <> 0 -> Erc20_spec.balances_moved t t' f d v ->
    forall x, is_address x -> moved (l_balance b) f d v x = Erc20.balance_of t' x).
  { intros f d v Hf Hd Hf0 Hd0 K x Hx. unfold moved, at_key. destruct (Z.eq_dec x 0) as [->|Hx0].
    - rewrite Z1. replace (0 =? d) with false by lia. replace (0 =? f) with false by lia. rewrite (A2 0 Hx). exact Z0.
    - rewrite (K x Hx0). unfold Erc20_spec.delta. destruct (x =? d) eqn:X1, (x =? f) eqn:X2; try replace x with f by lia.
      + replace (d =? f) with true by lia. rewrite (A2 f Hf). lia.
      + replace (d =? f) with false by lia. replace x with d by lia. rewrite (A2 d Hd). lia.
      + rewrite (A2 f Hf). lia.
      + rewrite (A2 x Hx). lia. }
  destruct r as [a v|a v|a d v|a v]; cbn [order_op Erc20.exec order_fits order_effect] in *; unfold Erc20.ignore in E.
  - destruct (Dr _ _ _ E) as [x K]. destruct Hr as [Ha Hv].
    assert (x = true) as ->.
    { revert K. unfold Erc20.transfer. mred. destruct (Erc20._transfer c a v t) as [[[]|e|] t1]; cbn; congruence. }
    destruct (Erc20_api.transfer_spec t c a v HI Hv) as (T1 & T2 & _). destruct (T2 _ K) as (B1 & B2 & B3 & _).
    rewrite K in T1. destruct (proj1 T1 eq_refl) as (N1 & N2 & _).
    split; [cbn; rewrite B3; exact A1|]. split; cbn [l_balance l_allowance with_balances].
    + apply (Mv c a v Hc Ha N1 N2 B1).
    + intros o sp Ho Hsp. rewrite (B2 o sp). apply A3; assumption.
  - destruct (Dr _ _ _ E) as [x K]. destruct Hr as [Ha Hv].
    destruct (Erc20_api.approve_spec t c a v) as (T1 & T2 & _).
    assert (x = true) as ->.
    { revert K. unfold Erc20.approve, Erc20._approve. mred. destruct (c =? 0); [discriminate|]. destruct (a =? 0); [discriminate|]. cbn. congruence. }
    destruct (T2 _ K) as (B1 & B2 & B3 & B4 & _). apply (keeps_approval t t' b c a v); assumption.
  - destruct (Dr _ _ _ E) as [x K]. destruct Hr as (Ha & Hd & Hv).
    destruct (Erc20_api.transfer_from_spec t c a d v HI Hv) as (T1 & T2 & _).
    assert (x = true) as ->.
    { revert K. unfold Erc20.transfer_from. mred. destruct (Erc20._spend_allowance a c v t) as [[[]|e|] t1]; cbn [fst snd]; try congruence.
      destruct (Erc20._transfer a d v t1) as [[[]|e|] t2]; cbn; congruence. }
    destruct (T2 _ K) as (B1 & B2 & B3 & B4 & _). rewrite K in T1. destruct (proj1 T1 eq_refl) as (N0 & N1 & N2 & _).
    split; [cbn; rewrite B4; exact A1|]. split; cbn [l_balance l_allowance with_balances].
    + apply (Mv a d v Ha Hd N1 N2 B1).
    + apply Sp; try assumption.
  - destruct Hr as [Ha Hv]. destruct u.
    destruct (Erc20_api.mint_spec t a v HI Hv) as (_ & T2 & _). destruct (T2 _ E) as (B1 & B2 & B3 & B4 & _).
    split; [cbn; rewrite B3, A1; reflexivity|]. split; cbn [l_balance l_allowance with_balances].
    + intros x Hx. unfold at_key. destruct (x =? a) eqn:X; [replace x with a by lia; rewrite (A2 a Ha); symmetry; exact B1|].
      rewrite B2 by lia. apply A2. exact Hx.
    + intros o sp Ho Hsp. rewrite (B4 o sp). apply A3; assumption.
Qed.
(** An effect leaves fitting books, given that the state it stands for fits. *)
Lemma outside_address a : is_address a \/ forall x, is_address x -> (a =? x) = false.
Proof. unfold is_address. destruct (Z_le_dec 0 a), (Z_lt_dec a (2 ^ 160)); [left; lia|right; intros; lia..]. Qed.
Lemma keeps_fits t b b' : Erc20_inv.Inv t -> ledger_fits b -> keeps t b' ->
  (forall a, (forall x, is_address x -> (a =? x) = false) -> l_balance b' a = l_balance b a) ->
  (forall o sp, (forall x y, is_address x -> is_address y -> (o =? x) && (sp =? y) = false) -> l_allowance b' o sp = l_allowance b o sp) ->
  ledger_fits b'.
Proof.
  intros HI (F1 & F2 & F3) (A1 & A2 & A3) H1 H2. split; [rewrite A1; apply supply_fits, HI|]. split.
  - intros a. destruct (outside_address a) as [Ha|Ha]; [rewrite (A2 a Ha); apply balance_fits, HI|rewrite (H1 a Ha); apply F2].
  - intros o sp. destruct (outside_address o) as [Ho|Ho]; [destruct (outside_address sp) as [Hs|Hs]|].
    + rewrite (A3 o sp Ho Hs). apply allowance_fits, HI.
    + rewrite H2; [apply F3|]. intros x y _ Hy. rewrite (Hs y Hy). apply andb_false_r.
    + rewrite H2; [apply F3|]. intros x y Hx _. rewrite (Ho x Hx). reflexivity.
Qed.
Lemma order_effect_fits t b c r : Erc20_inv.Inv t -> ledger_fits b -> is_address c -> order_fits r ->
  keeps t (order_effect c r b) -> ledger_fits (order_effect c r b).
Proof.
  intros HI F Hc Hr K. apply (keeps_fits t b _ HI F K).
  - intros a Ne. destruct r as [x v|x v|x y v|x v]; cbn [order_effect with_balances with_allowance l_balance order_fits] in *; auto;
      unfold moved, at_key; rewrite ?Ne by tauto; auto.
  - intros o sp Ne. destruct r as [x v|x v|x y v|x v]; cbn [order_effect with_balances with_allowance l_allowance order_fits] in *; auto;
      rewrite ?Ne by tauto; auto.
    unfold after_spending. destruct (l_allowance b x c =? U256_MAX); auto. cbn [with_allowance l_allowance]. rewrite Ne by tauto. auto.
Qed.
Lemma keeps_init : keeps Erc20.init new_ledger /\ ledger_fits new_ledger.
Proof. split; [repeat split|repeat split; cbn; lia]. Qed.
