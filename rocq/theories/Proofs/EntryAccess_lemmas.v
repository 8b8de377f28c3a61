(** A contract behind its entry point that follows an ideal book: the general part, and the
    token functions of a contract that inherits the library's. *)
From Verif.Base Require Import Prelude Bytes Keccak Maps.
From Coq Require Import String List.
From Verif.Model Require Import Introspection Router Entry EntryErc20.
From Verif.Model Require SolAbi Erc20.
From Verif.Spec Require Import Router_spec SolAbi_spec LogMeaning_spec Errors_spec Entry_spec Ledger_spec EntryAccess_spec.
From Verif.Spec Require Erc20_spec.
From Verif.Proofs Require Import Router_lemmas Entry_lemmas Ledger_lemmas EntryVault_lemmas.
From Verif.Proofs Require SolAbi_lemmas Erc20_inv Erc20_api.
From Verif.Props Require Import SolAbi_props.
Import SolAbi.
#[global] Open Scope Z_scope.
Local Open Scope list_scope.
Local Open Scope Z_scope.
Opaque keccak256.

Lemma decide_tt {B} l (b : B) : decide l b = match decide l tt with Yes _ => Yes b | No r => No r end.
Proof. induction l as [|[x r] l IH]; [reflexivity|]. cbn [decide]. destruct x; [reflexivity|exact IH]. Qed.

Section ideal.
  Context {S E B Q : Type} (C : contract S E) (fine : S -> B -> Prop) (R : E -> reason).
  Context (HR : forall e, reason_fits (R e) -> decode_reason (revert_data C e) = Some (R e)).
  Lemma meets_ext {A} (m m' : M S E A) s l v b : m s = m' s -> meets fine R m s l v b -> meets fine R m' s l v b.
  Proof. unfold meets. intros ->. auto. Qed.
  Lemma settle (m : M S E (list val)) s l v b' c data result :
    entry C c 0 data s = finish C (m s) s -> abi_params v = result -> meets fine R m s l v b' ->
    settled (entry C) fine s c data result (decide l b').
  Proof.
    intros He <- H. unfold meets in H. rewrite decide_tt. destruct (decide l tt) as [[]|[why|]]; cbn [settled].
    - destruct H as (s' & E1 & F). exists s'. rewrite He, E1. split; [reflexivity|exact F].
    - destruct H as (e & s' & E1 & <- & Hf). exists (revert_data C e). rewrite He, E1. split; [reflexivity|apply HR, Hf].
    - destruct H as (s' & E1). rewrite He, E1. reflexivity.
  Qed.
  Lemma nothing_meets (m : M S E unit) s l b : meets fine R m s l tt b -> meets fine R (nothing m) s l [] b.
  Proof.
    unfold meets, nothing. mred. destruct (decide l tt) as [[]|[why|]].
    - intros (s' & -> & F). eauto.
    - intros (e & s' & -> & K). eauto.
    - intros (s' & ->). eauto.
  Qed.

  Context (data result : Q -> list Z) (qfits : Q -> Prop) (ideal : Z -> Q -> B -> verdict B).
  Context (Hany : forall c v d s, List.Forall is_byte d -> size d < two256 ->
    snd (entry C c v d s) = s \/ exists q, v = 0 /\ d = data q /\ qfits q).
  Context (Hdoes : forall s b c q, fine s b -> is_address c -> qfits q ->
    settled (entry C) fine s c (data q) (result q) (ideal c q b)).
  (** Along a history. *)
  Lemma run_ideal (P : B -> Prop) h : sent h ->
    (forall c q b b', In (c, 0, data q) h -> qfits q -> P b -> ideal c q b = Yes b' -> P b') ->
    forall s b, fine s b -> P b -> exists b', fine (raw_run C h s) b' /\ P b'.
  Proof.
    induction h as [|[[c v] d] h IH]; intros Hh HP s b F Pb; [exists b; auto|].
    apply List.Forall_cons_iff in Hh. destruct Hh as [(Hc & Hb & Hs) Hh]. cbn [fst snd] in Hc, Hb, Hs.
    change (raw_run C ((c, v, d) :: h) s) with (raw_run C h (snd (entry C c v d s))).
    assert (IH' : forall s b, fine s b -> P b -> exists b', fine (raw_run C h s) b' /\ P b').
    { apply (IH Hh). intros c0 q b0 b1 Hin. apply HP. right. exact Hin. }
    destruct (Hany c v d s Hb Hs) as [->|(q & -> & -> & Hq)]; [apply (IH' s b F Pb)|].
    pose proof (Hdoes s b c q F Hc Hq) as D. destruct (ideal c q b) as [b'|[why|]] eqn:Ei; cbn [settled] in D.
    - destruct D as (s' & -> & F'). cbn [snd]. apply (IH' s' b' F'). apply (HP c q b b'); auto. left. reflexivity.
    - destruct D as (x & -> & _). apply (IH' s b F Pb).
    - rewrite D. apply (IH' s b F Pb).
  Qed.
  Lemma run_fine h s b : sent h -> fine s b -> exists b', fine (raw_run C h s) b'.
  Proof.
    intros Hh F. destruct (run_ideal (fun _ => True) h Hh ltac:(auto) s b F I) as (b' & F' & _). eauto.
  Qed.
End ideal.

(** ** The calls that the entry point takes *)
Section proper.
  Context {S E : Type} (C : contract S E) (I : list (string * list abi_type)).
  Context (Hk : all_known (blocks C) = true).
  Context (Hx : forall t f, In (t, f) (exposed (blocks C)) -> In (fn_sig f, arg_types f) I).
  Lemma proper_or_reverts c v d s : List.Forall is_byte d -> size d < two256 ->
    entry C c v d s = (Reverted [], s) \/ well_formed I v d.
  Proof.
    intros Hb Hsz. destruct (entry_cases C c v d s Hk Hb Hsz) as [K|(t & f & args & Hin & Hv & Ht & Hd & _)]; [left; exact K|right].
    split; [exact Hv|]. exists (fn_sig f), (arg_types f), args. split; [apply (Hx t), Hin|]. split; assumption.
  Qed.
End proper.

(** ** The ledger *)
Section ledger.
  Context {S E : Type} (C : contract S E) (get : S -> Erc20.state).
  Context (Q1 : forall c s, entry C c 0 (calldata "totalSupply()" []) s = (Returned (word (Erc20.total_supply (get s))), s)).
  Context (Q2 : forall c s a, is_address a -> entry C c 0 (calldata "balanceOf(address)" [Word a]) s = (Returned (word (Erc20.balance_of (get s) a)), s)).
  Context (Q3 : forall c s a b, is_address a -> is_address b ->
    entry C c 0 (calldata "allowance(address,address)" [Word a; Word b]) s = (Returned (word (Erc20.allowance (get s) a b)), s)).
  Lemma ledger_shown s b : keeps (get s) b -> shows_ledger (entry C) s b.
  Proof.
    intros (K1 & K2 & K3). split; [intros c; rewrite Q1, K1; reflexivity|]. split.
    - intros a Ha c. rewrite (Q2 c s a Ha), K2 by exact Ha. reflexivity.
    - intros a x Ha Hx c. rewrite (Q3 c s a x Ha Hx), K3 by assumption. reflexivity.
  Qed.
  Lemma reported x y : is_u256 x -> is_u256 y -> forall s : S, (Returned (word x), s) = (Returned (word y), s) -> y = x.
  Proof. intros Hx Hy s H. symmetry. apply word_inj; [exact Hx|exact Hy|]. congruence. Qed.
  Lemma shown_ledger s b : Erc20_inv.Inv (get s) -> ledger_fits b -> shows_ledger (entry C) s b -> tfine (get s) b.
  Proof.
    intros HI F (K1 & K2 & K3). split; [exact HI|]. split; [|exact F]. pose proof F as (F1' & F2 & F3).
    split; [|split].
    - specialize (K1 0). rewrite Q1 in K1. exact (reported _ _ (supply_fits _ HI) F1' _ K1).
    - intros a Ha. specialize (K2 a Ha 0). rewrite (Q2 0 s a Ha) in K2. exact (reported _ _ (balance_fits _ a HI) (F2 a) _ K2).
    - intros a x Ha Hx. specialize (K3 a x Ha Hx 0). rewrite (Q3 0 s a x Ha Hx) in K3.
      exact (reported _ _ (allowance_fits _ a x HI) (F3 a x) _ K3).
  Qed.
End ledger.
(** An order as the body of a function of the token. *)
Definition order_flag (c : Z) (o : order) : M Erc20.state Erc20.error (list val) :=
  match o with
  | Pay t v => flag (Erc20.transfer c t v)
  | Allow sp v => flag (Erc20.approve c sp v)
  | Draw f t v => flag (Erc20.transfer_from c f t v)
  | Issue a v => nothing (Erc20._mint a v)
  end.
Lemma flag_ignore {A} (m : M A Erc20.error bool) t : (forall b, fst (m t) = Ok b -> b = true) ->
  flag m t = (Erc20.ignore m ;;; ret [Word 1]) t.
Proof.
  intros H. unfold flag, Erc20.ignore. mred. destruct (m t) as [[b|e|] t'] eqn:E; [|reflexivity..].
  rewrite (H b eq_refl). reflexivity.
Qed.
Lemma order_flag_meets t b c o : tfine t b -> is_address c -> holder_order o ->
  meets tfine reason_erc20 (order_flag c o) t (order_checks c o b) [Word 1] (order_effect c o b).
Proof.
  intros F Hc Ho. assert (Ho' : order_fits o) by (destruct o; [exact Ho..|contradiction]).
  assert (E : order_flag c o t = (Erc20.exec c (order_op o) ;;; ret [Word 1]) t).
  { destruct o as [a v|a v|a d v|a v]; cbn [order_flag order_op Erc20.exec].
    - apply flag_ignore, transfer_true.
    - apply flag_ignore, approve_true.
    - apply flag_ignore, transfer_from_true.
    - contradiction. }
  unfold meets. rewrite E. pose proof (order_meets t b c o F Hc Ho') as H. unfold meets in H. mred.
  destruct (decide (order_checks c o b) tt) as [[]|[why|]].
  - destruct H as (s' & -> & K). eauto.
  - destruct H as (e & s' & -> & K). eauto.
  - destruct H as (s' & ->). eauto.
Qed.
(** Errors and states of a part, in the whole. *)
Lemma lift_meets {S T E E' B D A} (fine : S -> B -> Prop) (part : T -> D -> Prop) (R : E -> reason) (R' : E' -> reason)
    (f : E' -> E) (g : S -> T) (p : T -> S -> S) (up : D -> B) (m : M T E' A) s l v d :
  (forall e, R (f e) = R' e) -> (forall t, part t d -> fine (p t s) (up d)) ->
  meets part R' m (g s) l v d -> meets fine R (map_err f (zoom g p m)) s l v (up d).
Proof.
  intros H1 H2. unfold meets. mred. destruct (decide l tt) as [[]|[why|]].
  - intros (t & -> & K). eauto.
  - intros (e & t & -> & <- & K). exists (f e), (p t s). rewrite H1. auto.
  - intros (t & ->). eauto.
Qed.
Lemma flag_lift {S T E E'} (f : E' -> E) (g : S -> T) (p : T -> S -> S) (m : M T E' bool) s :
  flag (map_err f (zoom g p m)) s = map_err f (zoom g p (flag m)) s.
Proof. unfold flag. mred. destruct (m (g s)) as [[b|e|] t]; reflexivity. Qed.
