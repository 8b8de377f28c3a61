(** C95: examples/ownable and examples/ownable-two-step behind their entry points, over all
    calls as bytes. *)
From Verif.Base Require Import Prelude Bytes Keccak Maps.
From Coq Require Import String List.
From Verif.Model Require Import Introspection Router Entry EntryErc20 EntryAccess.
From Verif.Model Require SolAbi Erc20 Ownable Ownable2Step OwnableExample.
From Verif.Spec Require Import Router_spec SolAbi_spec LogMeaning_spec Errors_spec Entry_spec Ledger_spec EntryAccess_spec.
From Verif.Proofs Require Import Router_lemmas Entry_lemmas Ledger_lemmas EntryVault_lemmas EntryAccess_lemmas.
From Verif.Proofs Require SolAbi_lemmas Erc20_inv Erc20_api.
From Verif.Props Require Import SolAbi_props.
From Verif.Props Require EntryNft_props.
Import SolAbi OwnableExample.
#[global] Open Scope Z_scope.
Local Open Scope list_scope.
Local Open Scope Z_scope.
Opaque keccak256.

Definition reason_owner_example (e : error) : reason :=
  match e with Erc20Error e => reason_erc20 e | OwnableError e => reason_ownable e end.
Lemma decode_owner_example e : reason_fits (reason_owner_example e) -> decode_reason (revert_ownable_example e) = Some (reason_owner_example e).
Proof. destruct e as [e|e]; [exact (revert_erc20_ok e)|exact (revert_ownable_ok e)]. Qed.
Lemma settled_impl {B S0} (call : Z -> Z -> list Z -> S0 -> answer * S0) (P P' : S0 -> B -> Prop) s c d r v :
  (forall s' b, P s' b -> P' s' b) -> settled call P s c d r v -> settled call P' s c d r v.
Proof. intros H. destruct v as [b|[w|]]; cbn [settled]; [|auto..]. intros (s' & E & K). eauto. Qed.
Lemma decided {B} l (b b' : B) : decide l b = Yes b' -> b' = b.
Proof. rewrite decide_tt. destruct (decide l tt); [|discriminate]. intros [= <-]. reflexivity. Qed.

(** * One step *)
Module One.
Local Notation C := ExampleOwnable.
Local Notation erc20 := OwnableExample.erc20.
Local Notation set20 := (fun t s => OwnableExample.mk t (ownable s)).
Lemma known : all_known (blocks C) = true.
Proof. vm_compute. reflexivity. Qed.
Definition exposed_all := Eval vm_compute in exposed (blocks C).
Lemma exposed_ok : exposed (blocks C) = exposed_all.
Proof. vm_compute. reflexivity. Qed.
Lemma exposed_interface t f : In (t, f) (exposed (blocks C)) -> In (fn_sig f, arg_types f) owner_interface.
Proof.
  rewrite exposed_ok. intros H.
  assert (K : forallb (fun p => if in_dec EntryNft_props.same_entry (fn_sig (snd p), arg_types (snd p)) owner_interface then true else false) exposed_all = true)
    by (vm_compute; reflexivity).
  rewrite forallb_forall in K. specialize (K _ H). cbn [snd] in K. destruct (in_dec _ _ _) as [Hin|]; [exact Hin|discriminate].
Qed.
Lemma ask_supply c s : entry C c 0 (calldata "totalSupply()" []) s = (Returned (word (Erc20.total_supply (erc20 s))), s).
Proof. change (@nil val) with (map Word []). ask C known "totalSupply()"%string (@nil Z) "Erc20"%string (fn "total_supply" []). rewrite <- one_word. reflexivity. Qed.
Lemma ask_balance c s a : is_address a -> entry C c 0 (calldata "balanceOf(address)" [Word a]) s = (Returned (word (Erc20.balance_of (erc20 s) a)), s).
Proof. intros H. change [Word a] with (map Word [a]). ask C known "balanceOf(address)"%string [a] "Erc20"%string (fn "balance_of" [Address]). rewrite <- one_word. reflexivity. Qed.
Lemma ask_allowance c s a b : is_address a -> is_address b ->
  entry C c 0 (calldata "allowance(address,address)" [Word a; Word b]) s = (Returned (word (Erc20.allowance (erc20 s) a b)), s).
Proof.
  intros H H'. change [Word a; Word b] with (map Word [a; b]). ask C known "allowance(address,address)"%string [a; b] "Erc20"%string (fn "allowance" [Address; Address]).
  rewrite <- one_word. reflexivity.
Qed.
Lemma ask_owner c s : entry C c 0 (calldata "owner()" []) s = (Returned (word (Ownable.owner (ownable s))), s).
Proof. change (@nil val) with (map Word []). ask C known "owner()"%string (@nil Z) "Ownable"%string (fn "owner" []). rewrite <- one_word. reflexivity. Qed.

Definition fine (s : state) (b : deed) : Prop :=
  tfine (erc20 s) (purse b) /\ holder b = Ownable.owner (ownable s) /\ heir b = 0 /\ is_address (holder b) /\ is_address (heir b).
Lemma fine_shows s b : fine s b -> shows_owner (entry C) s b.
Proof.
  intros ((_ & K & _) & A1 & A2 & _). split; [intros c; rewrite ask_owner, A1; reflexivity|]. split; [exact A2|].
  exact (ledger_shown C (OwnableExample.erc20) ask_supply ask_balance ask_allowance s (purse b) K).
Qed.
Definition shown (s : state) (b : deed) : Prop := shows_owner (entry C) s b /\ deed_fits b.
Lemma fine_shown s b : fine s b -> shown s b.
Proof. intros F. split; [apply fine_shows, F|]. destruct F as ((_ & _ & F) & _ & _ & A3 & A4). exact (conj A3 (conj A4 F)). Qed.
Lemma shown_fine s b0 b : fine s b0 -> shown s b -> fine s b.
Proof.
  intros ((HI & _ & _) & A1 & A2 & A3 & A4) ((S1 & S2 & S3) & B1 & B2 & B3).
  split; [exact (shown_ledger C (OwnableExample.erc20) ask_supply ask_balance ask_allowance s (purse b) HI B3 S3)|].
  split; [|split; [|exact (conj B1 B2)]].
  - specialize (S1 0). rewrite ask_owner in S1. refine (reported _ _ _ (address_fits _ B1) _ S1). rewrite <- A1. apply address_fits, A3.
  - exact S2.
Qed.

Local Notation meets := (EntryVault_lemmas.meets fine reason_owner_example).
Lemma owner_meets s b c : fine s b -> is_address c ->
  meets (on_ownable (Ownable.only_owner c)) s (is_owner b c) tt b.
Proof.
  intros F Hc. pose proof F as (_ & A1 & _). unfold is_owner. rewrite A1. destruct s as [t o]. 
  unfold EntryVault_lemmas.meets, on_ownable, Ownable.only_owner. mred. cbn [ownable OwnableExample.erc20 decide].
  match goal with |- context [negb ?x] => destruct x end; cbn [negb].
  - eexists. split; [reflexivity|exact F].
  - eexists _, _. split; [reflexivity|]. split; [reflexivity|]. apply F1, address_fits, Hc.
Qed.
Lemma on_own_bind {A A'} (m : M Ownable.state Ownable.error A) (f : A -> M Ownable.state Ownable.error A') s :
  on_ownable (bind m f) s = bind (on_ownable m) (fun x => on_ownable (f x)) s.
Proof. unfold on_ownable. mred. destruct s as [t a]. cbn [ownable OwnableExample.erc20]. destruct (m a) as [[x|e|] a']; reflexivity. Qed.
Lemma pass_meets s b a : fine s b -> is_address a ->
  meets (on_ownable (Ownable._transfer_ownership a)) s [] tt (mkDeed a (heir b) (purse b)).
Proof.
  intros (K & A1 & A2 & A3 & A4) Ha. destruct s as [t o]. unfold EntryVault_lemmas.meets, on_ownable, Ownable._transfer_ownership. mred.
  cbn [ownable OwnableExample.erc20 decide]. eexists. split; [reflexivity|]. split; [exact K|]. split; [reflexivity|]. split; [exact A2|]. exact (conj Ha A4).
Qed.
Lemma hand_meets s b c a : fine s b -> is_address c -> is_address a ->
  meets (on_ownable (Ownable.transfer_ownership c a)) s (is_owner b c ++ [(a =? 0, Some (OwnableInvalidOwner 0))]) tt (mkDeed a (heir b) (purse b)).
Proof.
  intros F Hc Ha. unfold Ownable.transfer_ownership. refine (meets_ext _ _ _ _ _ _ _ _ (eq_sym (on_own_bind _ _ s)) _).
  refine (meets_bind fine reason_owner_example _ _ _ _ _ b _ _ _ (owner_meets s b c F Hc) _). intros s' _ F'.
  refine (meets_ext _ _ _ _ _ _ _ _ (eq_sym (on_own_bind _ _ s')) _).
  change [(a =? 0, Some (OwnableInvalidOwner 0))] with ([(a =? 0, Some (OwnableInvalidOwner 0))] ++ []).
  refine (meets_bind fine reason_owner_example _ _ _ _ _ b _ _ _ _ _).
  - destruct s' as [t o]. unfold EntryVault_lemmas.meets, on_ownable. mred. cbn [ownable OwnableExample.erc20 decide]. destruct (a =? 0).
    + eexists _, _. split; [reflexivity|]. split; [reflexivity|]. apply F1, zero_fits.
    + eexists. split; [reflexivity|exact F'].
  - intros s1 _ F1'. apply pass_meets; assumption.
Qed.
Lemma abandon_meets s b c : fine s b -> is_address c ->
  meets (on_ownable (Ownable.renounce_ownership c)) s (is_owner b c) tt (mkDeed 0 (heir b) (purse b)).
Proof.
  intros F Hc. unfold Ownable.renounce_ownership. refine (meets_ext _ _ _ _ _ _ _ _ (eq_sym (on_own_bind _ _ s)) _).
  rewrite <- (app_nil_r (is_owner b c)). refine (meets_bind fine reason_owner_example _ _ _ _ _ b _ _ _ (owner_meets s b c F Hc) _). intros s' _ F'.
  apply pass_meets; [exact F'|unfold is_address; lia].
Qed.
Lemma money_meets s b c o : fine s b -> is_address c -> holder_order o ->
  meets (on_erc20 (order_flag c o)) s (order_checks c o (purse b)) [Word 1] (mkDeed (holder b) (heir b) (order_effect c o (purse b))).
Proof.
  intros [K A] Hc Ho. apply (lift_meets fine tfine reason_owner_example reason_erc20 Erc20Error (OwnableExample.erc20) set20
    (fun l => mkDeed (holder b) (heir b) l) (order_flag c o) s (order_checks c o (purse b))); [reflexivity| |exact (order_flag_meets _ _ c o K Hc Ho)].
  intros t Kt. split; [exact Kt|exact A].
Qed.
Lemma pay_meets s b c a v : fine s b -> is_address c -> holder_order (Pay a v) ->
  meets (nothing (OwnableExample.transfer c a v)) s (is_owner b c ++ order_checks c (Pay a v) (purse b)) []
    (mkDeed (holder b) (heir b) (order_effect c (Pay a v) (purse b))).
Proof.
  intros F Hc Ho.
  apply (meets_ext fine reason_owner_example (bind (on_ownable (Ownable.only_owner c)) (fun _ => on_erc20 (order_flag c (Pay a v)) ;;; ret []))).
  { unfold OwnableExample.transfer, nothing, bind. destruct (on_ownable (Ownable.only_owner c) s) as [[[]|e|] s']; [|reflexivity..].
    unfold order_flag, flag, on_erc20. mred. destruct (Erc20.transfer c a v (erc20 s')) as [[x|e|] t]; reflexivity. }
  refine (meets_bind fine reason_owner_example _ _ _ _ _ b _ _ _ (owner_meets s b c F Hc) _).
  intros s' _ F'. rewrite <- (app_nil_r (order_checks _ _ _)).
  refine (meets_bind fine reason_owner_example _ _ _ _ _ _ _ _ _ (money_meets s' b c (Pay a v) F' Hc Ho) _).
  intros s1 _ F1'. apply meets_ret, F1'.
Qed.
Lemma request_does s b c q : fine s b -> is_address c -> owner_request_fits q ->
  settled (entry C) fine s c (owner_data q) (owner_result q) (owner_ideal c q b).
Proof.
  intros F Hc Hq. destruct q as [a| | |[a v|a v|f t v|a v]]; cbn [owner_request_fits holder_order order_fits] in Hq; unfold owner_data, order_calldata, owner_result, owner_ideal, spend_ideal.
  - refine (settle C fine reason_owner_example decode_owner_example (nothing (on_ownable (Ownable.transfer_ownership c a))) s _ [] _ c _ [] _ eq_refl _).
    + change [Word a] with (map Word [a]). ask C known "transferOwnership(address)"%string [a] "Ownable"%string (fn "transfer_ownership" [Address]). reflexivity.
    + apply nothing_meets, hand_meets; assumption.
  - contradiction.
  - refine (settle C fine reason_owner_example decode_owner_example (nothing (on_ownable (Ownable.renounce_ownership c))) s _ [] _ c _ [] _ eq_refl _).
    + change (@nil val) with (map Word []). ask C known "renounceOwnership()"%string (@nil Z) "Ownable"%string (fn "renounce_ownership" []). reflexivity.
    + apply nothing_meets, abandon_meets; assumption.
  - refine (settle C fine reason_owner_example decode_owner_example (nothing (OwnableExample.transfer c a v)) s _ [] _ c _ _ _ eq_refl (pay_meets s b c a v F Hc Hq)).
    change [Word a; Word v] with (map Word [a; v]). ask C known "transfer(address,uint256)"%string [a; v] "OwnableExample"%string (fn "transfer" [Address; U256]). reflexivity.
  - refine (settle C fine reason_owner_example decode_owner_example (on_erc20 (order_flag c (Allow a v))) s _ [Word 1] _ c _ _ _ (one_word 1) (money_meets s b c (Allow a v) F Hc Hq)).
    change [Word a; Word v] with (map Word [a; v]). ask C known "approve(address,uint256)"%string [a; v] "Erc20"%string (fn "approve" [Address; U256]).
    exact (f_equal (fun x => finish C x s) (flag_lift Erc20Error (OwnableExample.erc20) set20 (Erc20.approve c a v) s)).
  - refine (settle C fine reason_owner_example decode_owner_example (on_erc20 (order_flag c (Draw f t v))) s _ [Word 1] _ c _ _ _ (one_word 1) (money_meets s b c (Draw f t v) F Hc Hq)).
    change [Word f; Word t; Word v] with (map Word [f; t; v]). ask C known "transferFrom(address,address,uint256)"%string [f; t; v] "Erc20"%string (fn "transfer_from" [Address; Address; U256]).
    exact (f_equal (fun x => finish C x s) (flag_lift Erc20Error (OwnableExample.erc20) set20 (Erc20.transfer_from c f t v) s)).
  - contradiction.
Qed.
Lemma any_call c v d s : List.Forall is_byte d -> size d < two256 ->
  snd (entry C c v d s) = s \/ exists q, v = 0 /\ d = owner_data q /\ owner_request_fits q.
Proof.
  intros Hb Hsz. destruct (entry_cases C c v d s known Hb Hsz) as [->|(t & f & args & Hin & -> & Ht & Hd & He)]; [left; reflexivity|].
  rewrite exposed_ok in Hin. unfold exposed_all in Hin. rewrite He. clear He Hb Hsz.
  one_of Hin Ht.
  all: try (left; reflexivity).
  all: match goal with |- context [fn_sig ?f] => let x := eval vm_compute in (fn_sig f) in change (fn_sig f) with x end.
  Ltac req r := right; exists r; split; [reflexivity|]; split; [reflexivity|cbn [owner_request_fits holder_order order_fits]; tauto].
  all: match goal with
    | |- context [calldata "transfer(address,uint256)" [Word ?a; Word ?v]] => req (Spend (Pay a v))
    | |- context [calldata "approve(address,uint256)" [Word ?a; Word ?v]] => req (Spend (Allow a v))
    | |- context [calldata "transferFrom(address,address,uint256)" [Word ?a; Word ?b; Word ?v]] => req (Spend (Draw a b v))
    | |- context [calldata "transferOwnership(address)" [Word ?a]] => req (HandOver a)
    | |- context [calldata "acceptOwnership()" []] => req Accept
    | |- context [calldata "renounceOwnership()" []] => req Abandon
    end.
Qed.
Definition deployed (o : Z) (h0 : list (Z * Erc20.op)) : state := OwnableExample.mk (Erc20.run h0 Erc20.init) (Ownable.mk o []).
Lemma deployed_fine o h0 : is_address o -> Erc20.hist_wf h0 -> fine (deployed o h0) (mkDeed o 0 (ledger_of (Erc20.run h0 Erc20.init))).
Proof.
  intros Ho Hh. assert (HI : Erc20_inv.Inv (Erc20.run h0 Erc20.init)) by (apply Erc20_inv.inv_run; [exact Hh|apply Erc20_inv.inv_init]).
  destruct (ledger_of_ok _ HI) as [F K]. split; [exact (conj HI (conj K F))|]. split; [reflexivity|]. split; [reflexivity|].
  split; [exact Ho|]. cbn [heir]. unfold is_address. lia.
Qed.
Lemma reach_fine o h0 h : is_address o -> Erc20.hist_wf h0 -> sent h -> exists b, fine (raw_run C h (deployed o h0)) b.
Proof. intros Ho Hh0 Hh. exact (run_fine C fine owner_data owner_result owner_request_fits owner_ideal any_call request_does h _ _ Hh (deployed_fine o h0 Ho Hh0)). Qed.
Lemma invariant (P : deed -> Prop) h : sent h ->
  (forall c q b b', In (c, 0, owner_data q) h -> owner_request_fits q -> P b -> owner_ideal c q b = Yes b' -> P b') ->
  forall s b, fine s b -> P b -> exists b', fine (raw_run C h s) b' /\ P b'.
Proof. exact (run_ideal C fine owner_data owner_result owner_request_fits owner_ideal any_call request_does P h). Qed.
Lemma told_owner s b x : fine s b -> is_address x -> reports (entry C) s "owner()" [] x -> holder b = x.
Proof.
  intros (_ & A1 & _ & A3 & _) Hx H. specialize (H 0). rewrite ask_owner, <- A1 in H. symmetry.
  exact (reported _ _ (address_fits _ A3) (address_fits _ Hx) _ H).
Qed.

Lemma told_balance s b a x : fine s b -> is_address a -> is_u256 x -> reports (entry C) s "balanceOf(address)" [Word a] x -> l_balance (purse b) a = x.
Proof.
  intros ((HI & K & _) & _) Ha Hx H. specialize (H 0). rewrite (ask_balance 0 s a Ha) in H. destruct K as (_ & K & _). rewrite (K a Ha).
  symmetry. exact (reported _ _ (balance_fits _ a HI) Hx _ H).
Qed.
End One.

(** After any history of calls, each of any bytes, whatever is sent next is answered as the
    ideal book says, with the reason it gives. *)
Theorem c95_owner_is_ideal :
  forall o h0 h, is_address o -> Erc20.hist_wf h0 -> sent h ->
  let s := raw_run ExampleOwnable h (One.deployed o h0) in
  (exists b, One.shown s b) /\
  (forall b c q, One.shown s b -> is_address c -> owner_request_fits q ->
     settled (entry ExampleOwnable) One.shown s c (owner_data q) (owner_result q) (owner_ideal c q b)) /\
  (exists l, One.shown (One.deployed o h0) (mkDeed o 0 l)).
Proof.
  intros o h0 h Ho Hh0 Hh s. destruct (One.reach_fine o h0 h Ho Hh0 Hh) as [b0 F0]. fold s in F0. split; [|split].
  - exists b0. apply One.fine_shown, F0.
  - intros b c q Sb Hc Hq. apply (settled_impl _ One.fine); [exact One.fine_shown|].
    apply One.request_does; [apply (One.shown_fine s b0); assumption|assumption..].
  - eexists. apply One.fine_shown, (One.deployed_fine o h0 Ho Hh0).
Qed.
Print Assumptions c95_owner_is_ideal.
Theorem c95_owner_nothing_else :
  forall c v d s, List.Forall is_byte d -> size d < two256 ->
  (~ well_formed owner_interface v d -> entry ExampleOwnable c v d s = (Reverted [], s)) /\
  (snd (entry ExampleOwnable c v d s) <> s -> exists q, v = 0 /\ d = owner_data q /\ owner_request_fits q).
Proof.
  intros c v d s Hb Hsz. split.
  - intros N. destruct (proper_or_reverts ExampleOwnable owner_interface One.known One.exposed_interface c v d s Hb Hsz) as [K|K]; [exact K|contradiction].
  - intros N. destruct (One.any_call c v d s Hb Hsz) as [K|K]; [contradiction|exact K].
Qed.
Print Assumptions c95_owner_nothing_else.

(** The owner's leave on [transfer] restrains nobody: whoever holds tokens moves them anywhere
    with two calls, an approval of themselves and [transferFrom]. *)
Theorem c95_owner_guard_is_bypassed :
  forall o h0 h c to v x y, is_address o -> Erc20.hist_wf h0 -> sent h ->
  is_address c -> is_address to -> is_u256 v -> is_u256 x -> is_u256 y -> c <> 0 -> to <> 0 -> c <> to ->
  let s := raw_run ExampleOwnable h (One.deployed o h0) in
  reports (entry ExampleOwnable) s "balanceOf(address)" [Word c] x -> reports (entry ExampleOwnable) s "balanceOf(address)" [Word to] y -> v <= x ->
  exists s1 s2, entry ExampleOwnable c 0 (owner_data (Spend (Allow c v))) s = (Returned (word 1), s1) /\
    entry ExampleOwnable c 0 (owner_data (Spend (Draw c to v))) s1 = (Returned (word 1), s2) /\
    reports (entry ExampleOwnable) s2 "balanceOf(address)" [Word c] (x - v) /\ reports (entry ExampleOwnable) s2 "balanceOf(address)" [Word to] (y + v).
Proof.
  intros o h0 h c to v x y Ho Hh0 Hh Hc Hto Hv Hx Hy Nc Nto Nn s Bc Bt Hle. destruct (One.reach_fine o h0 h Ho Hh0 Hh) as [b F]. fold s in F.
  pose proof (One.told_balance s b c x F Hc Hx Bc) as Ec. pose proof (One.told_balance s b to y F Hto Hy Bt) as Et.
  clearbody s. clear - F Hc Hto Hv Nc Nto Nn Ec Et Hle.
  pose proof (One.request_does s b c (Spend (Allow c v)) F Hc (conj Hc Hv)) as D1. unfold owner_ideal, spend_ideal in D1. cbn [app order_checks may_approve decide] in D1.
  replace (c =? 0) with false in D1 by (clear - Nc; lia). cbn [settled] in D1. destruct D1 as (s1 & E1 & F1').
  pose proof (One.request_does s1 _ c (Spend (Draw c to v)) F1' Hc (conj Hc (conj Hto Hv))) as D2.
  unfold owner_ideal, spend_ideal in D2. cbn [app order_checks order_effect purse holder heir] in D2. unfold may_spend, may_move in D2.
  cbn [with_allowance l_balance l_allowance] in D2. rewrite !Z.eqb_refl, Ec in D2. cbn [andb] in D2.
  replace (c =? 0) with false in D2 by (clear - Nc; lia). replace (to =? 0) with false in D2 by (clear - Nto; lia).
  replace (v <? v) with false in D2 by (clear; lia). replace (x <? v) with false in D2 by (clear - Hle; lia).
  match type of D2 with settled _ _ _ _ _ _ (decide ?l ?b') => assert (Y : decide l b' = Yes b') by (destruct (v =? U256_MAX); reflexivity); rewrite Y in D2; clear Y end.
  cbn [settled] in D2. destruct D2 as (s2 & E2 & F2'). exists s1, s2. split; [exact E1|]. split; [exact E2|].
  pose proof (proj1 (One.fine_shown _ _ F2')) as (_ & _ & _ & B & _). cbn [purse with_balances l_balance] in B.
  pose proof (B c Hc) as B1. pose proof (B to Hto) as B2. unfold moved, at_key in B1, B2.
  rewrite !Z.eqb_refl, Ec in B1. rewrite !Z.eqb_refl in B2.
  replace (c =? to) with false in B1 by (clear - Nn; lia). replace (to =? c) with false in B2 by (clear - Nn; lia). cbn [with_allowance l_balance] in B2. rewrite Et in B2.
  split; [exact B1|exact B2].
Qed.
Print Assumptions c95_owner_guard_is_bypassed.

(** A [transfer] that succeeds answers nothing: ERC-20's flag is missing. *)
Theorem c95_owner_transfer_answers_nothing :
  forall o h0 h c to v out s', is_address o -> Erc20.hist_wf h0 -> sent h -> is_address c -> is_address to -> is_u256 v ->
  let s := raw_run ExampleOwnable h (One.deployed o h0) in
  entry ExampleOwnable c 0 (owner_data (Spend (Pay to v))) s = (Returned out, s') -> out = [].
Proof.
  intros o h0 h c to v out s' Ho Hh0 Hh Hc Hto Hv s H. destruct (One.reach_fine o h0 h Ho Hh0 Hh) as [b F]. fold s in F.
  pose proof (One.request_does s b c (Spend (Pay to v)) F Hc (conj Hto Hv)) as D.
  assert (Q : forall r t, entry ExampleOwnable c 0 (owner_data (Spend (Pay to v))) s = (r, t) -> r = Returned out).
  { intros r t K. pose proof (eq_trans (eq_sym K) H) as Q. apply pair_equal_spec in Q. apply Q. }
  clear H. destruct (owner_ideal c (Spend (Pay to v)) b) as [b'|[w|]]; cbn [settled] in D.
  - destruct D as (s2 & D & _). pose proof (Q _ _ D) as K. cbn [owner_result] in K. injection K as K. symmetry. exact K.
  - destruct D as (d & D & _). pose proof (Q _ _ D) as K. discriminate K.
  - pose proof (Q _ _ D) as K. discriminate K.
Qed.
Print Assumptions c95_owner_transfer_answers_nothing.
Theorem c95_owner_transfer_answers_a_flag_refuted :
  exists o h0 c to v s', is_address o /\ Erc20.hist_wf h0 /\ c <> 0 /\
  exists out, entry ExampleOwnable c 0 (owner_data (Spend (Pay to v))) (One.deployed o h0) = (Returned out, s') /\ out <> word 1.
Proof.
  assert (Ad : forall x, 0 <= x < 10 -> is_address x) by (unfold is_address; lia).
  assert (U : forall x, 0 <= x < 1000 -> is_u256 x) by (intros x Hx; split; [lia|]; transitivity 1000; [lia|reflexivity]).
  assert (Hw : Erc20.hist_wf [(1, Erc20.OMint 5 100)]).
  { apply List.Forall_cons; [|apply List.Forall_nil]. exact (U 100 ltac:(lia)). }
  destruct (One.request_does _ _ 5 (Spend (Pay 7 30)) (One.deployed_fine 5 _ (Ad 5 ltac:(lia)) Hw) (Ad 5 ltac:(lia)) (conj (Ad 7 ltac:(lia)) (U 30 ltac:(lia)))) as (s1 & E1 & _).
  exists 5, [(1, Erc20.OMint 5 100)], 5, 7, 30, s1. split; [exact (Ad 5 ltac:(lia))|]. split; [exact Hw|]. split; [discriminate|].
  exists []. split; [exact E1|]. discriminate.
Qed.
Print Assumptions c95_owner_transfer_answers_a_flag_refuted.

(** * Two steps *)
Module Two.
Local Notation C := ExampleTwoStep.
Local Notation erc20 := OwnableExample.erc20_2.
Local Notation set20 := (fun t s => OwnableExample.mk2 t (ownable2 s)).
Lemma known : all_known (blocks C) = true.
Proof. vm_compute. reflexivity. Qed.
Definition exposed_all := Eval vm_compute in exposed (blocks C).
Lemma exposed_ok : exposed (blocks C) = exposed_all.
Proof. vm_compute. reflexivity. Qed.
Lemma exposed_interface t f : In (t, f) (exposed (blocks C)) -> In (fn_sig f, arg_types f) heir_interface.
Proof.
  rewrite exposed_ok. intros H.
  assert (K : forallb (fun p => if in_dec EntryNft_props.same_entry (fn_sig (snd p), arg_types (snd p)) heir_interface then true else false) exposed_all = true)
    by (vm_compute; reflexivity).
  rewrite forallb_forall in K. specialize (K _ H). cbn [snd] in K. destruct (in_dec _ _ _) as [Hin|]; [exact Hin|discriminate].
Qed.
Lemma ask_supply c s : entry C c 0 (calldata "totalSupply()" []) s = (Returned (word (Erc20.total_supply (erc20 s))), s).
Proof. change (@nil val) with (map Word []). ask C known "totalSupply()"%string (@nil Z) "Erc20"%string (fn "total_supply" []). rewrite <- one_word. reflexivity. Qed.
Lemma ask_balance c s a : is_address a -> entry C c 0 (calldata "balanceOf(address)" [Word a]) s = (Returned (word (Erc20.balance_of (erc20 s) a)), s).
Proof. intros H. change [Word a] with (map Word [a]). ask C known "balanceOf(address)"%string [a] "Erc20"%string (fn "balance_of" [Address]). rewrite <- one_word. reflexivity. Qed.
Lemma ask_allowance c s a b : is_address a -> is_address b ->
  entry C c 0 (calldata "allowance(address,address)" [Word a; Word b]) s = (Returned (word (Erc20.allowance (erc20 s) a b)), s).
Proof.
  intros H H'. change [Word a; Word b] with (map Word [a; b]). ask C known "allowance(address,address)"%string [a; b] "Erc20"%string (fn "allowance" [Address; Address]).
  rewrite <- one_word. reflexivity.
Qed.
Lemma ask_owner c s : entry C c 0 (calldata "owner()" []) s = (Returned (word (Ownable2Step.owner (ownable2 s))), s).
Proof. change (@nil val) with (map Word []). ask C known "owner()"%string (@nil Z) "Ownable2Step"%string (fn "owner" []). rewrite <- one_word. reflexivity. Qed.
Lemma ask_heir c s : entry C c 0 (calldata "pendingOwner()" []) s = (Returned (word (Ownable2Step.pending_owner (ownable2 s))), s).
Proof. change (@nil val) with (map Word []). ask C known "pendingOwner()"%string (@nil Z) "Ownable2Step"%string (fn "pending_owner" []). rewrite <- one_word. reflexivity. Qed.
Definition fine (s : state2) (b : deed) : Prop :=
  tfine (erc20 s) (purse b) /\ holder b = Ownable2Step.owner (ownable2 s) /\ heir b = Ownable2Step.pending_owner (ownable2 s) /\ is_address (holder b) /\ is_address (heir b).
Lemma fine_shows s b : fine s b -> shows_heir (entry C) s b.
Proof.
  intros ((_ & K & _) & A1 & A2 & _). split; [intros c; rewrite ask_owner, A1; reflexivity|]. split; [intros c; rewrite ask_heir, A2; reflexivity|].
  exact (ledger_shown C (OwnableExample.erc20_2) ask_supply ask_balance ask_allowance s (purse b) K).
Qed.
Definition shown (s : state2) (b : deed) : Prop := shows_heir (entry C) s b /\ deed_fits b.
Lemma fine_shown s b : fine s b -> shown s b.
Proof. intros F. split; [apply fine_shows, F|]. destruct F as ((_ & _ & F) & _ & _ & A3 & A4). exact (conj A3 (conj A4 F)). Qed.
Lemma shown_fine s b0 b : fine s b0 -> shown s b -> fine s b.
Proof.
  intros ((HI & _ & _) & A1 & A2 & A3 & A4) ((S1 & S2 & S3) & B1 & B2 & B3).
  split; [exact (shown_ledger C (OwnableExample.erc20_2) ask_supply ask_balance ask_allowance s (purse b) HI B3 S3)|].
  split; [|split; [|exact (conj B1 B2)]].
  - specialize (S1 0). rewrite ask_owner in S1. refine (reported _ _ _ (address_fits _ B1) _ S1). rewrite <- A1. apply address_fits, A3.
  - specialize (S2 0). rewrite ask_heir in S2. refine (reported _ _ _ (address_fits _ B2) _ S2). rewrite <- A2. apply address_fits, A4.
Qed.

Local Notation meets := (EntryVault_lemmas.meets fine reason_owner_example).
Lemma owner_meets s b c : fine s b -> is_address c ->
  meets (on_ownable2 ((fun c => Ownable2Step.on_ownable (Ownable.only_owner c)) c)) s (is_owner b c) tt b.
Proof.
  intros F Hc. pose proof F as (_ & A1 & _). unfold is_owner. rewrite A1. destruct s as [t o]. destruct o as [o p l].
  unfold EntryVault_lemmas.meets, on_ownable2, Ownable2Step.on_ownable, Ownable.only_owner, Ownable2Step.owner. mred. cbn [ownable2 OwnableExample.erc20_2 decide Ownable2Step.ownable Ownable2Step.pending_owner Ownable2Step.log2].
  match goal with |- context [negb ?x] => destruct x end; cbn [negb].
  - eexists. split; [reflexivity|exact F].
  - eexists _, _. split; [reflexivity|]. split; [reflexivity|]. apply F1, address_fits, Hc.
Qed.
Lemma on_own_bind {A A'} (m : M Ownable2Step.state Ownable.error A) (f : A -> M Ownable2Step.state Ownable.error A') s :
  on_ownable2 (bind m f) s = bind (on_ownable2 m) (fun x => on_ownable2 (f x)) s.
Proof. unfold on_ownable2. mred. destruct s as [t a]. cbn [ownable2 OwnableExample.erc20_2]. destruct (m a) as [[x|e|] a']; reflexivity. Qed.
Lemma pass_meets s b a : fine s b -> is_address a ->
  meets (on_ownable2 (Ownable2Step._transfer_ownership a)) s [] tt (mkDeed a 0 (purse b)).
Proof.
  intros (K & A1 & A2 & A3 & A4) Ha. destruct s as [t [o p l]].
  unfold EntryVault_lemmas.meets, on_ownable2, Ownable2Step._transfer_ownership, Ownable2Step.on_ownable, Ownable._transfer_ownership. mred.
  cbn [ownable2 OwnableExample.erc20_2 decide Ownable2Step.ownable]. eexists. split; [reflexivity|]. split; [exact K|]. split; [reflexivity|]. split; [reflexivity|].
  split; [exact Ha|]. cbn [heir]. unfold is_address. lia.
Qed.
Lemma hand_meets s b c a : fine s b -> is_address c -> is_address a ->
  meets (on_ownable2 (Ownable2Step.transfer_ownership c a)) s (is_owner b c) tt (mkDeed (holder b) a (purse b)).
Proof.
  intros F Hc Ha. unfold Ownable2Step.transfer_ownership. refine (meets_ext _ _ _ _ _ _ _ _ (eq_sym (on_own_bind _ _ s)) _).
  rewrite <- (app_nil_r (is_owner b c)). refine (meets_bind fine reason_owner_example _ _ _ _ _ b _ _ _ (owner_meets s b c F Hc) _). intros s' _ F'.
  destruct F' as (K & A1 & A2 & A3 & A4). destruct s' as [t [o p l]]. unfold EntryVault_lemmas.meets, on_ownable2. mred.
  cbn [ownable2 OwnableExample.erc20_2 decide Ownable2Step.ownable]. eexists. split; [reflexivity|]. split; [exact K|]. split; [exact A1|]. split; [reflexivity|].
  exact (conj A3 Ha).
Qed.
Lemma accept_meets s b c : fine s b -> is_address c ->
  meets (on_ownable2 (Ownable2Step.accept_ownership c)) s [(negb (c =? heir b), Some (OwnableUnauthorizedAccount c))] tt (mkDeed c 0 (purse b)).
Proof.
  intros F Hc. pose proof F as (_ & _ & A2 & _). rewrite A2.
  apply (meets_ext fine reason_owner_example (bind (on_ownable2 (fail_if (negb (c =? Ownable2Step.pending_owner (ownable2 s))) (Ownable.UnauthorizedAccount c)))
    (fun _ => on_ownable2 (Ownable2Step._transfer_ownership c)))).
  { rewrite <- on_own_bind. reflexivity. }
  match goal with |- EntryVault_lemmas.meets _ _ _ _ ?l _ _ => rewrite <- (app_nil_r l) end.
  refine (meets_bind fine reason_owner_example _ _ _ _ _ b _ _ _ _ _).
  - destruct s as [t o]. unfold EntryVault_lemmas.meets, on_ownable2. mred. cbn [ownable2 OwnableExample.erc20_2 decide].
    match goal with |- context [negb ?x] => destruct x end; cbn [negb].
    + eexists. split; [reflexivity|exact F].
    + eexists _, _. split; [reflexivity|]. split; [reflexivity|]. apply F1, address_fits, Hc.
  - intros s' _ F'. apply pass_meets; assumption.
Qed.
Lemma abandon_meets s b c : fine s b -> is_address c ->
  meets (on_ownable2 (Ownable2Step.renounce_ownership c)) s (is_owner b c) tt (mkDeed 0 0 (purse b)).
Proof.
  intros F Hc. unfold Ownable2Step.renounce_ownership. refine (meets_ext _ _ _ _ _ _ _ _ (eq_sym (on_own_bind _ _ s)) _).
  rewrite <- (app_nil_r (is_owner b c)). refine (meets_bind fine reason_owner_example _ _ _ _ _ b _ _ _ (owner_meets s b c F Hc) _). intros s' _ F'.
  apply pass_meets; [exact F'|unfold is_address; lia].
Qed.
Lemma money_meets s b c o : fine s b -> is_address c -> holder_order o ->
  meets (on_erc20_2 (order_flag c o)) s (order_checks c o (purse b)) [Word 1] (mkDeed (holder b) (heir b) (order_effect c o (purse b))).
Proof.
  intros [K A] Hc Ho. apply (lift_meets fine tfine reason_owner_example reason_erc20 Erc20Error (OwnableExample.erc20_2) set20
    (fun l => mkDeed (holder b) (heir b) l) (order_flag c o) s (order_checks c o (purse b))); [reflexivity| |exact (order_flag_meets _ _ c o K Hc Ho)].
  intros t Kt. split; [exact Kt|exact A].
Qed.
Lemma pay_meets s b c a v : fine s b -> is_address c -> holder_order (Pay a v) ->
  meets (nothing (OwnableExample.transfer2 c a v)) s (is_owner b c ++ order_checks c (Pay a v) (purse b)) []
    (mkDeed (holder b) (heir b) (order_effect c (Pay a v) (purse b))).
Proof.
  intros F Hc Ho.
  apply (meets_ext fine reason_owner_example (bind (on_ownable2 ((fun c => Ownable2Step.on_ownable (Ownable.only_owner c)) c)) (fun _ => on_erc20_2 (order_flag c (Pay a v)) ;;; ret []))).
  { unfold OwnableExample.transfer2, nothing, bind. destruct (on_ownable2 ((fun c => Ownable2Step.on_ownable (Ownable.only_owner c)) c) s) as [[[]|e|] s']; [|reflexivity..].
    unfold order_flag, flag, on_erc20_2. mred. destruct (Erc20.transfer c a v (erc20 s')) as [[x|e|] t]; reflexivity. }
  refine (meets_bind fine reason_owner_example _ _ _ _ _ b _ _ _ (owner_meets s b c F Hc) _).
  intros s' _ F'. rewrite <- (app_nil_r (order_checks _ _ _)).
  refine (meets_bind fine reason_owner_example _ _ _ _ _ _ _ _ _ (money_meets s' b c (Pay a v) F' Hc Ho) _).
  intros s1 _ F1'. apply meets_ret, F1'.
Qed.
Lemma request_does s b c q : fine s b -> is_address c -> heir_request_fits q ->
  settled (entry C) fine s c (owner_data q) (owner_result q) (heir_ideal c q b).
Proof.
  intros F Hc Hq. destruct q as [a| | |[a v|a v|f t v|a v]]; cbn [heir_request_fits holder_order order_fits] in Hq; unfold owner_data, order_calldata, owner_result, heir_ideal, spend_ideal.
  - refine (settle C fine reason_owner_example decode_owner_example (nothing (on_ownable2 (Ownable2Step.transfer_ownership c a))) s _ [] _ c _ [] _ eq_refl _).
    + change [Word a] with (map Word [a]). ask C known "transferOwnership(address)"%string [a] "Ownable2Step"%string (fn "transfer_ownership" [Address]). reflexivity.
    + apply nothing_meets, hand_meets; assumption.
  - refine (settle C fine reason_owner_example decode_owner_example (nothing (on_ownable2 (Ownable2Step.accept_ownership c))) s _ [] _ c _ [] _ eq_refl _).
    + change (@nil val) with (map Word []). ask C known "acceptOwnership()"%string (@nil Z) "Ownable2Step"%string (fn "accept_ownership" []). reflexivity.
    + apply nothing_meets, accept_meets; assumption.
  - refine (settle C fine reason_owner_example decode_owner_example (nothing (on_ownable2 (Ownable2Step.renounce_ownership c))) s _ [] _ c _ [] _ eq_refl _).
    + change (@nil val) with (map Word []). ask C known "renounceOwnership()"%string (@nil Z) "Ownable2Step"%string (fn "renounce_ownership" []). reflexivity.
    + apply nothing_meets, abandon_meets; assumption.
  - refine (settle C fine reason_owner_example decode_owner_example (nothing (OwnableExample.transfer2 c a v)) s _ [] _ c _ _ _ eq_refl (pay_meets s b c a v F Hc Hq)).
    change [Word a; Word v] with (map Word [a; v]). ask C known "transfer(address,uint256)"%string [a; v] "Ownable2StepExample"%string (fn "transfer" [Address; U256]). reflexivity.
  - refine (settle C fine reason_owner_example decode_owner_example (on_erc20_2 (order_flag c (Allow a v))) s _ [Word 1] _ c _ _ _ (one_word 1) (money_meets s b c (Allow a v) F Hc Hq)).
    change [Word a; Word v] with (map Word [a; v]). ask C known "approve(address,uint256)"%string [a; v] "Erc20"%string (fn "approve" [Address; U256]).
    exact (f_equal (fun x => finish C x s) (flag_lift Erc20Error (OwnableExample.erc20_2) set20 (Erc20.approve c a v) s)).
  - refine (settle C fine reason_owner_example decode_owner_example (on_erc20_2 (order_flag c (Draw f t v))) s _ [Word 1] _ c _ _ _ (one_word 1) (money_meets s b c (Draw f t v) F Hc Hq)).
    change [Word f; Word t; Word v] with (map Word [f; t; v]). ask C known "transferFrom(address,address,uint256)"%string [f; t; v] "Erc20"%string (fn "transfer_from" [Address; Address; U256]).
    exact (f_equal (fun x => finish C x s) (flag_lift Erc20Error (OwnableExample.erc20_2) set20 (Erc20.transfer_from c f t v) s)).
  - contradiction.
Qed.
Lemma any_call c v d s : List.Forall is_byte d -> size d < two256 ->
  snd (entry C c v d s) = s \/ exists q, v = 0 /\ d = owner_data q /\ heir_request_fits q.
Proof.
  intros Hb Hsz. destruct (entry_cases C c v d s known Hb Hsz) as [->|(t & f & args & Hin & -> & Ht & Hd & He)]; [left; reflexivity|].
  rewrite exposed_ok in Hin. unfold exposed_all in Hin. rewrite He. clear He Hb Hsz.
  one_of Hin Ht.
  all: try (left; reflexivity).
  all: match goal with |- context [fn_sig ?f] => let x := eval vm_compute in (fn_sig f) in change (fn_sig f) with x end.
  Ltac req r := right; exists r; split; [reflexivity|]; split; [reflexivity|cbn [heir_request_fits holder_order order_fits]; tauto].
  all: match goal with
    | |- context [calldata "transfer(address,uint256)" [Word ?a; Word ?v]] => req (Spend (Pay a v))
    | |- context [calldata "approve(address,uint256)" [Word ?a; Word ?v]] => req (Spend (Allow a v))
    | |- context [calldata "transferFrom(address,address,uint256)" [Word ?a; Word ?b; Word ?v]] => req (Spend (Draw a b v))
    | |- context [calldata "transferOwnership(address)" [Word ?a]] => req (HandOver a)
    | |- context [calldata "acceptOwnership()" []] => req Accept
    | |- context [calldata "renounceOwnership()" []] => req Abandon
    end.
Qed.
Definition deployed (o : Z) (h0 : list (Z * Erc20.op)) : state2 := OwnableExample.mk2 (Erc20.run h0 Erc20.init) (Ownable2Step.init o).
Lemma deployed_fine o h0 : is_address o -> Erc20.hist_wf h0 -> fine (deployed o h0) (mkDeed o 0 (ledger_of (Erc20.run h0 Erc20.init))).
Proof.
  intros Ho Hh. assert (HI : Erc20_inv.Inv (Erc20.run h0 Erc20.init)) by (apply Erc20_inv.inv_run; [exact Hh|apply Erc20_inv.inv_init]).
  destruct (ledger_of_ok _ HI) as [F K]. split; [exact (conj HI (conj K F))|]. split; [reflexivity|]. split; [reflexivity|].
  split; [exact Ho|]. cbn [heir]. unfold is_address. lia.
Qed.
Lemma reach_fine o h0 h : is_address o -> Erc20.hist_wf h0 -> sent h -> exists b, fine (raw_run C h (deployed o h0)) b.
Proof. intros Ho Hh0 Hh. exact (run_fine C fine owner_data owner_result heir_request_fits heir_ideal any_call request_does h _ _ Hh (deployed_fine o h0 Ho Hh0)). Qed.
Lemma invariant (P : deed -> Prop) h : sent h ->
  (forall c q b b', In (c, 0, owner_data q) h -> heir_request_fits q -> P b -> heir_ideal c q b = Yes b' -> P b') ->
  forall s b, fine s b -> P b -> exists b', fine (raw_run C h s) b' /\ P b'.
Proof. exact (run_ideal C fine owner_data owner_result heir_request_fits heir_ideal any_call request_does P h). Qed.
Lemma told_owner s b x : fine s b -> is_address x -> reports (entry C) s "owner()" [] x -> holder b = x.
Proof.
  intros (_ & A1 & _ & A3 & _) Hx H. specialize (H 0). rewrite ask_owner, <- A1 in H. symmetry.
  exact (reported _ _ (address_fits _ A3) (address_fits _ Hx) _ H).
Qed.
Lemma told_heir s b x : fine s b -> is_address x -> reports (entry C) s "pendingOwner()" [] x -> heir b = x.
Proof.
  intros (_ & _ & A2 & _ & A4) Hx H. specialize (H 0). rewrite ask_heir, <- A2 in H. symmetry.
  exact (reported _ _ (address_fits _ A4) (address_fits _ Hx) _ H).
Qed.
Lemma told_balance s b a x : fine s b -> is_address a -> is_u256 x -> reports (entry C) s "balanceOf(address)" [Word a] x -> l_balance (purse b) a = x.
Proof.
  intros ((HI & K & _) & _) Ha Hx H. specialize (H 0). rewrite (ask_balance 0 s a Ha) in H. destruct K as (_ & K & _). rewrite (K a Ha).
  symmetry. exact (reported _ _ (balance_fits _ a HI) Hx _ H).
Qed.
End Two.

(** After any history of calls, each of any bytes, whatever is sent next is answered as the
    ideal book says, with the reason it gives. *)
Theorem c95_two_step_is_ideal :
  forall o h0 h, is_address o -> Erc20.hist_wf h0 -> sent h ->
  let s := raw_run ExampleTwoStep h (Two.deployed o h0) in
  (exists b, Two.shown s b) /\
  (forall b c q, Two.shown s b -> is_address c -> heir_request_fits q ->
     settled (entry ExampleTwoStep) Two.shown s c (owner_data q) (owner_result q) (heir_ideal c q b)) /\
  (exists l, Two.shown (Two.deployed o h0) (mkDeed o 0 l)).
Proof.
  intros o h0 h Ho Hh0 Hh s. destruct (Two.reach_fine o h0 h Ho Hh0 Hh) as [b0 F0]. fold s in F0. split; [|split].
  - exists b0. apply Two.fine_shown, F0.
  - intros b c q Sb Hc Hq. apply (settled_impl _ Two.fine); [exact Two.fine_shown|].
    apply Two.request_does; [apply (Two.shown_fine s b0); assumption|assumption..].
  - eexists. apply Two.fine_shown, (Two.deployed_fine o h0 Ho Hh0).
Qed.
Print Assumptions c95_two_step_is_ideal.
Theorem c95_two_step_nothing_else :
  forall c v d s, List.Forall is_byte d -> size d < two256 ->
  (~ well_formed heir_interface v d -> entry ExampleTwoStep c v d s = (Reverted [], s)) /\
  (snd (entry ExampleTwoStep c v d s) <> s -> exists q, v = 0 /\ d = owner_data q /\ heir_request_fits q).
Proof.
  intros c v d s Hb Hsz. split.
  - intros N. destruct (proper_or_reverts ExampleTwoStep heir_interface Two.known Two.exposed_interface c v d s Hb Hsz) as [K|K]; [exact K|contradiction].
  - intros N. destruct (Two.any_call c v d s Hb Hsz) as [K|K]; [contradiction|exact K].
Qed.
Print Assumptions c95_two_step_nothing_else.

(** The owner's leave on [transfer] restrains nobody: whoever holds tokens moves them anywhere
    with two calls, an approval of themselves and [transferFrom]. *)
Theorem c95_two_step_guard_is_bypassed :
  forall o h0 h c to v x y, is_address o -> Erc20.hist_wf h0 -> sent h ->
  is_address c -> is_address to -> is_u256 v -> is_u256 x -> is_u256 y -> c <> 0 -> to <> 0 -> c <> to ->
  let s := raw_run ExampleTwoStep h (Two.deployed o h0) in
  reports (entry ExampleTwoStep) s "balanceOf(address)" [Word c] x -> reports (entry ExampleTwoStep) s "balanceOf(address)" [Word to] y -> v <= x ->
  exists s1 s2, entry ExampleTwoStep c 0 (owner_data (Spend (Allow c v))) s = (Returned (word 1), s1) /\
    entry ExampleTwoStep c 0 (owner_data (Spend (Draw c to v))) s1 = (Returned (word 1), s2) /\
    reports (entry ExampleTwoStep) s2 "balanceOf(address)" [Word c] (x - v) /\ reports (entry ExampleTwoStep) s2 "balanceOf(address)" [Word to] (y + v).
Proof.
  intros o h0 h c to v x y Ho Hh0 Hh Hc Hto Hv Hx Hy Nc Nto Nn s Bc Bt Hle. destruct (Two.reach_fine o h0 h Ho Hh0 Hh) as [b F]. fold s in F.
  pose proof (Two.told_balance s b c x F Hc Hx Bc) as Ec. pose proof (Two.told_balance s b to y F Hto Hy Bt) as Et.
  clearbody s. clear - F Hc Hto Hv Nc Nto Nn Ec Et Hle.
  pose proof (Two.request_does s b c (Spend (Allow c v)) F Hc (conj Hc Hv)) as D1. unfold heir_ideal, spend_ideal in D1. cbn [app order_checks may_approve decide] in D1.
  replace (c =? 0) with false in D1 by (clear - Nc; lia). cbn [settled] in D1. destruct D1 as (s1 & E1 & F1').
  pose proof (Two.request_does s1 _ c (Spend (Draw c to v)) F1' Hc (conj Hc (conj Hto Hv))) as D2.
  unfold heir_ideal, spend_ideal in D2. cbn [app order_checks order_effect purse holder heir] in D2. unfold may_spend, may_move in D2.
  cbn [with_allowance l_balance l_allowance] in D2. rewrite !Z.eqb_refl, Ec in D2. cbn [andb] in D2.
  replace (c =? 0) with false in D2 by (clear - Nc; lia). replace (to =? 0) with false in D2 by (clear - Nto; lia).
  replace (v <? v) with false in D2 by (clear; lia). replace (x <? v) with false in D2 by (clear - Hle; lia).
  match type of D2 with settled _ _ _ _ _ _ (decide ?l ?b') => assert (Y : decide l b' = Yes b') by (destruct (v =? U256_MAX); reflexivity); rewrite Y in D2; clear Y end.
  cbn [settled] in D2. destruct D2 as (s2 & E2 & F2'). exists s1, s2. split; [exact E1|]. split; [exact E2|].
  pose proof (proj1 (Two.fine_shown _ _ F2')) as (_ & _ & _ & B & _). cbn [purse with_balances l_balance] in B.
  pose proof (B c Hc) as B1. pose proof (B to Hto) as B2. unfold moved, at_key in B1, B2.
  rewrite !Z.eqb_refl, Ec in B1. rewrite !Z.eqb_refl in B2.
  replace (c =? to) with false in B1 by (clear - Nn; lia). replace (to =? c) with false in B2 by (clear - Nn; lia). cbn [with_allowance l_balance] in B2. rewrite Et in B2.
  split; [exact B1|exact B2].
Qed.
Print Assumptions c95_two_step_guard_is_bypassed.

(** A [transfer] that succeeds answers nothing: ERC-20's flag is missing. *)
Theorem c95_two_step_transfer_answers_nothing :
  forall o h0 h c to v out s', is_address o -> Erc20.hist_wf h0 -> sent h -> is_address c -> is_address to -> is_u256 v ->
  let s := raw_run ExampleTwoStep h (Two.deployed o h0) in
  entry ExampleTwoStep c 0 (owner_data (Spend (Pay to v))) s = (Returned out, s') -> out = [].
Proof.
  intros o h0 h c to v out s' Ho Hh0 Hh Hc Hto Hv s H. destruct (Two.reach_fine o h0 h Ho Hh0 Hh) as [b F]. fold s in F.
  pose proof (Two.request_does s b c (Spend (Pay to v)) F Hc (conj Hto Hv)) as D.
  assert (Q : forall r t, entry ExampleTwoStep c 0 (owner_data (Spend (Pay to v))) s = (r, t) -> r = Returned out).
  { intros r t K. pose proof (eq_trans (eq_sym K) H) as Q. apply pair_equal_spec in Q. apply Q. }
  clear H. destruct (heir_ideal c (Spend (Pay to v)) b) as [b'|[w|]]; cbn [settled] in D.
  - destruct D as (s2 & D & _). pose proof (Q _ _ D) as K. cbn [owner_result] in K. injection K as K. symmetry. exact K.
  - destruct D as (d & D & _). pose proof (Q _ _ D) as K. discriminate K.
  - pose proof (Q _ _ D) as K. discriminate K.
Qed.
Print Assumptions c95_two_step_transfer_answers_nothing.
Theorem c95_two_step_transfer_answers_a_flag_refuted :
  exists o h0 c to v s', is_address o /\ Erc20.hist_wf h0 /\ c <> 0 /\
  exists out, entry ExampleTwoStep c 0 (owner_data (Spend (Pay to v))) (Two.deployed o h0) = (Returned out, s') /\ out <> word 1.
Proof.
  assert (Ad : forall x, 0 <= x < 10 -> is_address x) by (unfold is_address; lia).
  assert (U : forall x, 0 <= x < 1000 -> is_u256 x) by (intros x Hx; split; [lia|]; transitivity 1000; [lia|reflexivity]).
  assert (Hw : Erc20.hist_wf [(1, Erc20.OMint 5 100)]).
  { apply List.Forall_cons; [|apply List.Forall_nil]. exact (U 100 ltac:(lia)). }
  destruct (Two.request_does _ _ 5 (Spend (Pay 7 30)) (Two.deployed_fine 5 _ (Ad 5 ltac:(lia)) Hw) (Ad 5 ltac:(lia)) (conj (Ad 7 ltac:(lia)) (U 30 ltac:(lia)))) as (s1 & E1 & _).
  exists 5, [(1, Erc20.OMint 5 100)], 5, 7, 30, s1. split; [exact (Ad 5 ltac:(lia))|]. split; [exact Hw|]. split; [discriminate|].
  exists []. split; [exact E1|]. discriminate.
Qed.
Print Assumptions c95_two_step_transfer_answers_a_flag_refuted.

(** * Who owns *)
(** Ownership moves by the owner's own calls only. *)
Theorem c95_owner_keeps :
  forall o h0 h1 h2 x, is_address o -> Erc20.hist_wf h0 -> sent h1 -> sent h2 -> is_address x ->
  let s1 := raw_run ExampleOwnable h1 (One.deployed o h0) in
  let s2 := raw_run ExampleOwnable h2 s1 in
  reports (entry ExampleOwnable) s1 "owner()" [] x -> (forall c v d, In (c, v, d) h2 -> c <> x) ->
  reports (entry ExampleOwnable) s2 "owner()" [] x.
Proof.
  intros o h0 h1 h2 x Ho Hh0 Hh1 Hh2 Hx s1 s2 H N. destruct (One.reach_fine o h0 h1 Ho Hh0 Hh1) as [b0 F0]. fold s1 in F0.
  destruct (One.invariant (fun b => holder b = x) h2 Hh2) with (s := s1) (b := b0) as (b & F & P).
  - intros c q b b' Hin Hq P E. pose proof (N _ _ _ Hin) as Nc. assert (G : negb (holder b =? c) = true) by (clear - P Nc; lia).
    destruct q as [a| | |so]; unfold owner_ideal, is_owner in E; cbn [app decide] in E; rewrite ?G in E; try discriminate E.
    unfold spend_ideal in E. apply decided in E. rewrite E. exact P.
  - exact F0.
  - exact (One.told_owner s1 b0 x F0 Hx H).
  - fold s2 in F. rewrite <- P. exact (proj1 (One.fine_shows s2 b F)).
Qed.
Print Assumptions c95_owner_keeps.
(** In two steps: by the owner's own calls and, once, by a call of who the owner nominated. *)
Theorem c95_two_step_keeps :
  forall o h0 h1 h2 x p, is_address o -> Erc20.hist_wf h0 -> sent h1 -> sent h2 -> is_address x -> is_address p ->
  let s1 := raw_run ExampleTwoStep h1 (Two.deployed o h0) in
  let s2 := raw_run ExampleTwoStep h2 s1 in
  reports (entry ExampleTwoStep) s1 "owner()" [] x -> reports (entry ExampleTwoStep) s1 "pendingOwner()" [] p ->
  (forall c v d, In (c, v, d) h2 -> c <> x) -> (forall c, In (c, 0, owner_data Accept) h2 -> c <> p) ->
  reports (entry ExampleTwoStep) s2 "owner()" [] x /\ reports (entry ExampleTwoStep) s2 "pendingOwner()" [] p.
Proof.
  intros o h0 h1 h2 x p Ho Hh0 Hh1 Hh2 Hx Hp s1 s2 H H' N N'. destruct (Two.reach_fine o h0 h1 Ho Hh0 Hh1) as [b0 F0]. fold s1 in F0.
  destruct (Two.invariant (fun b => holder b = x /\ heir b = p) h2 Hh2) with (s := s1) (b := b0) as (b & F & P & P').
  - intros c q b b' Hin Hq [P P'] E. pose proof (N _ _ _ Hin) as Nc. assert (G : negb (holder b =? c) = true) by (clear - P Nc; lia).
    destruct q as [a| | |so]; unfold heir_ideal, is_owner in E; cbn [app decide] in E; rewrite ?G in E; try discriminate E.
    + pose proof (N' _ Hin) as Np. replace (negb (c =? heir b)) with true in E by (clear - P' Np; lia). discriminate E.
    + unfold spend_ideal in E. apply decided in E. rewrite E. exact (conj P P').
  - exact F0.
  - exact (conj (Two.told_owner s1 b0 x F0 Hx H) (Two.told_heir s1 b0 p F0 Hp H')).
  - fold s2 in F. rewrite <- P, <- P'. pose proof (Two.fine_shows s2 b F) as (K1 & K2 & _). exact (conj K1 K2).
Qed.
Print Assumptions c95_two_step_keeps.
(** What the second step is for: nobody becomes owner without calling. *)
Theorem c95_two_step_owner_has_called :
  forall o h0 h x, is_address o -> Erc20.hist_wf h0 -> sent h -> is_address x -> x <> 0 ->
  reports (entry ExampleTwoStep) (raw_run ExampleTwoStep h (Two.deployed o h0)) "owner()" [] x ->
  x = o \/ In (x, 0, owner_data Accept) h.
Proof.
  intros o h0 h x Ho Hh0 Hh Hx Nx H.
  destruct (Two.invariant (fun b => holder b = 0 \/ holder b = o \/ In (holder b, 0, owner_data Accept) h) h Hh)
    with (s := Two.deployed o h0) (b := mkDeed o 0 (ledger_of (Erc20.run h0 Erc20.init))) as (b & F & P).
  - intros c q b b' Hin Hq P E. destruct q as [a| | |so]; unfold heir_ideal in E.
    + apply decided in E. rewrite E. exact P.
    + apply decided in E. rewrite E. right. right. exact Hin.
    + apply decided in E. rewrite E. left. reflexivity.
    + unfold spend_ideal in E. apply decided in E. rewrite E. exact P.
  - exact (Two.deployed_fine o h0 Ho Hh0).
  - right. left. reflexivity.
  - rewrite (Two.told_owner _ b x F Hx H) in P. destruct P as [P|P]; [contradiction|exact P].
Qed.
Print Assumptions c95_two_step_owner_has_called.
(** In one step that is false: an owner need not exist as a caller. *)
Theorem c95_owner_has_called_refuted :
  exists o h x, is_address o /\ sent h /\ x <> 0 /\ x <> o /\
  reports (entry ExampleOwnable) (raw_run ExampleOwnable h (One.deployed o [])) "owner()" [] x /\ (forall v d, ~ In (x, v, d) h).
Proof.
  assert (Ad : forall x, 0 <= x < 10 -> is_address x) by (unfold is_address; lia).
  destruct (One.request_does _ _ 5 (HandOver 9) (One.deployed_fine 5 [] (Ad 5 ltac:(lia)) (List.Forall_nil _)) (Ad 5 ltac:(lia)) (Ad 9 ltac:(lia))) as (s1 & E1 & F1').
  exists 5, [(5, 0, owner_data (HandOver 9))], 9. split; [exact (Ad 5 ltac:(lia))|]. split.
  { apply List.Forall_cons; [|apply List.Forall_nil]. cbn [fst snd owner_data]. split; [exact (Ad 5 ltac:(lia))|].
    exact (data_bytes "transferOwnership(address)"%string [9] eq_refl). }
  split; [discriminate|]. split; [discriminate|]. split.
  - change (raw_run ExampleOwnable [(5, 0, owner_data (HandOver 9))] (One.deployed 5 [])) with (snd (entry ExampleOwnable 5 0 (owner_data (HandOver 9)) (One.deployed 5 []))).
    rewrite E1. exact (proj1 (One.fine_shows _ _ F1')).
  - intros v d [Hin|[]]. apply pair_equal_spec in Hin. destruct Hin as [Hin _]. apply pair_equal_spec in Hin. destruct Hin as [Hin _]. discriminate Hin.
Qed.
Print Assumptions c95_owner_has_called_refuted.

(** 7 holds 100 and 5 owns: 7's transfer is refused; in two steps 5 nominates 8, who accepts
    and then may transfer what they were sent. *)
Example c95_in_use :
  exists d s1 s2 s3 s4, let s0 := Two.deployed 5 [(1, Erc20.OMint 7 100); (1, Erc20.OMint 5 40)] in
  let call c q s := entry ExampleTwoStep c 0 (owner_data q) s in
  call 7 (Spend (Pay 8 10)) s0 = (Reverted d, s0) /\ decode_reason d = Some (OwnableUnauthorizedAccount 7) /\
  call 5 (Spend (Pay 8 10)) s0 = (Returned [], s1) /\
  call 5 (HandOver 8) s1 = (Returned [], s2) /\
  call 8 Accept s2 = (Returned [], s3) /\
  call 8 (Spend (Pay 9 4)) s3 = (Returned [], s4) /\
  reports (entry ExampleTwoStep) s4 "owner()" [] 8 /\ reports (entry ExampleTwoStep) s4 "pendingOwner()" [] 0 /\
  reports (entry ExampleTwoStep) s4 "balanceOf(address)" [Word 8] 6.
Proof.
  assert (Ad : forall x, 0 <= x < 10 -> is_address x) by (unfold is_address; lia).
  assert (U : forall x, 0 <= x < 1000 -> is_u256 x) by (intros x Hx; split; [lia|]; transitivity 1000; [lia|reflexivity]).
  assert (Hw : Erc20.hist_wf [(1, Erc20.OMint 7 100); (1, Erc20.OMint 5 40)]).
  { apply List.Forall_cons; [exact (U 100 ltac:(lia))|]. apply List.Forall_cons; [exact (U 40 ltac:(lia))|apply List.Forall_nil]. }
  pose proof (Two.deployed_fine 5 _ (Ad 5 ltac:(lia)) Hw) as F0.
  destruct (Two.request_does _ _ 7 (Spend (Pay 8 10)) F0 (Ad 7 ltac:(lia)) (conj (Ad 8 ltac:(lia)) (U 10 ltac:(lia)))) as (d & E0 & R0).
  destruct (Two.request_does _ _ 5 (Spend (Pay 8 10)) F0 (Ad 5 ltac:(lia)) (conj (Ad 8 ltac:(lia)) (U 10 ltac:(lia)))) as (s1 & E1 & F1').
  destruct (Two.request_does s1 _ 5 (HandOver 8) F1' (Ad 5 ltac:(lia)) (Ad 8 ltac:(lia))) as (s2 & E2 & F2').
  destruct (Two.request_does s2 _ 8 Accept F2' (Ad 8 ltac:(lia)) I) as (s3 & E3 & F3').
  destruct (Two.request_does s3 _ 8 (Spend (Pay 9 4)) F3' (Ad 8 ltac:(lia)) (conj (Ad 9 ltac:(lia)) (U 4 ltac:(lia)))) as (s4 & E4 & F4').
  destruct (Two.fine_shows _ _ F4') as (K1 & K2 & _ & B1 & _).
  exists d, s1, s2, s3, s4. split; [exact E0|]. split; [exact R0|]. split; [exact E1|]. split; [exact E2|]. split; [exact E3|]. split; [exact E4|].
  split; [exact K1|]. split; [exact K2|exact (B1 8 (Ad 8 ltac:(lia)))].
Qed.
