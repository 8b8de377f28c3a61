(** Calls between contracts as bytes, and what a sequence of calls does to both ledgers. *)
From Verif.Base Require Import Prelude Bytes Keccak Maps.
From Coq Require Import String List.
From Verif.Model Require Import Introspection Router Entry EntryErc20 EntryVault.
From Verif.Model Require SolAbi Erc20 SafeErc20 Erc20World.
From Verif.Spec Require Import Router_spec SolAbi_spec LogMeaning_spec Errors_spec Entry_spec Ledger_spec EntryVault_spec.
From Verif.Spec Require Erc20_spec.
From Verif.Proofs Require Import Router_lemmas Entry_lemmas Ledger_lemmas.
From Verif.Proofs Require SolAbi_lemmas Erc20_inv Erc20_api World_lemmas.
From Verif.Props Require Import SolAbi_props.
From Verif.Props Require Errors_props Entry_props.
Import SolAbi SafeErc20 Erc20World.
#[global] Open Scope Z_scope.
Local Open Scope list_scope.
Local Open Scope Z_scope.
Opaque keccak256.

(** ** Running code against a list of checks *)
Section meets.
  Context {S E B : Type} (fine : S -> B -> Prop) (R : E -> reason).
  Definition meets {A} (m : M S E A) (s : S) (l : checks) (v : A) (b : B) : Prop :=
    match decide l tt with
    | Yes _ => exists s', m s = (Ok v, s') /\ fine s' b
    | No (Some why) => exists e s', m s = (Err e, s') /\ R e = why /\ reason_fits why
    | No None => exists s', m s = (Panic, s')
    end.
  Lemma meets_bind {A A'} (m : M S E A) (f : A -> M S E A') s l1 v b1 l2 v2 b2 :
    meets m s l1 v b1 -> (forall s', decide l1 tt = Yes tt -> fine s' b1 -> meets (f v) s' l2 v2 b2) ->
    meets (bind m f) s (l1 ++ l2) v2 b2.
  Proof.
    unfold meets, bind. intros H1 H2. rewrite decide_app. destruct (decide l1 tt) as [[]|[why|]].
    - destruct H1 as (s' & -> & F). apply (H2 s' eq_refl F).
    - destruct H1 as (e & s' & -> & K). eauto.
    - destruct H1 as (s' & ->). eauto.
  Qed.
  Lemma meets_ret {A} (v : A) s b : fine s b -> meets (ret v) s [] v b.
  Proof. intros H. exists s. auto. Qed.
  Lemma meets_fail_if c e s b : fine s b -> reason_fits (R e) -> meets (fail_if c e) s [(c, Some (R e))] tt b.
  Proof. intros F Hr. unfold meets, fail_if. cbn [decide]. destruct c; cbn; eauto 6. Qed.
End meets.

(** ** The token *)
Definition tfine (t : Erc20.state) (b : ledger) : Prop := Erc20_inv.Inv t /\ keeps t b /\ ledger_fits b.
Lemma order_meets t b c o : tfine t b -> is_address c -> order_fits o ->
  meets tfine reason_erc20 (Erc20.exec c (order_op o)) t (order_checks c o b) tt (order_effect c o b).
Proof.
  intros (HI & K & F) Hc Ho. unfold meets. rewrite (order_verdict t b c o tt K Hc Ho).
  pose proof (order_reason t c o) as Er. pose proof (fun u t' => order_keeps t b c o u t' HI K Hc Ho) as Ek.
  pose proof (Erc20_inv.inv_exec c (order_op o) t HI (order_op_wf o Ho)) as HI'.
  destruct (Erc20.exec c (order_op o) t) as [[[]|e|] t'] eqn:E; cbn [fst snd outcome] in *.
  - exists t'. split; [reflexivity|]. specialize (Ek tt t' eq_refl). split; [exact HI'|]. split; [exact Ek|].
    apply (order_effect_fits t'); assumption.
  - exists e, t'. split; [reflexivity|]. split; [reflexivity|]. apply Er; auto.
  - eauto.
Qed.
Lemma F1 x : is_u256 x -> List.Forall is_u256 [x].
Proof. intros H. apply List.Forall_cons; [exact H|apply List.Forall_nil]. Qed.
Lemma zero_fits : is_u256 0. Proof. split; [lia|reflexivity]. Qed.
Lemma address_fits x : is_address x -> is_u256 x.
Proof. unfold is_address, is_u256, two256. lia. Qed.
Lemma F3 x y z : is_u256 x -> is_u256 y -> is_u256 z -> List.Forall is_u256 [x; y; z].
Proof. intros. apply List.Forall_cons; [assumption|]. apply List.Forall_cons; [assumption|]. apply F1. assumption. Qed.
Lemma spend_meets t b o c v : tfine t b -> is_address o -> is_address c -> is_u256 v ->
  meets tfine reason_erc20 (Erc20._spend_allowance o c v) t (may_spend b o c v) tt (after_spending b o c v).
Proof.
  intros (HI & K & F) Ho Hc Hv. pose proof K as (K1 & K2 & K3). unfold meets, may_spend, after_spending. cbv zeta.
  pose proof (Erc20_inv.inv_spend o c v t HI Hv) as HI'. unfold Erc20._spend_allowance in *. rewrite (K3 o c Ho Hc).
  pose proof (allowance_fits t o c HI) as Ha. set (al := Erc20.allowance t o c) in *. revert HI'. mred. fold al.
  destruct (al =? U256_MAX); cbn [decide].
  { intros _. exists t. split; [reflexivity|]. split; auto. }
  destruct (al <? v) eqn:Ev; cbn [fst snd].
  { intros _. exists (Erc20.InsufficientAllowance c al v), t. split; [reflexivity|]. split; [reflexivity|].
    apply F3; auto using address_fits. }
  unfold Erc20._approve. mred. destruct (o =? 0); cbn [fst snd].
  { intros _. exists (Erc20.InvalidApprover 0), t. split; [reflexivity|]. split; [reflexivity|]. apply F1, zero_fits. }
  destruct (c =? 0); cbn [fst snd].
  { intros _. exists (Erc20.InvalidSpender 0), t. split; [reflexivity|]. split; [reflexivity|]. apply F1, zero_fits. }
  intros HI'. eexists. split; [reflexivity|]. split; [exact HI'|].
  assert (Kp : forall t', Erc20.allowance t' o c = al - v -> Erc20_spec.other_allowances_same t t' o c -> Erc20_spec.same_balances t t' ->
    Erc20.total_supply t' = Erc20.total_supply t -> Erc20_inv.Inv t' -> keeps t' (with_allowance b o c (al - v)) /\ ledger_fits (with_allowance b o c (al - v))).
  { intros t' A1 A2 A3 A4 Hi. pose proof (keeps_approval t t' b o c (al - v) K Ho Hc A1 A2 A3 A4) as Kt. split; [exact Kt|].
    apply (keeps_fits t' b); auto. intros x y Ne. cbn [with_allowance l_allowance]. rewrite Ne by assumption. reflexivity. }
  apply Kp; [| | | |exact HI'].
  - rewrite Erc20_inv.allowance_set. rewrite stdpp.decidable.decide_True by auto. unfold wsub. rewrite Z.mod_small; [reflexivity|]. unfold is_u256 in *. lia.
  - intros x y Ne. rewrite Erc20_inv.allowance_set. rewrite stdpp.decidable.decide_False; [reflexivity|]. intros [-> ->]. congruence.
  - intros x. reflexivity.
  - reflexivity.
Qed.
Lemma burn_meets t b o v : tfine t b -> is_address o -> is_u256 v ->
  meets tfine reason_erc20 (Erc20._burn o v) t
    [(o =? 0, Some (ERC20InvalidSender 0)); (l_balance b o <? v, Some (ERC20InsufficientBalance o (l_balance b o) v))] tt
    (with_balances b (l_supply b - v) (at_key (l_balance b) o (l_balance b o - v))).
Proof.
  intros (HI & K & F) Ho Hv. pose proof K as (K1 & K2 & K3). unfold meets. rewrite (K2 o Ho).
  destruct (Erc20_api.burn_spec t o v HI Hv) as (B1 & B2 & B3). pose proof (Erc20_inv.inv_burn_ o v t HI Hv) as HI'.
  pose proof (balance_fits t o HI) as Hb. cbn [decide].
  destruct (Erc20._burn o v t) as [r t'] eqn:E. cbn [fst snd] in *.
  assert (Yn : r = Ok tt \/ r <> Ok tt) by (destruct r as [[]|e|]; [left; reflexivity|right; discriminate..]).
  destruct Yn as [->|Nr].
  - destruct (proj1 B1 eq_refl) as [N1 N2]. replace (o =? 0) with false by lia. replace (Erc20.balance_of t o <? v) with false by lia.
    destruct (B2 t' eq_refl) as (C1 & C2 & C3 & C4 & _). exists t'. split; [reflexivity|].
    assert (Kt : keeps t' (with_balances b (l_supply b - v) (at_key (l_balance b) o (Erc20.balance_of t o - v)))).
    { split; [cbn; rewrite C3, K1; reflexivity|]. split; cbn [l_balance l_allowance with_balances].
      - intros x Hx. unfold at_key. destruct (x =? o) eqn:X; [replace x with o by lia; symmetry; exact C1|]. rewrite C2 by lia. apply K2, Hx.
      - intros x y Hx Hy. rewrite (C4 x y). apply K3; assumption. }
    split; [exact HI'|]. split; [exact Kt|]. apply (keeps_fits t' b); auto.
    intros x Ne. cbn [with_balances l_balance]. unfold at_key. rewrite Ne by assumption. reflexivity.
  - destruct (B3 r t' eq_refl Nr) as [-> ->]. destruct (o =? 0) eqn:E0.
    + eexists _, _. split; [reflexivity|]. split; [reflexivity|]. apply F1, zero_fits.
    + destruct (Erc20.balance_of t o <? v) eqn:E1.
      * eexists _, _. split; [reflexivity|]. split; [reflexivity|]. apply F3; auto using address_fits.
      * exfalso. apply Nr. apply B1. lia.
Qed.

(** ** The token by bytes *)
Lemma known_coin : all_known (blocks Coin) = true.
Proof. vm_compute. reflexivity. Qed.
Definition exposed_coin := Eval vm_compute in exposed (blocks Coin).
Lemma exposed_coin_ok : exposed (blocks Coin) = exposed_coin.
Proof. vm_compute. reflexivity. Qed.
Lemma words_request {S E} (C : contract S E) (Hk : all_known (blocks C) = true) sig l c s t f :
  k_fits sig = true -> find_fn_k (blocks C) (k sig) = Some (t, f) ->
  List.Forall2 has_type (arg_types f) (map Word l) -> size l < 10 ->
  entry C c 0 (calldata sig (map Word l)) s = finish C (body_of (code C) t (rust_name f) (map Word l) c s) s.
Proof.
  intros H1 H2 H3 H4. apply entry_calldata; auto using abi_words_bytes.
  rewrite abi_words_size. transitivity 320; [lia|reflexivity].
Qed.
Lemma one_word x : abi_params [Word x] = word x.
Proof. change (abi_params [Word x]) with (word x ++ [] ++ []). rewrite !app_nil_r. reflexivity. Qed.
Definition answer_of {E A} (d : E -> list Z) (x : res E A) (out : list Z) : answer :=
  match x with Ok _ => Returned out | Err e => Reverted (d e) | Panic => Reverted [] end.
Lemma finish_nothing {S E} (C : contract S E) (m : M S E unit) s :
  finish C (nothing m s) s = (answer_of (revert_data C) (fst (tx m s)) [], snd (tx m s)).
Proof. unfold nothing, tx, answer_of. mred. destruct (m s) as [[[]|e|] s']; reflexivity. Qed.
Lemma finish_flag {S E} (C : contract S E) (m : M S E bool) s : (forall b, fst (m s) = Ok b -> b = true) ->
  finish C (flag m s) s = (answer_of (revert_data C) (fst (tx (Erc20.ignore m) s)) (word 1), snd (tx (Erc20.ignore m) s)).
Proof.
  intros H. unfold flag, tx, answer_of, Erc20.ignore. mred. destruct (m s) as [[b|e|] t']; cbn [fst snd finish]; [|reflexivity..].
  rewrite (H b eq_refl), one_word. reflexivity.
Qed.
Lemma transfer_true c a v t b : fst (Erc20.transfer c a v t) = Ok b -> b = true.
Proof. unfold Erc20.transfer. mred. destruct (Erc20._transfer c a v t) as [[[]|e|] t']; cbn; congruence. Qed.
Lemma approve_true c a v t b : fst (Erc20.approve c a v t) = Ok b -> b = true.
Proof. unfold Erc20.approve, Erc20._approve. mred. destruct (c =? 0); [discriminate|]. destruct (a =? 0); [discriminate|]. cbn. congruence. Qed.
Lemma transfer_from_true c a d v t b : fst (Erc20.transfer_from c a d v t) = Ok b -> b = true.
Proof.
  unfold Erc20.transfer_from. mred. destruct (Erc20._spend_allowance a c v t) as [[[]|e|] t']; cbn [fst snd]; try congruence.
  destruct (Erc20._transfer a d v t') as [[[]|e|] t1]; cbn; congruence.
Qed.
Ltac types := repeat (apply List.Forall2_cons || apply List.Forall2_nil); cbn [has_type word_of_type]; tauto.
Ltac ask C Hk sg l t f := refine (eq_trans (words_request C Hk sg l _ _ t f _ _ _ _) _); [vm_compute; reflexivity|vm_compute; reflexivity|types|reflexivity|].
Lemma coin_order c o t : order_fits o ->
  entry Coin c 0 (order_data o) t = (answer_of revert_erc20 (fst (tx (Erc20.exec c (order_op o)) t)) (order_result o), Erc20.step t (c, order_op o)).
Proof.
  intros Ho. destruct o as [a v|a v|a b v|a v]; cbn [order_fits] in Ho; unfold order_data, Erc20.step; cbn [order_op fst snd order_result Erc20.exec].
  - change [Word a; Word v] with (map Word [a; v]). ask Coin known_coin "transfer(address,uint256)"%string [a; v] "Erc20"%string (fn "transfer" [Address; U256]).
    exact (finish_flag Coin (Erc20.transfer c a v) t (transfer_true c a v t)).
  - change [Word a; Word v] with (map Word [a; v]). ask Coin known_coin "approve(address,uint256)"%string [a; v] "Erc20"%string (fn "approve" [Address; U256]).
    exact (finish_flag Coin (Erc20.approve c a v) t (approve_true c a v t)).
  - change [Word a; Word b; Word v] with (map Word [a; b; v]). ask Coin known_coin "transferFrom(address,address,uint256)"%string [a; b; v] "Erc20"%string (fn "transfer_from" [Address; Address; U256]).
    exact (finish_flag Coin (Erc20.transfer_from c a b v) t (transfer_from_true c a b v t)).
  - change [Word a; Word v] with (map Word [a; v]). ask Coin known_coin "mint(address,uint256)"%string [a; v] "Coin"%string (fn "mint" [Address; U256]).
    exact (finish_nothing Coin (Erc20._mint a v) t).
Qed.
Lemma coin_supply c t : entry Coin c 0 (calldata "totalSupply()" []) t = (Returned (word (Erc20.total_supply t)), t).
Proof. change (@nil val) with (map Word []). ask Coin known_coin "totalSupply()"%string (@nil Z) "Erc20"%string (fn "total_supply" []). rewrite <- one_word. reflexivity. Qed.
Lemma coin_balance c t a : is_address a -> entry Coin c 0 (calldata "balanceOf(address)" [Word a]) t = (Returned (word (Erc20.balance_of t a)), t).
Proof. intros H. change [Word a] with (map Word [a]). ask Coin known_coin "balanceOf(address)"%string [a] "Erc20"%string (fn "balance_of" [Address]). rewrite <- one_word. reflexivity. Qed.
Lemma coin_allowance c t a b : is_address a -> is_address b ->
  entry Coin c 0 (calldata "allowance(address,address)" [Word a; Word b]) t = (Returned (word (Erc20.allowance t a b)), t).
Proof.
  intros H H'. change [Word a; Word b] with (map Word [a; b]). ask Coin known_coin "allowance(address,address)"%string [a; b] "Erc20"%string (fn "allowance" [Address; Address]).
  rewrite <- one_word. reflexivity.
Qed.
(** A call of the token changes nothing or is one of the orders, to the letter. *)
Ltac one_of Hin Ht := 
    repeat (destruct Hin as [Hin|Hin];
      [injection Hin as <- <-; cbn [arg_types] in Ht;
       repeat match goal with
       | H : List.Forall2 _ (_ :: _) _ |- _ => inversion H; subst; clear H
       | H : List.Forall2 _ [] _ |- _ => inversion H; subst; clear H
       | H : has_type _ ?y |- _ => destruct y; cbn [has_type word_of_type] in H;
           [|exfalso; first [destruct H as (? & H & _); discriminate H | destruct H as [[H|H] _]; discriminate H]..]
       end|]); [..|destruct Hin].
Ltac order o := exists o; split; [reflexivity|]; split; [reflexivity|cbn [order_fits]; tauto].
Lemma coin_call c v d t : List.Forall is_byte d -> size d < two256 ->
  snd (entry Coin c v d t) = t \/ exists o, v = 0 /\ d = order_data o /\ order_fits o.
Proof.
  intros Hb Hsz. destruct (entry_cases Coin c v d t known_coin Hb Hsz) as [->|(ty & f & args & Hin & -> & Ht & Hd & He)]; [left; reflexivity|].
  rewrite exposed_coin_ok in Hin. unfold exposed_coin in Hin. rewrite He. clear He Hb Hsz. one_of Hin Ht.
  all: try (left; reflexivity).
  all: right.
  all: match goal with |- context [fn_sig ?f] => let x := eval vm_compute in (fn_sig f) in change (fn_sig f) with x end.
  all: match goal with
    | |- context [calldata "transfer(address,uint256)" [Word ?a; Word ?v]] => order (Pay a v)
    | |- context [calldata "approve(address,uint256)" [Word ?a; Word ?v]] => order (Allow a v)
    | |- context [calldata "transferFrom(address,address,uint256)" [Word ?a; Word ?b; Word ?v]] => order (Draw a b v)
    | |- context [calldata "mint(address,uint256)" [Word ?a; Word ?v]] => order (Issue a v)
    end.
Qed.

(** ** Both contracts *)
Definition fine (w : world) (b : books) : Prop := tfine (asset_st w) (coins b) /\ tfine (tok w) (shares b).
Section both.
  Context (this coin : Z) (Hthis : is_address this) {E : Type} (R : E -> reason).
  Local Notation x := (bytes_ext this coin).
  Lemma on_tok_meets {A} (f : Erc20.error -> E) (m : M Erc20.state Erc20.error A) w b l v b' :
    (forall e, R (f e) = reason_erc20 e) -> fine w b -> meets tfine reason_erc20 m (tok w) l v b' ->
    meets fine R (map_err f (on_tok m)) w l v (mkBooks (coins b) b').
  Proof.
    intros Hf [Fa Ft]. unfold meets, map_err, on_tok, zoom. destruct (decide l tt) as [|[why|]].
    - intros (t' & -> & K). eexists. split; [reflexivity|]. split; [exact Fa|exact K].
    - intros (e & t' & -> & K1 & K2). eexists _, _. split; [reflexivity|]. rewrite Hf. auto.
    - intros (t' & ->). eauto.
  Qed.
  Lemma pass_meets (g : SafeErc20.error -> E) c o w b :
    R (g (SafeErc20.SafeErc20FailedOperation coin)) = SolAbi_spec.SafeErc20FailedOperation coin -> is_address coin ->
    fine w b -> call_data c = order_data o -> order_result o = word 1 -> order_fits o ->
    meets fine R (map_err g (call_optional_return x coin c)) w [(refused this o (coins b), Some (SolAbi_spec.SafeErc20FailedOperation coin))] tt
      (mkBooks (order_effect this o (coins b)) (shares b)).
  Proof.
    intros Hg Hc [Fa Ft] Ec Er Ho. unfold meets, map_err, call_optional_return, limited_call. cbn [has_code raw_call bytes_ext].
    rewrite Z.eqb_refl. cbn [negb]. rewrite Ec, (coin_order this o (asset_st w) Ho), Er.
    pose proof (order_meets (asset_st w) (coins b) this o Fa Hthis Ho) as K. unfold meets in K. cbn [decide]. unfold refused.
    unfold Erc20.step, tx. cbn [fst snd]. destruct (decide (order_checks this o (coins b)) tt) as [[]|[why|]].
    - destruct K as (t' & -> & K). cbn [fst snd answer_of].
      change (word 1) with (word (Z.b2z true)). rewrite World_lemmas.encodes_true_word, orb_true_r.
      eexists. split; [reflexivity|]. split; [exact K|exact Ft].
    - destruct K as (e & t' & -> & _). cbn [fst snd answer_of]. eexists _, _. split; [reflexivity|]. split; [exact Hg|]. apply F1, address_fits, Hc.
    - destruct K as (t' & ->). cbn [fst snd answer_of]. eexists _, _. split; [reflexivity|]. split; [exact Hg|]. apply F1, address_fits, Hc.
  Qed.
  Lemma pull_meets (g : SafeErc20.error -> E) f v w b :
    R (g (SafeErc20.SafeErc20FailedOperation coin)) = SolAbi_spec.SafeErc20FailedOperation coin -> is_address coin ->
    fine w b -> is_address f -> is_u256 v ->
    meets fine R (map_err g (safe_transfer_from x coin f this v)) w [(refused this (Draw f this v) (coins b), Some (SolAbi_spec.SafeErc20FailedOperation coin))] tt
      (mkBooks (order_effect this (Draw f this v) (coins b)) (shares b)).
  Proof.
    intros Hg Hc F Hf Hv. refine (pass_meets g (CTransferFrom f this v) (Draw f this v) w b Hg Hc F _ eq_refl _); [|exact (conj Hf (conj Hthis Hv))]. cbn [call_data]. rewrite Entry_props.call_data_sig.
    replace (signature "transferFrom" [Address; Address; U256]) with "transferFrom(address,address,uint256)"%string by (vm_compute; reflexivity). reflexivity.
  Qed.
  Lemma push_meets (g : SafeErc20.error -> E) a v w b :
    R (g (SafeErc20.SafeErc20FailedOperation coin)) = SolAbi_spec.SafeErc20FailedOperation coin -> is_address coin ->
    fine w b -> is_address a -> is_u256 v ->
    meets fine R (map_err g (safe_transfer x coin a v)) w [(refused this (Pay a v) (coins b), Some (SolAbi_spec.SafeErc20FailedOperation coin))] tt
      (mkBooks (order_effect this (Pay a v) (coins b)) (shares b)).
  Proof.
    intros Hg Hc F Hf Hv. refine (pass_meets g (CTransfer a v) (Pay a v) w b Hg Hc F _ eq_refl _); [|exact (conj Hf Hv)]. cbn [call_data]. rewrite Entry_props.call_data_sig.
    replace (signature "transfer" [Address; U256]) with "transfer(address,uint256)"%string by (vm_compute; reflexivity). reflexivity.
  Qed.
  Lemma held_balance w b : fine w b -> balance_of x coin this w = Some (l_balance (coins b) this).
  Proof.
    intros [(HI & (_ & K2 & _) & _) _]. unfold balance_of. cbn [raw_call bytes_ext]. rewrite Z.eqb_refl.
    assert (Ec : call_data (CBalanceOf this) = calldata "balanceOf(address)" [Word this]).
    { cbn [call_data]. rewrite Entry_props.call_data_sig.
      replace (signature "balanceOf" [Address]) with "balanceOf(address)"%string by (vm_compute; reflexivity). reflexivity. }
    rewrite Ec, (coin_balance this (asset_st w) this Hthis). rewrite word_length. cbn [Nat.ltb Nat.leb].
    rewrite World_lemmas.firstn_word, World_lemmas.of_be_word by (apply balance_fits, HI). rewrite (K2 this Hthis). reflexivity.
  Qed.
End both.

(** ** A contract with the token's functions, and the token *)
Lemma decide_any {B B'} l (b : B) (b' : B') : decide l b' = match decide l b with Yes _ => Yes b' | No r => No r end.
Proof. induction l as [|[x r] l IH]; [reflexivity|]. cbn [decide]. destruct x; [reflexivity|exact IH]. Qed.
Definition Good (w : world) : Prop := Erc20_inv.Inv (asset_st w) /\ Erc20_inv.Inv (tok w).
Lemma fine_good w b : fine w b -> Good w.
Proof. intros [(H & _) (H' & _)]. split; assumption. Qed.
Lemma fine_fits w b : fine w b -> books_fit b.
Proof. intros [(_ & _ & H) (_ & _ & H')]. split; assumption. Qed.
Definition books_of (w : world) : books := mkBooks (ledger_of (asset_st w)) (ledger_of (tok w)).
Lemma books_of_fine w : Good w -> fine w (books_of w).
Proof.
  intros [HA HT]. destruct (ledger_of_ok (asset_st w) HA) as [F1 K1]. destruct (ledger_of_ok (tok w) HT) as [F2 K2].
  split; (split; [assumption|split; assumption]).
Qed.
Lemma fine_init : fine winit new_books.
Proof.
  pose proof keeps_init as [K F]. split; cbn [asset_st tok winit coins shares new_books]; (split; [apply Erc20_inv.inv_init|split; assumption]).
Qed.
Section chain.
  Context (this coin : Z) (Hne : this <> coin) {E : Type} (C : contract world E) (R : E -> reason).
  Context (Hd : forall e, reason_fits (R e) -> decode_reason (revert_data C e) = Some (R e)).
  Context (ask_supply : forall c w, entry C c 0 (calldata "totalSupply()" []) w = (Returned (word (Erc20.total_supply (tok w))), w)).
  Context (ask_balance : forall c w a, is_address a ->
    entry C c 0 (calldata "balanceOf(address)" [Word a]) w = (Returned (word (Erc20.balance_of (tok w) a)), w)).
  Context (ask_allowance : forall c w a b, is_address a -> is_address b ->
    entry C c 0 (calldata "allowance(address,address)" [Word a; Word b]) w = (Returned (word (Erc20.allowance (tok w) a b)), w)).
  Local Notation call := (chain_call C this coin).
  Lemma call_this c v d w : call this c v d w = entry C c v d w.
  Proof. unfold chain_call. rewrite Z.eqb_refl. reflexivity. Qed.
  Lemma call_coin c v d w : call coin c v d w = (fst (entry Coin c v d (asset_st w)), set_asset (snd (entry Coin c v d (asset_st w))) w).
  Proof. unfold chain_call. replace (coin =? this) with false by lia. rewrite Z.eqb_refl. destruct (entry Coin c v d (asset_st w)); reflexivity. Qed.
  Lemma set_asset_same w : set_asset (asset_st w) w = w.
  Proof. destruct w; reflexivity. Qed.
  Lemma shows_ok w b : Good w -> books_fit b -> (shows call this coin w b <-> fine w b).
  Proof.
    intros [HA HT] [FA FT].
    assert (W : forall a b (t : world), is_u256 a -> is_u256 b -> (Returned (word a), t) = (Returned (word b), t) -> b = a).
    { intros a d t Ha Hb E'. assert (K : word a = word d) by congruence. symmetry. exact (word_inj _ _ Ha Hb K). }
    assert (Co : forall c d r t, entry Coin c 0 d (asset_st w) = (r, t) -> call coin c 0 d w = (r, set_asset t w)).
    { intros c d r t K. rewrite call_coin, K. reflexivity. }
    split.
    - intros [(H1 & H2 & H3) (H4 & H5 & H6)]. pose proof FA as (A1 & A2 & A3). pose proof FT as (T1 & T2 & T3). unfold says in *.
      split; (split; [assumption|]; split; [|assumption]); (split; [|split]).
      + specialize (H1 0). rewrite (Co _ _ _ _ (coin_supply 0 _)), set_asset_same in H1. apply W in H1; auto. apply supply_fits, HA.
      + intros a Ha. specialize (H2 a Ha 0). rewrite (Co _ _ _ _ (coin_balance 0 _ a Ha)), set_asset_same in H2. apply W in H2; auto. apply balance_fits, HA.
      + intros o sp Ho Hs. specialize (H3 o sp Ho Hs 0). rewrite (Co _ _ _ _ (coin_allowance 0 _ o sp Ho Hs)), set_asset_same in H3.
        apply W in H3; auto. apply allowance_fits, HA.
      + specialize (H4 0). rewrite call_this, ask_supply in H4. apply W in H4; auto. apply supply_fits, HT.
      + intros a Ha. specialize (H5 a Ha 0). rewrite call_this, ask_balance in H5 by exact Ha. apply W in H5; auto. apply balance_fits, HT.
      + intros o sp Ho Hs. specialize (H6 o sp Ho Hs 0). rewrite call_this, ask_allowance in H6 by assumption. apply W in H6; auto. apply allowance_fits, HT.
    - intros [(_ & (A1 & A2 & A3) & _) (_ & (T1 & T2 & T3) & _)]. unfold shows, shows_ledger, says.
      split; (split; [|split]).
      + intros c. rewrite (Co _ _ _ _ (coin_supply c _)), set_asset_same, A1. reflexivity.
      + intros a Ha c. rewrite (Co _ _ _ _ (coin_balance c _ a Ha)), set_asset_same, (A2 a Ha). reflexivity.
      + intros o sp Ho Hs c. rewrite (Co _ _ _ _ (coin_allowance c _ o sp Ho Hs)), set_asset_same, (A3 o sp Ho Hs). reflexivity.
      + intros c. rewrite call_this, ask_supply, T1. reflexivity.
      + intros a Ha c. rewrite call_this, ask_balance, (T2 a Ha) by exact Ha. reflexivity.
      + intros o sp Ho Hs c. rewrite call_this, ask_allowance, (T3 o sp Ho Hs) by assumption. reflexivity.
  Qed.
  (** What a call does, by the model's functions. *)
  Definition does (w : world) (to c : Z) (data : list Z) (x : verdict (list Z * books)) : Prop :=
    match x with
    | Yes (out, b') => exists w', call to c 0 data w = (Returned out, w') /\ fine w' b'
    | No (Some why) => exists d, call to c 0 data w = (Reverted d, w) /\ decode_reason d = Some why
    | No None => call to c 0 data w = (Reverted [], w)
    end.
  Lemma does_follows w to c data x : does w to c data x -> follows call this coin w to c data x.
  Proof.
    unfold does, follows. destruct x as [[out b']|[why|]]; auto. intros (w' & K & F). exists w'. split; [exact K|].
    pose proof (fine_fits _ _ F) as B. split; [|exact B]. apply shows_ok; auto. exact (fine_good _ _ F).
  Qed.
  Lemma does_good w to c data x : Good w -> does w to c data x -> Good (snd (call to c 0 data w)).
  Proof.
    unfold does. intros G. destruct x as [[out b']|[why|]].
    - intros (w' & -> & F). exact (fine_good _ _ F).
    - intros (d & -> & _). exact G.
    - intros ->. exact G.
  Qed.
  Lemma meets_does (m : M world E (list val)) w c data l vals out b' :
    entry C c 0 data w = finish C (m w) w -> meets fine R m w l vals b' -> abi_params vals = out -> does w this c data (decide l (out, b')).
  Proof.
    intros He Hm Ho. unfold does. rewrite (decide_any l tt). unfold meets in Hm. rewrite call_this, He.
    destruct (decide l tt) as [[]|[why|]].
    - destruct Hm as (s' & -> & F). cbn [finish]. rewrite Ho. eauto.
    - destruct Hm as (e & s' & -> & Hr & Hf). cbn [finish]. exists (revert_data C e). split; [reflexivity|]. subst why. apply Hd, Hf.
    - destruct Hm as (s' & ->). reflexivity.
  Qed.
  Lemma coin_does w b c o : fine w b -> is_address c -> order_fits o ->
    does w coin c (order_data o) (decide (order_checks c o (coins b)) (order_result o, mkBooks (order_effect c o (coins b)) (shares b))).
  Proof.
    intros [Fa Ft] Hc Ho. unfold does. rewrite (decide_any _ tt). rewrite call_coin, (coin_order c o (asset_st w) Ho).
    pose proof (order_meets (asset_st w) (coins b) c o Fa Hc Ho) as K. unfold meets in K. unfold Erc20.step, tx. cbn [fst snd].
    destruct (decide (order_checks c o (coins b)) tt) as [[]|[why|]].
    - destruct K as (t' & -> & K). cbn [fst snd answer_of]. eexists. split; [reflexivity|]. split; [exact K|exact Ft].
    - destruct K as (e & t' & -> & Hr & Hf). cbn [fst snd answer_of]. rewrite set_asset_same. eexists. split; [reflexivity|]. subst why.
      apply revert_erc20_ok, Hf.
    - destruct K as (t' & ->). cbn [fst snd answer_of]. rewrite set_asset_same. reflexivity.
  Qed.
End chain.
(** An order on the contract's own token. *)
Lemma own_order_meets {E} (R : E -> reason) (f : Erc20.error -> E) w b c o :
  (forall e, R (f e) = reason_erc20 e) -> fine w b -> is_address c -> order_fits o ->
  meets fine R (map_err f (on_tok (Erc20.exec c (order_op o)))) w (order_checks c o (shares b)) tt (mkBooks (coins b) (order_effect c o (shares b))).
Proof. intros Hf F Hc Ho. apply on_tok_meets; auto. apply order_meets; auto. apply F. Qed.
Lemma flag_meets {E} (R : E -> reason) (f : Erc20.error -> E) (m : M Erc20.state Erc20.error bool) w l b :
  (forall x, fst (m (tok w)) = Ok x -> x = true) ->
  meets fine R (map_err f (on_tok (Erc20.ignore m))) w l tt b -> meets fine R (flag (map_err f (on_tok m))) w l [Word 1] b.
Proof.
  intros H. unfold meets, flag, map_err, on_tok, zoom, Erc20.ignore. mred. destruct (m (tok w)) as [[x|e|] t']; cbn [fst snd] in *.
  - rewrite (H x eq_refl). destruct (decide l tt) as [|[why|]];
      [intros (s' & K & F)|intros (e & s' & K & Hr & Hf)|intros (s' & K)]; inversion K; subst; eauto 6.
  - destruct (decide l tt) as [|[why|]]; [intros (s' & K & F)|intros (e0 & s' & K & Hr & Hf)|intros (s' & K)]; inversion K; subst; eauto 6.
  - destruct (decide l tt) as [|[why|]]; [intros (s' & K & F)|intros (e0 & s' & K & Hr & Hf)|intros (s' & K)]; inversion K; subst; eauto 6.
Qed.

(** ** Accounts that do nothing *)
Definition nobody (b : ledger) (o : Z) : Prop := forall sp, is_address sp -> l_allowance b o sp = 0.
Lemma decide_yes_app {B} l m (b b' : B) : decide (l ++ m) b = Yes b' -> decide l tt = Yes tt /\ decide m b = Yes b'.
Proof. rewrite decide_app, (decide_any l tt b). destruct (decide l tt) as [[]|]; [auto|discriminate]. Qed.
Lemma decide_yes {B} l (b b' : B) : decide l b = Yes b' -> decide l tt = Yes tt /\ b' = b.
Proof. rewrite (decide_any l tt b). destruct (decide l tt) as [[]|]; [|discriminate]. intros [= ->]. auto. Qed.
Lemma spent b o c v : decide (may_spend b o c v) tt = Yes tt -> l_allowance b o c = U256_MAX \/ v <= l_allowance b o c /\ o <> 0 /\ c <> 0.
Proof.
  unfold may_spend. cbv zeta. destruct (l_allowance b o c =? U256_MAX) eqn:E; [left; lia|]. cbn [decide].
  destruct (_ <? v) eqn:E1; [discriminate|]. destruct (o =? 0) eqn:E2; [discriminate|]. destruct (c =? 0) eqn:E3; [discriminate|]. right. lia.
Qed.
Lemma max_not_0 : U256_MAX <> 0. Proof. discriminate. Qed.
Lemma spend_quiet b o f c v : nobody b o -> is_address c -> c <> o -> is_u256 v -> decide (may_spend b f c v) tt = Yes tt ->
  nobody (after_spending b f c v) o /\ (f = o -> v = 0).
Proof.
  intros N Hc Hco Hv Y. apply spent in Y. pose proof max_not_0 as M. unfold is_u256 in Hv.
  assert (Z0 : f = o -> v = 0). { intros ->. rewrite (N c Hc) in Y. lia. }
  split; [|exact Z0]. intros sp Hsp. unfold after_spending. cbv zeta. destruct (_ =? U256_MAX) eqn:E; [apply N, Hsp|].
  cbn [with_allowance l_allowance]. destruct ((o =? f) && (sp =? c)) eqn:D; [|apply N, Hsp].
  replace f with o in * by lia. rewrite (N c Hc), (Z0 eq_refl). reflexivity.
Qed.
Lemma moved_quiet g f d v o : 0 <= v -> (f = o -> v = 0) -> g o <= moved g f d v o.
Proof.
  intros Hv Hf. unfold moved, at_key. destruct (o =? d) eqn:D, (d =? f) eqn:D', (o =? f) eqn:D''; try lia.
  - replace d with f in * by lia. replace o with f in * by lia. lia.
  - replace d with o by lia. lia.
  - replace f with o in * by lia. rewrite (Hf eq_refl). lia.
Qed.
Lemma order_quiet b c ord o : nobody b o -> is_address c -> c <> o -> order_fits ord -> decide (order_checks c ord b) tt = Yes tt ->
  nobody (order_effect c ord b) o /\ l_balance b o <= l_balance (order_effect c ord b) o.
Proof.
  intros N Hc Hco Hf Y. destruct ord as [a v|a v|f d v|a v]; cbn [order_fits order_checks order_effect] in *.
  - split; [exact N|]. cbn [l_balance with_balances]. unfold is_u256 in Hf. apply moved_quiet; lia.
  - split; [|cbn; lia]. intros sp Hsp. cbn [l_allowance with_allowance]. replace (o =? c) with false by lia. apply N, Hsp.
  - apply decide_yes_app in Y. destruct Y as [Y _]. destruct Hf as (_ & _ & Hv). destruct (spend_quiet b o f c v N Hc Hco Hv Y) as [N' Z0].
    split; [exact N'|]. cbn [l_balance with_balances]. apply moved_quiet; [apply Hv|exact Z0].
  - split; [exact N|]. cbn [l_balance with_balances]. unfold at_key, is_u256 in *. destruct (o =? a) eqn:D; [replace a with o by lia|]; lia.
Qed.
Lemma destroy_quiet b c f v o : nobody b o -> is_address c -> c <> o -> is_u256 v -> decide (may_destroy b c f v) tt = Yes tt ->
  nobody (after_destroying b c f v) o /\ l_balance b o <= l_balance (after_destroying b c f v) o.
Proof.
  intros N Hc Hco Hv Y. unfold may_destroy in Y. apply decide_yes_app in Y. destruct Y as [Y _].
  unfold after_destroying. cbn [l_balance with_balances]. unfold at_key.
  destruct (c =? f) eqn:D.
  - split; [exact N|]. replace (o =? f) with false by lia. lia.
  - destruct (spend_quiet b o f c v N Hc Hco Hv Y) as [N' Z0]. split; [exact N'|]. destruct (o =? f) eqn:D'; [|lia].
    rewrite Z0 by lia. replace f with o by lia. lia.
Qed.
Lemma order_supply c o b : (match o with Issue _ _ => False | _ => True end) -> l_supply (order_effect c o b) = l_supply b.
Proof. destruct o; cbn; tauto. Qed.

Lemma data_bytes sig ws : size ws < 10 -> List.Forall is_byte (calldata sig (map Word ws)) /\ size (calldata sig (map Word ws)) < two256.
Proof.
  intros H. unfold calldata. split; [apply List.Forall_app; split; [apply be_bytes_byte|apply abi_words_bytes]|].
  rewrite size_app, abi_words_size. unfold size at 1. rewrite be_bytes_length. transitivity 400; [lia|reflexivity].
Qed.
Lemma order_bytes o : List.Forall is_byte (order_data o) /\ size (order_data o) < two256.
Proof.
  destruct o as [to v|sp v|f t v|a v]; unfold order_data.
  - apply (data_bytes _ [to; v]). reflexivity.
  - apply (data_bytes _ [sp; v]). reflexivity.
  - apply (data_bytes _ [f; t; v]). reflexivity.
  - apply (data_bytes _ [a; v]). reflexivity.
Qed.
