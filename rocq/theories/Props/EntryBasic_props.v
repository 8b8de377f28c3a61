(** C103: bytes in, bytes out for examples/basic/token. *)
From Verif.Base Require Import Prelude Bytes Keccak Maps.
From Coq Require Import String List.
From Verif.Model Require Import Introspection Router Entry EntryErc20 EntryBasic.
From Verif.Model Require SolAbi Erc20.
From Verif.Spec Require Import Router_spec SolAbi_spec LogMeaning_spec Errors_spec.
From Verif.Spec Require Import Entry_spec Ledger_spec EntryBasic_spec.
From Verif.Proofs Require Import Router_lemmas Entry_lemmas Ledger_lemmas.
From Verif.Proofs Require SolAbi_lemmas Erc20_inv EntryNft_lemmas.
From Verif.Props Require Import SolAbi_props.
From Verif.Props Require EntryNft_props.
Import SolAbi.
Import EntryNft_lemmas (one_word).
Import EntryNft_props (same_entry).
#[global] Open Scope Z_scope.
Local Open Scope list_scope.
Local Open Scope Z_scope.
Opaque keccak256.

Section basic_example.
  Context (name symbol : list Z).
  Local Notation C := (ExampleBasic name symbol).
  Local Notation call := (entry C).
  Local Notation shows' := (shows (entry C) name symbol).
  Lemma known_basic : all_known (blocks C) = true.
  Proof. vm_compute. reflexivity. Qed.
  Definition exposed_basic := Eval vm_compute in exposed BasicExample.
  Lemma exposed_basic_ok : exposed (blocks C) = exposed_basic.
  Proof. vm_compute. reflexivity. Qed.
  Lemma call_request sig l c s t f :
    k_fits sig = true -> find_fn_k BasicExample (k sig) = Some (t, f) ->
    List.Forall2 has_type (arg_types f) (map Word l) -> size l < 10 ->
    entry C c 0 (calldata sig (map Word l)) s = finish C (body_of (code C) t (rust_name f) (map Word l) c s) s.
  Proof.
    intros H1 H2 H3 H4. apply entry_calldata; auto using known_basic, abi_words_bytes.
    rewrite abi_words_size. transitivity 320; [lia|reflexivity].
  Qed.
  Ltac types := repeat (apply List.Forall2_cons || apply List.Forall2_nil); cbn [has_type word_of_type]; tauto.
  Ltac call sg l t f := refine (eq_trans (call_request sg l _ _ t f _ _ _ _) _); [vm_compute; reflexivity|vm_compute; reflexivity|types|reflexivity|].
  Definition answer_of (x : res Erc20.error unit) (out : list Z) : answer :=
    match x with Ok _ => Returned out | Err e => Reverted (revert_erc20 e) | Panic => Reverted [] end.
  Lemma finish_nothing (m : M Erc20.state Erc20.error unit) s :
    finish C (nothing m s) s = (answer_of (fst (tx m s)) [], snd (tx m s)).
  Proof. unfold nothing, tx, answer_of. mred. destruct (m s) as [[[]|e|] s']; reflexivity. Qed.
  Lemma finish_flag (m : M Erc20.state Erc20.error bool) s : (forall b, fst (m s) = Ok b -> b = true) ->
    finish C (flag m s) s = (answer_of (fst (tx (Erc20.ignore m) s)) (word 1), snd (tx (Erc20.ignore m) s)).
  Proof.
    intros H. unfold flag, tx, answer_of, Erc20.ignore. mred. destruct (m s) as [[b|e|] t']; cbn [fst snd finish]; [|reflexivity..].
    rewrite (H b eq_refl), one_word. reflexivity.
  Qed.
  Lemma entry_order c r s : order_fits r ->
    entry C c 0 (order_data r) s = (answer_of (fst (tx (Erc20.exec c (order_op r)) s)) (order_result r), Erc20.step s (c, order_op r)).
  Proof.
    intros Hr. destruct r as [a v|a v|a b v|a v]; cbn [order_fits] in Hr; unfold order_data, Erc20.step;
      cbn [order_op fst snd order_result Erc20.exec].
    - change [Word a; Word v] with (map Word [a; v]). call "transfer(address,uint256)"%string [a; v] "Erc20"%string (fn "transfer" [Address; U256]).
      refine (finish_flag (Erc20.transfer c a v) s _). intros b. unfold Erc20.transfer. mred.
      destruct (Erc20._transfer c a v _) as [[[]|e|] t']; cbn; congruence.
    - change [Word a; Word v] with (map Word [a; v]). call "approve(address,uint256)"%string [a; v] "Erc20"%string (fn "approve" [Address; U256]).
      refine (finish_flag (Erc20.approve c a v) s _). intros b. unfold Erc20.approve, Erc20._approve. mred.
      destruct (c =? 0); [discriminate|]. destruct (a =? 0); [discriminate|]. cbn. congruence.
    - change [Word a; Word b; Word v] with (map Word [a; b; v]). call "transferFrom(address,address,uint256)"%string [a; b; v] "Erc20"%string (fn "transfer_from" [Address; Address; U256]).
      refine (finish_flag (Erc20.transfer_from c a b v) s _). intros x. unfold Erc20.transfer_from. mred.
      destruct (Erc20._spend_allowance a c v _) as [[[]|e|] t']; cbn [fst snd]; try congruence.
      destruct (Erc20._transfer a b v _) as [[[]|e|] t1]; cbn; congruence.
    - change [Word a; Word v] with (map Word [a; v]). call "mint(address,uint256)"%string [a; v] "Erc20Example"%string (fn "mint" [Address; U256]).
      exact (finish_nothing (Erc20._mint a v) s).
  Qed.
  Lemma any_call c v d s : List.Forall is_byte d -> size d < two256 ->
    snd (entry C c v d s) = s \/ exists r, v = 0 /\ d = order_data r /\ order_fits r.
  Proof.
    intros Hb Hsz. destruct (entry_cases C c v d s known_basic Hb Hsz) as [->|(t & f & args & Hin & -> & Ht & Hd & He)]; [left; reflexivity|].
    rewrite exposed_basic_ok in Hin. unfold exposed_basic in Hin. rewrite He. clear He Hb Hsz.
    repeat (destruct Hin as [Hin|Hin];
      [injection Hin as <- <-; cbn [arg_types] in Ht;
       repeat match goal with
       | H : List.Forall2 _ (_ :: _) _ |- _ => inversion H; subst; clear H
       | H : List.Forall2 _ [] _ |- _ => inversion H; subst; clear H
       | H : has_type _ ?y |- _ => destruct y; cbn [has_type word_of_type] in H;
           [|exfalso; first [destruct H as (? & H & _); discriminate H | destruct H as [[H|H] _]; discriminate H]..]
       end|]); [..|destruct Hin].
    all: try (left; reflexivity).
    all: right.
    Ltac req r := exists r; split; [reflexivity|]; split; [reflexivity|cbn [order_fits]; tauto].
    all: match goal with |- context [fn_sig ?f] => let x := eval vm_compute in (fn_sig f) in change (fn_sig f) with x end.
    all: match goal with
      | |- context [calldata "transfer(address,uint256)" [Word ?a; Word ?v]] => req (Pay a v)
      | |- context [calldata "approve(address,uint256)" [Word ?a; Word ?v]] => req (Allow a v)
      | |- context [calldata "transferFrom(address,address,uint256)" [Word ?a; Word ?b; Word ?v]] => req (Draw a b v)
      | |- context [calldata "mint(address,uint256)" [Word ?a; Word ?v]] => req (Issue a v)
      end.
  Qed.
  Lemma step_inv s c r : Erc20_inv.Inv s -> order_fits r -> Erc20_inv.Inv (Erc20.step s (c, order_op r)).
  Proof. intros H Hr. apply Erc20_inv.inv_step; [exact H|]. cbn [snd]. apply order_op_wf, Hr. Qed.
  Lemma raw_inv h : basic_sane h -> forall s, Erc20_inv.Inv s -> Erc20_inv.Inv (raw_run C h s).
  Proof.
    induction h as [|[[c v] d] h IH]; intros Hh s Hs; [exact Hs|].
    destruct (proj1 (List.Forall_cons_iff _ _ _) Hh) as [(Hc & Hb & Hsz) Hh']. cbn [fst snd] in *.
    change (raw_run C ((c, v, d) :: h) s) with (raw_run C h (snd (entry C c v d s))). apply (IH Hh').
    destruct (any_call c v d s Hb Hsz) as [->|(r & -> & -> & Hr)]; [exact Hs|]. rewrite (entry_order c r s Hr). apply step_inv; assumption.
  Qed.
  Lemma ask_supply s c : entry C c 0 (calldata "totalSupply()" []) s = (Returned (word (Erc20.total_supply s)), s).
  Proof. change (@nil val) with (map Word []). call "totalSupply()"%string (@nil Z) "Erc20"%string (fn "total_supply" []). rewrite <- one_word. reflexivity. Qed.
  Lemma ask_balance s c a : is_address a -> entry C c 0 (calldata "balanceOf(address)" [Word a]) s = (Returned (word (Erc20.balance_of s a)), s).
  Proof. intros H. change [Word a] with (map Word [a]). call "balanceOf(address)"%string [a] "Erc20"%string (fn "balance_of" [Address]). rewrite <- one_word. reflexivity. Qed.
  Lemma ask_allowance s c a b : is_address a -> is_address b ->
    entry C c 0 (calldata "allowance(address,address)" [Word a; Word b]) s = (Returned (word (Erc20.allowance s a b)), s).
  Proof.
    intros H H'. change [Word a; Word b] with (map Word [a; b]). call "allowance(address,address)"%string [a; b] "Erc20"%string (fn "allowance" [Address; Address]).
    rewrite <- one_word. reflexivity.
  Qed.
  Lemma ask_name s c : entry C c 0 (calldata "name()" []) s = (Returned (abi_params [Octets name]), s).
  Proof. change (@nil val) with (map Word []). call "name()"%string (@nil Z) "Erc20Metadata"%string (fn "name" []). reflexivity. Qed.
  Lemma ask_symbol s c : entry C c 0 (calldata "symbol()" []) s = (Returned (abi_params [Octets symbol]), s).
  Proof. change (@nil val) with (map Word []). call "symbol()"%string (@nil Z) "Erc20Metadata"%string (fn "symbol" []). reflexivity. Qed.
  Lemma ask_decimals s c : entry C c 0 (calldata "decimals()" []) s = (Returned (word 18), s).
  Proof. change (@nil val) with (map Word []). call "decimals()"%string (@nil Z) "Erc20Metadata"%string (fn "decimals" []). rewrite <- one_word. reflexivity. Qed.
  Lemma shows_keeps s b : Erc20_inv.Inv s -> ledger_fits b -> (shows' s b <-> keeps s b).
  Proof.
    intros G (F1 & F2 & F3). unfold shows, keeps, tells, says_text. split.
    - assert (W : forall x y (t : Erc20.state), is_u256 x -> is_u256 y -> (Returned (word x), t) = (Returned (word y), t) -> y = x).
      { intros x y t Hx Hy E. assert (E' : word x = word y) by congruence. symmetry. exact (word_inj _ _ Hx Hy E'). }
      intros (H1 & H2 & H3 & _). split; [|split].
      + specialize (H1 0). rewrite (ask_supply s 0) in H1. apply W in H1; auto. apply supply_fits, G.
      + intros a Ha. specialize (H2 a Ha 0). rewrite (ask_balance s 0 a Ha) in H2. apply W in H2; auto. apply balance_fits, G.
      + intros o sp Ho Hsp. specialize (H3 o sp Ho Hsp 0). rewrite (ask_allowance s 0 o sp Ho Hsp) in H3. apply W in H3; auto. apply allowance_fits, G.
    - intros (H1 & H2 & H3). split; [|split; [|split; [|split; [|split]]]].
      + intros c. rewrite (ask_supply s c), H1. reflexivity.
      + intros a Ha c. rewrite (ask_balance s c a Ha), (H2 a Ha). reflexivity.
      + intros o sp Ho Hsp c. rewrite (ask_allowance s c o sp Ho Hsp), (H3 o sp Ho Hsp). reflexivity.
      + intros c. apply ask_name.
      + intros c. apply ask_symbol.
      + intros c. apply ask_decimals.
  Qed.
  Lemma follows_ok s b c r : Erc20_inv.Inv s -> ledger_fits b -> keeps s b -> is_address c -> order_fits r -> follows (entry C) name symbol s b c r.
  Proof.
    intros G Fb A Hc Hr. unfold follows, ideal. rewrite (order_verdict s b c r (order_effect c r b) A Hc Hr).
    pose proof (entry_order c r s Hr) as E. pose proof (order_reason s c r) as Ef. pose proof (fun u s' => order_keeps s b c r u s' G A Hc Hr) as Ag.
    pose proof (step_inv s c r G Hr) as G'. unfold Erc20.step, tx in *. cbn [fst snd] in *.
    destruct (Erc20.exec c (order_op r) s) as [[[]|e|] s'] eqn:Ex; cbn [outcome fst snd answer_of] in *.
    - exists s'. specialize (Ag tt s' eq_refl). pose proof (order_effect_fits s' b c r G' Fb Hc Hr Ag) as Fb'.
      split; [exact E|]. split; [apply (shows_keeps _ _ G' Fb'), Ag|exact Fb'].
    - exists (revert_erc20 e). split; [exact E|]. apply revert_erc20_ok, Ef; auto.
    - exact E.
  Qed.
  Lemma step_keeps s b c r : Erc20_inv.Inv s -> ledger_fits b -> keeps s b -> is_address c -> order_fits r ->
    keeps (Erc20.step s (c, order_op r)) (ideal_step b (c, r)) /\ ledger_fits (ideal_step b (c, r)).
  Proof.
    intros G Fb A Hc Hr. unfold ideal_step, ideal. cbn [fst snd]. rewrite (order_verdict s b c r (order_effect c r b) A Hc Hr).
    pose proof (fun u s' => order_keeps s b c r u s' G A Hc Hr) as Ag. pose proof (step_inv s c r G Hr) as G'.
    unfold Erc20.step, tx in *. cbn [fst snd] in *.
    destruct (Erc20.exec c (order_op r) s) as [[[]|e|] s'] eqn:Ex; cbn [outcome fst snd] in *; [|split; assumption..].
    specialize (Ag tt s' eq_refl). split; [exact Ag|exact (order_effect_fits s' b c r G' Fb Hc Hr Ag)].
  Qed.
  Lemma exposed_interface t f : In (t, f) (exposed (blocks C)) -> In (fn_sig f, arg_types f) basic_interface.
  Proof.
    rewrite exposed_basic_ok. intros H.
    assert (K : forallb (fun p => if in_dec same_entry (fn_sig (snd p), arg_types (snd p)) basic_interface then true else false) exposed_basic = true)
      by (vm_compute; reflexivity).
    rewrite forallb_forall in K. specialize (K _ H). cbn [snd] in K. destruct (in_dec _ _ _) as [Hin|]; [exact Hin|discriminate].
  Qed.
End basic_example.

(** After every history of calls by anybody, with any bytes and any value, the getters show a
    ledger, and the answer to every order is the ideal token's: the ledger that is shown next, or
    the reason for the refusal. It starts empty. *)
Theorem c103_basic_is_the_ideal_token :
  forall name symbol h, basic_sane h ->
  let call := entry (ExampleBasic name symbol) in
  let s := raw_run (ExampleBasic name symbol) h Erc20.init in
  (exists b, ledger_fits b /\ shows call name symbol s b) /\
  (forall b c r, ledger_fits b -> shows call name symbol s b -> is_address c -> order_fits r -> follows call name symbol s b c r) /\
  shows call name symbol Erc20.init new_ledger.
Proof.
  intros name symbol h Hh call s. pose proof (raw_inv name symbol h Hh _ Erc20_inv.inv_init) as G. fold s in G. split; [|split].
  - destruct (ledger_of_ok s G) as [F A]. exists (ledger_of s). split; [exact F|]. apply (shows_keeps name symbol s _ G F), A.
  - intros b c r Fb Sb Hc Hr. apply (shows_keeps name symbol s b G Fb) in Sb. apply follows_ok; assumption.
  - apply (shows_keeps name symbol _ _ Erc20_inv.inv_init (proj2 keeps_init)), keeps_init.
Qed.
Print Assumptions c103_basic_is_the_ideal_token.

(** The ledger after a series of orders is the one computed by hand. *)
Theorem c103_basic_computed_by_hand :
  forall name symbol l, List.Forall (fun x => is_address (fst x) /\ order_fits (snd x)) l ->
  let b := ideal_run l new_ledger in
  ledger_fits b /\ shows (entry (ExampleBasic name symbol)) name symbol (raw_run (ExampleBasic name symbol) (orders_sent l) Erc20.init) b.
Proof.
  intros name symbol l Hl b.
  assert (K : forall s b0, Erc20_inv.Inv s -> ledger_fits b0 -> keeps s b0 ->
    let s' := raw_run (ExampleBasic name symbol) (orders_sent l) s in Erc20_inv.Inv s' /\ ledger_fits (ideal_run l b0) /\ keeps s' (ideal_run l b0)).
  { clear b. induction Hl as [|[c r] l [Hc Hr] Hl IH]; intros s b0 G F A; [split; [exact G|split; assumption]|]. cbn [fst snd] in *.
    change (raw_run (ExampleBasic name symbol) (orders_sent ((c, r) :: l)) s)
      with (raw_run (ExampleBasic name symbol) (orders_sent l) (snd (entry (ExampleBasic name symbol) c 0 (order_data r) s))).
    change (ideal_run ((c, r) :: l) b0) with (ideal_run l (ideal_step b0 (c, r))). rewrite (entry_order name symbol c r s Hr). cbn [snd].
    destruct (step_keeps s b0 c r G F A Hc Hr) as [A' F']. apply IH; [apply step_inv; assumption|exact F'|exact A']. }
  destruct (K Erc20.init new_ledger Erc20_inv.inv_init (proj2 keeps_init) (proj1 keeps_init)) as (G & F & A). split; [exact F|].
  apply (shows_keeps name symbol _ _ G F), A.
Qed.
Print Assumptions c103_basic_computed_by_hand.

(** Nobody loses tokens but by their own transfer, or by that of somebody they have allowed as
    much: whatever bytes are sent after whatever history, if an account's balance is less
    afterwards, the call was one of the two, and what is missing is what was asked for. *)
Theorem c103_only_the_holder_spends :
  forall name symbol h c v d a x y, basic_sane h -> is_address c -> List.Forall is_byte d -> size d < two256 -> is_address a ->
  is_u256 x -> is_u256 y ->
  let call := entry (ExampleBasic name symbol) in
  let s := raw_run (ExampleBasic name symbol) h Erc20.init in
  let s' := snd (call c v d s) in
  tells call s "balanceOf(address)" [Word a] x -> tells call s' "balanceOf(address)" [Word a] y -> y < x ->
  v = 0 /\
  ((c = a /\ exists t, t <> a /\ d = order_data (Pay t (x - y))) \/
   (exists t al, t <> a /\ d = order_data (Draw a t (x - y)) /\ is_u256 al /\ x - y <= al /\
      tells call s "allowance(address,address)" [Word a; Word c] al)).
Proof.
  intros name symbol h c v d a x y Hh Hc Hb Hsz Ha Hx Hy call s s' T1 T2 L.
  pose proof (raw_inv name symbol h Hh _ Erc20_inv.inv_init) as G. fold s in G.
  destruct (ledger_of_ok s G) as [F A].
  assert (X : Erc20.balance_of s a = x).
  { specialize (T1 0). unfold call in T1. rewrite (ask_balance name symbol s 0 a Ha) in T1. apply word_inj; [apply balance_fits, G|exact Hx|congruence]. }
  destruct (any_call name symbol c v d s Hb Hsz) as [E|(r & -> & -> & Hr)].
  { exfalso. specialize (T1 0). specialize (T2 0). unfold s', call in T2. rewrite E in T2. fold call in T2. rewrite T1 in T2.
    assert (K : word x = word y) by congruence. apply word_inj in K; [|exact Hx|exact Hy]. clear - K L. lia. }
  split; [reflexivity|]. pose proof (follows_ok name symbol s (ledger_of s) c r G F A Hc Hr) as O. unfold follows in O. fold call in O.
  assert (N : forall ans, call c 0 (order_data r) s = (ans, s) -> False).
  { intros ans E. specialize (T1 0). specialize (T2 0). unfold s' in T2. rewrite E in T2. cbn [snd] in T2. rewrite T1 in T2.
    assert (K : word x = word y) by congruence. apply word_inj in K; [|exact Hx|exact Hy]. clear - K L. lia. }
  destruct (ideal c r (ledger_of s)) as [b'|[why|]] eqn:I; [|destruct O as (dd & O & _); contradiction (N _ O)|contradiction (N _ O)].
  destruct O as (s1 & O & (_ & Sb & _) & F').
  assert (Y : l_balance b' a = y).
  { specialize (T2 0). unfold s' in T2. rewrite O in T2. cbn [snd] in T2. rewrite (Sb a Ha 0) in T2.
    apply word_inj; [apply F'|exact Hy|congruence]. }
  clear N O Sb F' T1 T2 s'. revert I. unfold ideal.
  destruct r as [t w|sp w|f t w|t w]; cbn [order_checks order_effect order_fits] in *.
  - unfold may_move. cbn [decide]. destruct (c =? 0); [discriminate|]. destruct (t =? 0); [discriminate|]. destruct (_ <? w) eqn:Ew; [discriminate|].
    intros I. injection I as <-. cbn [with_balances l_balance ledger_of] in *. unfold moved, at_key in Y. clear - X Y L Hr Ew.
    left. destruct Hr as [_ [W _]]. destruct (a =? t) eqn:E1; destruct (a =? c) eqn:E2.
    + exfalso. replace (t =? c) with true in Y by lia. replace c with a in Y by lia. lia.
    + exfalso. replace (t =? c) with false in Y by lia. replace t with a in Y by lia. lia.
    + split; [lia|]. exists t. split; [lia|]. replace (x - y) with w; [reflexivity|]. replace c with a in Y by lia. lia.
    + exfalso. lia.
  - unfold may_approve. cbn [decide]. destruct (c =? 0); [discriminate|]. destruct (sp =? 0); [discriminate|].
    intros I. injection I as <-. cbn [with_allowance l_balance ledger_of] in Y. exfalso. clear - X Y L. lia.
  - rewrite decide_app. destruct (decide (may_spend _ _ _ _) _) as [b0|] eqn:Sp; [|discriminate].
    unfold may_move. cbn [decide]. destruct (f =? 0); [discriminate|]. destruct (t =? 0); [discriminate|]. destruct (_ <? w) eqn:Ew; [discriminate|].
    intros I. injection I as <-. cbn [with_balances l_balance ledger_of] in *. unfold moved, at_key in Y. right.
    assert (Al : w <= Erc20.allowance s f c).
    { revert Sp. unfold may_spend. cbn [ledger_of l_allowance]. destruct Hr as (_ & _ & W). clear - W. unfold is_u256, U256_MAX in *.
      destruct (_ =? _) eqn:Em; [intros _; lia|]. cbn [decide]. destruct (_ <? w) eqn:E; [discriminate|]. intros _. lia. }
    destruct Hr as (Hf & Ht & [W _]).
    assert (Fa : f = a /\ t <> a /\ x - y = w).
    { clear - X Y L W. destruct (a =? t) eqn:E1; destruct (a =? f) eqn:E2.
      - exfalso. replace (t =? f) with true in Y by lia. replace f with a in Y by lia. lia.
      - exfalso. replace (t =? f) with false in Y by lia. replace t with a in Y by lia. lia.
      - split; [lia|]. split; [lia|]. replace f with a in Y by lia. lia.
      - exfalso. lia. }
    destruct Fa as (-> & Nt & E). rewrite E. exists t, (Erc20.allowance s a c).
    split; [exact Nt|]. split; [reflexivity|]. split; [apply allowance_fits, G|]. split; [exact Al|].
    intros c'. apply ask_allowance; assumption.
  - cbn [decide]. destruct (t =? 0); [discriminate|]. destruct (two256 <=? _); [discriminate|].
    intros I. injection I as <-. cbn [with_balances l_balance ledger_of] in Y. unfold at_key in Y. exfalso. clear - X Y L Hr. destruct Hr as [_ [W _]].
    destruct (a =? t) eqn:E; [replace t with a in Y by lia|]; lia.
Qed.
Print Assumptions c103_only_the_holder_spends.

(** Nothing else: other bytes, and calls with value, revert; only the orders change the state. *)
Theorem c103_basic_nothing_else :
  forall name symbol c v d s, List.Forall is_byte d -> size d < two256 ->
  let call := entry (ExampleBasic name symbol) in
  (~ basic_proper v d -> call c v d s = (Reverted [], s)) /\
  (snd (call c v d s) <> s -> exists r, v = 0 /\ d = order_data r /\ order_fits r) /\
  (forall out s', call c v d s = (Returned out, s') -> basic_proper v d).
Proof.
  intros name symbol c v d s Hb Hsz call.
  assert (P : call c v d s = (Reverted [], s) \/ basic_proper v d).
  { destruct (entry_cases (ExampleBasic name symbol) c v d s (known_basic name symbol) Hb Hsz)
      as [K|(t & f & args & Hin & Hv & Ht & Hd & _)]; [left; exact K|right].
    split; [exact Hv|]. exists (fn_sig f), (arg_types f), args.
    split; [apply (exposed_interface name symbol t), Hin|]. split; assumption. }
  split; [destruct P; tauto|]. split.
  - intros Hs. destruct (any_call name symbol c v d s Hb Hsz) as [K|K]; [contradiction (Hs K)|exact K].
  - intros out s' E. destruct P as [P|P]; [congruence|exact P].
Qed.
Print Assumptions c103_basic_nothing_else.

(** ** The hypotheses hold *)
Definition story : list (Z * order) :=
  [(9, Issue 1 100); (1, Pay 2 30); (2, Allow 3 20); (3, Draw 2 4 5); (7, Pay 8 1); (7, Issue 7 (2 ^ 256 - 1))].
Example c103_nonvacuous :
  List.Forall (fun x => is_address (fst x) /\ order_fits (snd x)) story /\
  let call := entry (ExampleBasic [65] [66]) in
  let s := raw_run (ExampleBasic [65] [66]) (orders_sent story) Erc20.init in
  exists b, ledger_fits b /\ shows call [65] [66] s b /\
    l_supply b = 100 /\ map (l_balance b) [1; 2; 4; 7; 8] = [70; 25; 5; 0; 0] /\ l_allowance b 2 3 = 15 /\
    ideal 3 (Draw 2 3 16) b = No (Some (ERC20InsufficientAllowance 3 15 16)) /\
    ideal 7 (Issue 7 (2 ^ 256 - 1)) b = No None /\
    ideal 1 (Pay 0 1) b = No (Some (ERC20InvalidReceiver 0)).
Proof.
  assert (R : List.Forall (fun x => is_address (fst x) /\ order_fits (snd x)) story).
  { unfold story, order_fits, is_address, is_u256. repeat (apply List.Forall_cons || apply List.Forall_nil); cbn [fst snd]; repeat split; discriminate. }
  split; [exact R|]. intros call s. destruct (c103_basic_computed_by_hand [65] [66] story R) as [F Sh].
  exists (ideal_run story new_ledger). split; [exact F|]. split; [exact Sh|]. clear.
  do 5 (split; [vm_compute; reflexivity|]). vm_compute. reflexivity.
Qed.
