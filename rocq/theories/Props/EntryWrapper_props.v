(** C90: bytes in, bytes out for the wrapper example, with the token it wraps. *)
From Verif.Base Require Import Prelude Bytes Keccak Maps.
From Coq Require Import String List.
From Verif.Model Require Import Introspection Router Entry EntryErc20 EntryVault.
From Verif.Model Require SolAbi Erc20 SafeErc20 Erc20World Wrapper.
From Verif.Spec Require Import Router_spec SolAbi_spec LogMeaning_spec Entry_spec Ledger_spec EntryVault_spec.
From Verif.Proofs Require Import Router_lemmas Entry_lemmas Ledger_lemmas EntryVault_lemmas.
From Verif.Proofs Require Erc20_inv.
From Verif.Props Require Import SolAbi_props.
Import SolAbi Erc20World.
#[global] Open Scope Z_scope.
Local Open Scope list_scope.
Local Open Scope Z_scope.
Opaque keccak256.

Section wrapper_example.
  Context (this coin udec : Z).
  Context (Hthis : is_address this) (Hcoin : is_address coin) (Hne : this <> coin).
  Local Notation C := (ExampleWrapper this coin udec).
  Local Notation x := (bytes_ext this coin).
  Local Notation call := (chain_call C this coin).
  Local Notation R := reason_wrapper.
  Local Notation meets := (meets fine R).
  Local Notation ideal := (wideal this coin).

  Lemma known_wrapper : all_known (blocks C) = true.
  Proof. vm_compute. reflexivity. Qed.
  Definition exposed_wrapper := Eval vm_compute in exposed Pub.Erc20WrapperExample.
  Lemma exposed_wrapper_ok : exposed (blocks C) = exposed_wrapper.
  Proof. vm_compute. reflexivity. Qed.
  Lemma wrapper_supply c w : entry C c 0 (calldata "totalSupply()" []) w = (Returned (word (Erc20.total_supply (tok w))), w).
  Proof. change (@nil val) with (map Word []). ask constr:(C) known_wrapper "totalSupply()"%string (@nil Z) "Erc20"%string (fn "total_supply" []). rewrite <- one_word. reflexivity. Qed.
  Lemma wrapper_balance c w a : is_address a ->
    entry C c 0 (calldata "balanceOf(address)" [Word a]) w = (Returned (word (Erc20.balance_of (tok w) a)), w).
  Proof. clear Hthis Hcoin Hne. intros H. change [Word a] with (map Word [a]). ask constr:(C) known_wrapper "balanceOf(address)"%string [a] "Erc20"%string (fn "balance_of" [Address]). rewrite <- one_word. reflexivity. Qed.
  Lemma wrapper_allowance c w a b : is_address a -> is_address b ->
    entry C c 0 (calldata "allowance(address,address)" [Word a; Word b]) w = (Returned (word (Erc20.allowance (tok w) a b)), w).
  Proof.
    clear Hthis Hcoin Hne. intros H H'. change [Word a; Word b] with (map Word [a; b]). ask constr:(C) known_wrapper "allowance(address,address)"%string [a; b] "Erc20"%string (fn "allowance" [Address; Address]).
    rewrite <- one_word. reflexivity.
  Qed.

  (** *** Wrapping and unwrapping *)
  Lemma refuse_meets (p : bool) e why w b : fine w b -> reason_fits why -> (p = true -> R e = why) -> meets (fail_if p e) w [(p, Some why)] tt b.
  Proof. intros F Hf He. unfold EntryVault_lemmas.meets. cbn [decide]. destruct p; [exists e, w; auto|exists w; auto]. Qed.
  Lemma then_true m w l b : meets m w l tt b -> meets (m ;;; ret true) w l true b.
  Proof. intros H. rewrite <- (app_nil_r l). apply (meets_bind fine R _ _ w l tt b); [exact H|]. intros w' _ F. apply meets_ret, F. Qed.
  Lemma true_word m w l b : meets m w l true b -> meets (flag m) w l [Word 1] b.
  Proof. intros H. rewrite <- (app_nil_r l). unfold flag. apply (meets_bind fine R _ _ w l true b); [exact H|]. intros w' _ F. apply meets_ret, F. Qed.
  Local Ltac step H := refine (meets_bind fine R _ _ _ _ _ _ _ _ _ H _).
  Lemma deposit_meets w b c a v : fine w b -> is_address c -> is_address a -> is_u256 v ->
    meets (Wrapper.deposit_for x coin c a v) w
      ([(c =? this, Some (ERC20InvalidSender this)); (a =? this, Some (ERC20InvalidReceiver this))] ++ money_in this coin b c a v v) true (after_in this b c a v v).
  Proof.
    intros F Hc Ha Hv. unfold Wrapper.deposit_for. cbn [SafeErc20.self bytes_ext].
    change ([?p; ?q] ++ ?l) with ([p] ++ [q] ++ l).
    assert (M1 : meets (fail_if (c =? this) (Wrapper.InvalidSender c)) w [(c =? this, Some (ERC20InvalidSender this))] tt b).
    { apply refuse_meets; [exact F|apply F1, address_fits, Hthis|]. intros E. cbn. f_equal. lia. }
    step M1. intros w1 _ G1.
    assert (M2 : meets (fail_if (a =? this) (Wrapper.InvalidReceiver a)) w1 [(a =? this, Some (ERC20InvalidReceiver this))] tt b).
    { apply refuse_meets; [exact G1|apply F1, address_fits, Hthis|]. intros E. cbn. f_equal. lia. }
    step M2. intros w2 _ G2.
    unfold money_in, after_in. change (?p :: ?l) with ([p] ++ l).
    step (pull_meets this coin Hthis R Wrapper.ErrSafeErc20 c v w2 b eq_refl Hcoin G2 Hc Hv).
    intros w3 _ G3. apply then_true.
    exact (own_order_meets R Wrapper.ErrErc20 w3 _ c (Issue a v) (fun _ => eq_refl) G3 Hc (conj Ha Hv)).
  Qed.
  Lemma withdraw_meets w b c a v : fine w b -> is_address c -> is_address a -> is_u256 v ->
    meets (Wrapper.withdraw_to x coin c a v) w
      ((a =? this, Some (ERC20InvalidReceiver this)) :: money_out this coin b c a c v v) true (after_out this b c a c v v).
  Proof.
    intros F Hc Ha Hv. unfold Wrapper.withdraw_to. cbn [SafeErc20.self bytes_ext].
    change (?p :: ?l) with ([p] ++ l).
    assert (M2 : meets (fail_if (a =? this) (Wrapper.InvalidReceiver a)) w [(a =? this, Some (ERC20InvalidReceiver this))] tt b).
    { apply refuse_meets; [exact F|apply F1, address_fits, Hthis|]. intros E. cbn. f_equal. lia. }
    step M2. intros w1 _ G1. unfold money_out, may_destroy, after_out, after_destroying. rewrite Z.eqb_refl.
    assert (M3 : meets (map_err Wrapper.ErrErc20 (on_tok (Erc20._burn c v))) w1
      [(c =? 0, Some (ERC20InvalidSender 0)); (l_balance (shares b) c <? v, Some (ERC20InsufficientBalance c (l_balance (shares b) c) v))] tt
      (mkBooks (coins b) (with_balances (shares b) (l_supply (shares b) - v) (at_key (l_balance (shares b)) c (l_balance (shares b) c - v))))).
    { apply on_tok_meets; auto. apply burn_meets; auto. apply G1. }
    change ([] ++ ?l) with l. step M3. intros w2 _ G2. apply then_true.
    exact (push_meets this coin Hthis R Wrapper.ErrSafeErc20 a v w2 _ eq_refl Hcoin G2 Ha Hv).
  Qed.

  (** *** What each request does *)
  Local Notation does := (does this coin C).
  Lemma wrapper_reason e : reason_fits (R e) -> decode_reason (revert_data C e) = Some (R e).
  Proof. exact (revert_wrapper_ok e). Qed.
  Lemma request_does w b c r : fine w b -> is_address c -> wrequest_fits r -> does w (wrequest_to this coin r) c (wrequest_data r) (ideal c r b).
  Proof.
    intros F Hc Hr. destruct r as [a v|a v|o|o]; cbn [wrequest_fits wrequest_to] in *; unfold wrequest_data, wideal.
    - refine (meets_does this coin C R wrapper_reason _ w c _ _ _ _ _ _ (true_word _ w _ _ (deposit_meets w b c a v F Hc (proj1 Hr) (proj2 Hr))) (one_word _)).
      change [Word a; Word v] with (map Word [a; v]). ask constr:(C) known_wrapper "depositFor(address,uint256)"%string [a; v] "Erc20WrapperExample"%string (fn "deposit_for" [Address; U256]). reflexivity.
    - refine (meets_does this coin C R wrapper_reason _ w c _ _ _ _ _ _ (true_word _ w _ _ (withdraw_meets w b c a v F Hc (proj1 Hr) (proj2 Hr))) (one_word _)).
      change [Word a; Word v] with (map Word [a; v]). ask constr:(C) known_wrapper "withdrawTo(address,uint256)"%string [a; v] "Erc20WrapperExample"%string (fn "withdraw_to" [Address; U256]). reflexivity.
    - assert (Ho : order_fits o) by (destruct o; [exact Hr|exact Hr|exact Hr|destruct Hr]).
      pose proof (own_order_meets R Wrapper.ErrErc20 w b c o (fun _ => eq_refl) F Hc Ho) as M.
      destruct o as [a v|a v|a d v|a v]; [| | |destruct Hr]; unfold order_data; cbn [order_op Erc20.exec order_result order_fits] in *.
      + refine (meets_does this coin C R wrapper_reason _ w c _ _ _ _ _ _ (flag_meets R _ _ w _ _ (transfer_true c a v (tok w)) M) (one_word _)).
        change [Word a; Word v] with (map Word [a; v]). ask constr:(C) known_wrapper "transfer(address,uint256)"%string [a; v] "Erc20"%string (fn "transfer" [Address; U256]). reflexivity.
      + refine (meets_does this coin C R wrapper_reason _ w c _ _ _ _ _ _ (flag_meets R _ _ w _ _ (approve_true c a v (tok w)) M) (one_word _)).
        change [Word a; Word v] with (map Word [a; v]). ask constr:(C) known_wrapper "approve(address,uint256)"%string [a; v] "Erc20"%string (fn "approve" [Address; U256]). reflexivity.
      + refine (meets_does this coin C R wrapper_reason _ w c _ _ _ _ _ _ (flag_meets R _ _ w _ _ (transfer_from_true c a d v (tok w)) M) (one_word _)).
        change [Word a; Word d; Word v] with (map Word [a; d; v]). ask constr:(C) known_wrapper "transferFrom(address,address,uint256)"%string [a; d; v] "Erc20"%string (fn "transfer_from" [Address; Address; U256]). reflexivity.
    - apply coin_does; auto.
  Qed.
  Local Ltac req r := right; exists r; split; [reflexivity|]; split; [reflexivity|]; split; [reflexivity|cbn [wrequest_fits order_fits]; tauto].
  Lemma any_wrapper_call c v d w : List.Forall is_byte d -> size d < two256 ->
    snd (entry C c v d w) = w \/ exists r, wrequest_to this coin r = this /\ v = 0 /\ d = wrequest_data r /\ wrequest_fits r.
  Proof.
    clear Hthis Hcoin Hne. intros Hb Hsz. destruct (entry_cases C c v d w known_wrapper Hb Hsz) as [->|(t & f & args & Hin & -> & Ht & Hd & He)]; [left; reflexivity|].
    rewrite exposed_wrapper_ok in Hin. unfold exposed_wrapper in Hin. rewrite He. clear He Hb Hsz. one_of Hin Ht.
    all: match goal with |- context [fn_sig ?f] => let x := eval vm_compute in (fn_sig f) in change (fn_sig f) with x end.
    all: match goal with
      | |- context [calldata "depositFor(address,uint256)" [Word ?a; Word ?r]] => req (DepositFor a r)
      | |- context [calldata "withdrawTo(address,uint256)" [Word ?a; Word ?r]] => req (WithdrawTo a r)
      | |- context [calldata "transfer(address,uint256)" [Word ?a; Word ?v]] => req (OnWrapped (Pay a v))
      | |- context [calldata "approve(address,uint256)" [Word ?a; Word ?v]] => req (OnWrapped (Allow a v))
      | |- context [calldata "transferFrom(address,address,uint256)" [Word ?a; Word ?b; Word ?v]] => req (OnWrapped (Draw a b v))
      | |- _ => left; reflexivity
      end.
  Qed.

  (** *** Histories *)
  Lemma any_chain_call to c v d w : List.Forall is_byte d -> size d < two256 ->
    snd (call to c v d w) = w \/ exists r, to = wrequest_to this coin r /\ v = 0 /\ d = wrequest_data r /\ wrequest_fits r.
  Proof.
    intros Hb Hsz. destruct (Z.eq_dec to this) as [->|N1].
    { rewrite call_this. destruct (any_wrapper_call c v d w Hb Hsz) as [K|(r & K1 & K2)]; [left; exact K|right; exists r; split; [symmetry; exact K1|exact K2]]. }
    destruct (Z.eq_dec to coin) as [->|N2].
    { rewrite call_coin by exact Hne. cbn [snd]. destruct (coin_call c v d (asset_st w) Hb Hsz) as [K|(o & K1 & K2 & K3)];
        [left; rewrite K; apply set_asset_same|right; exists (OnUnderlying o); auto]. }
    left. unfold chain_call. replace (to =? this) with false by lia. replace (to =? coin) with false by lia. reflexivity.
  Qed.
  Lemma does_next w to c data v : does w to c data v ->
    (exists out b', v = Yes (out, b') /\ fine (snd (call to c 0 data w)) b') \/ snd (call to c 0 data w) = w.
  Proof.
    unfold EntryVault_lemmas.does. destruct v as [[out b']|[why|]].
    - intros (w' & -> & F). left. exists out, b'. auto.
    - intros (d & -> & _). right. reflexivity.
    - intros ->. right. reflexivity.
  Qed.
  Lemma run_ind (P : books -> books -> Prop) (Q : Z -> Prop) :
    (forall b, P b b) -> (forall a b c, P a b -> P b c -> P a c) ->
    (forall w b c r out b', fine w b -> is_address c -> Q c -> wrequest_fits r -> ideal c r b = Yes (out, b') -> P b b') ->
    forall h, sane_chain h -> List.Forall (fun y => Q (fst (fst (snd y)))) h -> forall w b, fine w b ->
    exists b', fine (chain_run C this coin h w) b' /\ P b b'.
  Proof.
    intros Pr Pt Ps h. induction h as [|[to [[c v] d]] h IH]; intros Hs Hq w b F; [exists b; auto|].
    inversion Hs as [|? ? (Hb & Hsz & Hc) Hs']; subst. inversion Hq as [|? ? Hqc Hq']; subst. cbn [fst snd] in *.
    change (chain_run C this coin ((to, (c, v, d)) :: h) w) with (chain_run C this coin h (snd (call to c v d w))).
    destruct (any_chain_call to c v d w Hb Hsz) as [->|(r & -> & -> & -> & Hr)]; [apply IH; assumption|].
    destruct (does_next _ _ _ _ _ (request_does w b c r F Hc Hr)) as [(out & b' & Ei & F')|K]; [|rewrite K; apply IH; assumption].
    destruct (IH Hs' Hq' _ b' F') as (b2 & F2 & P2). exists b2. split; [exact F2|]. apply (Pt b b'); [|exact P2]. apply (Ps w b c r out b' F); assumption.
  Qed.
  Lemma run_good h : sane_chain h -> forall w, Good w -> Good (chain_run C this coin h w).
  Proof.
    intros Hs w G. destruct (run_ind (fun _ _ => True) (fun _ => True) (fun _ => I) (fun _ _ _ _ _ => I) (fun _ _ _ _ _ _ _ _ _ _ _ => I) h Hs) with (w := w) (b := books_of w) as (b' & F & _).
    - clear. induction h; constructor; auto.
    - apply books_of_fine, G.
    - exact (fine_good _ _ F).
  Qed.
  (** *** Backing *)
  Definition surplus (b : books) : Z := l_balance (coins b) this - l_supply (shares b).
  Definition quiet (o : Z) (b b' : books) : Prop :=
    nobody (coins b) this -> nobody (shares b) o ->
    nobody (coins b') this /\ nobody (shares b') o /\ surplus b <= surplus b' /\ l_balance (shares b) o <= l_balance (shares b') o.
  Lemma ideal_quiet w b c r out b' o : fine w b -> is_address c -> c <> this /\ c <> o -> wrequest_fits r -> ideal c r b = Yes (out, b') -> quiet o b b'.
  Proof.
    intros F Hc [Hct Hco] Hr E N1 N2.
    destruct r as [a v|a v|ord|ord]; cbn [wrequest_fits] in Hr; unfold wideal in E; apply decide_yes in E; destruct E as [Y [= _ ->]].
    - apply decide_yes_app in Y. destruct Y as [_ Y]. unfold money_in in Y. cbn [decide] in Y. destruct (refused _ _ _); [discriminate|].
      destruct (order_quiet (shares b) c (Issue a v) o N2 Hc Hco Hr Y) as [K1 K2].
      split; [|split; [exact K1|split; [|exact K2]]].
      + intros sp Hsp. unfold after_in. cbn [coins order_effect]. cbn [with_balances l_allowance]. unfold after_spending. cbv zeta.
        destruct (_ =? U256_MAX); [apply N1, Hsp|]. cbn [with_allowance l_allowance]. replace (this =? c) with false by lia. apply N1, Hsp.
      + unfold surplus, after_in in *. cbn [coins shares order_effect with_balances l_balance l_supply] in *.
        unfold moved, at_key. rewrite Z.eqb_refl. replace (this =? c) with false by lia. lia.
    - cbn [decide] in Y. destruct (a =? this) eqn:D; [discriminate|]. unfold money_out in Y. apply decide_yes_app in Y. destruct Y as [Y _].
      destruct (destroy_quiet (shares b) c c v o N2 Hc Hco (proj2 Hr) Y) as [K1 K2].
      split; [exact N1|]. split; [exact K1|]. split; [|exact K2].
      unfold surplus, after_out, after_destroying in *. cbn [coins shares order_effect with_balances l_balance l_supply] in *.
      unfold moved, at_key. rewrite Z.eqb_refl, D. replace (this =? a) with false by lia. lia.
    - cbn [coins shares]. assert (Ho : order_fits ord) by (destruct ord; [exact Hr|exact Hr|exact Hr|destruct Hr]).
      destruct (order_quiet (shares b) c ord o N2 Hc Hco Ho Y) as [K1 K2]. split; [exact N1|]. split; [exact K1|]. split; [|exact K2].
      unfold surplus. cbn [coins shares]. rewrite order_supply by (destruct ord; [exact I..|destruct Hr]). lia.
    - cbn [coins shares]. destruct (order_quiet (coins b) c ord this N1 Hc Hct Hr Y) as [K1 K2]. split; [exact K1|]. split; [exact N2|].
      unfold surplus. cbn [coins shares]. lia.
  Qed.
  Lemma run_quiet o h : sane_chain h -> others_call this h -> others_call o h -> forall w b, fine w b ->
    exists b', fine (chain_run C this coin h w) b' /\ quiet o b b'.
  Proof.
    intros Hs H1 H2. apply (run_ind (quiet o) (fun c => c <> this /\ c <> o)); auto.
    - intros b N1 N2. repeat (split; [assumption|]). split; lia.
    - intros a b c A B N1 N2. destruct (A N1 N2) as (A1 & A2 & A3 & A4). destruct (B A1 A2) as (B1 & B2 & B3 & B4). repeat (split; [assumption|]). split; lia.
    - intros w b c r out b' F Hc Hq Hr E. exact (ideal_quiet w b c r out b' o F Hc Hq Hr E).
    - unfold others_call in *. rewrite List.Forall_forall in *. intros y Hy. split; [apply H1|apply H2]; exact Hy.
  Qed.
  Lemma constants_ok w c :
    entry C c 0 (calldata "underlying()" []) w = (Returned (word coin), w) /\ entry C c 0 (calldata "decimals()" []) w = (Returned (word udec), w).
  Proof.
    change (@nil val) with (map Word []). split.
    - ask constr:(C) known_wrapper "underlying()"%string (@nil Z) "Erc20WrapperExample"%string (fn "underlying" []). rewrite <- one_word. reflexivity.
    - ask constr:(C) known_wrapper "decimals()"%string (@nil Z) "Erc20WrapperExample"%string (fn "decimals" []). rewrite <- one_word. reflexivity.
  Qed.
  Definition same_entry (x y : string * list abi_type) : {x = y} + {x <> y}.
  Proof. repeat decide equality. Defined.
  Lemma wrapper_exposed t f : In (t, f) (exposed (blocks C)) -> In (fn_sig f, arg_types f) wrapper_interface.
  Proof.
    rewrite exposed_wrapper_ok. intros H.
    assert (K : forallb (fun p => if in_dec same_entry (fn_sig (snd p), arg_types (snd p)) wrapper_interface then true else false) exposed_wrapper = true)
      by (vm_compute; reflexivity).
    rewrite forallb_forall in K. specialize (K _ H). cbn [snd] in K. destruct (in_dec _ _ _) as [Hin|]; [exact Hin|discriminate].
  Qed.
  Lemma shows_fine w b : Good w -> books_fit b -> (shows call this coin w b <-> fine w b).
  Proof. exact (shows_ok this coin Hne C wrapper_supply wrapper_balance wrapper_allowance w b). Qed.
End wrapper_example.

Definition two_places (this coin : Z) : Prop := is_address this /\ is_address coin /\ this <> coin.

(** After any history: the getters of both contracts show ledgers; at ledgers they show, every
    request does and answers what the ideal wrapper does; constants stay. *)
Theorem c90_wrapper_is_ideal :
  forall this coin udec h, two_places this coin -> sane_chain h ->
  let C := ExampleWrapper this coin udec in
  let call := chain_call C this coin in
  let w := chain_run C this coin h winit in
  (exists b, books_fit b /\ shows call this coin w b) /\
  (forall b c r, books_fit b -> shows call this coin w b -> is_address c -> wrequest_fits r ->
     follows call this coin w (wrequest_to this coin r) c (wrequest_data r) (wideal this coin c r b)) /\
  shows call this coin winit new_books /\
  (forall c, call this c 0 (calldata "underlying()" []) w = (Returned (word coin), w)) /\
  (forall c, call this c 0 (calldata "decimals()" []) w = (Returned (word udec), w)).
Proof.
  intros this coin udec h (Ht & Hc & Hn) Hh C call w.
  pose proof (run_good this coin udec Ht Hc Hn h Hh winit (fine_good _ _ fine_init)) as G. fold C w in G.
  pose proof (shows_fine this coin udec Hn) as Sh. fold C call in Sh. split; [|split; [|split]].
  - exists (books_of w). pose proof (books_of_fine w G) as F. split; [exact (fine_fits _ _ F)|]. apply Sh; auto. exact (fine_fits _ _ F).
  - intros b c r Fb Sb Hcl Hr. apply Sh in Sb; auto. refine (does_follows this coin Hn C (wrapper_supply this coin udec) (wrapper_balance this coin udec)
      (wrapper_allowance this coin udec) w _ c _ _ (request_does this coin udec Ht Hc Hn w b c r Sb Hcl Hr)).
  - apply Sh; [exact (fine_good _ _ fine_init)|exact (fine_fits _ _ fine_init)|exact fine_init].
  - assert (Ct : forall c v d, call this c v d w = entry C c v d w) by (intros; apply call_this).
    split; intros c; rewrite Ct; apply (constants_ok this coin udec w c).
Qed.
Print Assumptions c90_wrapper_is_ideal.

(** Anything else fails without a reason and without effect, and only requests change anything. *)
Theorem c90_nothing_else :
  forall this coin udec to c v d w, this <> coin -> List.Forall is_byte d -> size d < two256 ->
  let call := chain_call (ExampleWrapper this coin udec) this coin in
  (~ proper_call wrapper_interface v d -> call this c v d w = (Reverted [], w)) /\
  (snd (call to c v d w) <> w -> exists r, to = wrequest_to this coin r /\ v = 0 /\ d = wrequest_data r /\ wrequest_fits r).
Proof.
  intros this coin udec to c v d w Hn Hb Hsz call. split.
  - intros N. unfold call. rewrite call_this.
    destruct (entry_cases (ExampleWrapper this coin udec) c v d w (known_wrapper this coin udec) Hb Hsz)
      as [K|(t & f & args & Hin & Hv & Ht & Hd & _)]; [exact K|]. exfalso. apply N.
    split; [exact Hv|]. exists (fn_sig f), (arg_types f), args.
    split; [apply (wrapper_exposed this coin udec t), Hin|]. split; assumption.
  - intros Hs. destruct (any_chain_call this coin udec Hn to c v d w Hb Hsz) as [K|K]; [contradiction (Hs K)|exact K].
Qed.
Print Assumptions c90_nothing_else.

Lemma fine_same this w b b' : is_address this -> fine w b -> fine w b' ->
  surplus this b = surplus this b' /\
  (forall a, is_address a -> l_balance (shares b) a = l_balance (shares b') a) /\
  (forall o sp, is_address o -> is_address sp -> l_allowance (shares b) o sp = l_allowance (shares b') o sp).
Proof.
  intros Ht [(_ & (A1 & A2 & A3) & _) (_ & (T1 & T2 & T3) & _)] [(_ & (B1 & B2 & B3) & _) (_ & (U1 & U2 & U3) & _)].
  unfold surplus. rewrite (A2 this Ht), (B2 this Ht), T1, U1. split; [reflexivity|].
  split; [intros a Ha; rewrite (T2 a Ha), (U2 a Ha)|intros o sp Ho Hs; rewrite (T3 o sp Ho Hs), (U3 o sp Ho Hs)]; reflexivity.
Qed.
Lemma others_app o h1 h2 : others_call o (h1 ++ h2) <-> others_call o h1 /\ others_call o h2.
Proof. unfold others_call. apply List.Forall_app. Qed.
Lemma run_app {E} (C : contract world E) this coin h1 h2 w : chain_run C this coin (h1 ++ h2) w = chain_run C this coin h2 (chain_run C this coin h1 w).
Proof. unfold chain_run. apply fold_left_app. Qed.

(** As long as nobody calls in the wrapper's own name: every wrapped token is backed, the surplus
    never falls, and a holder who approved nobody and makes no calls loses nothing. *)
Theorem c90_backed :
  forall this coin udec h1 h2, two_places this coin -> sane_chain (h1 ++ h2) -> others_call this (h1 ++ h2) ->
  let C := ExampleWrapper this coin udec in
  let call := chain_call C this coin in
  let w1 := chain_run C this coin h1 winit in
  let w2 := chain_run C this coin (h1 ++ h2) winit in
  forall b1 b2, books_fit b1 -> books_fit b2 -> shows call this coin w1 b1 -> shows call this coin w2 b2 ->
  l_supply (shares b1) <= l_balance (coins b1) this /\
  l_balance (coins b1) this - l_supply (shares b1) <= l_balance (coins b2) this - l_supply (shares b2) /\
  (forall o, is_address o -> others_call o h2 -> (forall sp, is_address sp -> l_allowance (shares b1) o sp = 0) ->
     l_balance (shares b1) o <= l_balance (shares b2) o).
Proof.
  intros this coin udec h1 h2 (Ht & Hc & Hn) Hs Hcl C call w1 w2 b1 b2 Fb1 Fb2 S1 S2.
  apply List.Forall_app in Hs. destruct Hs as [Hs1 Hs2]. apply others_app in Hcl. destruct Hcl as [Hc1 Hc2].
  destruct (run_quiet this coin udec Ht Hc Hn this h1 Hs1 Hc1 Hc1 winit _ fine_init) as (a1 & F1 & Q1). fold C w1 in F1.
  destruct (Q1 (fun _ _ => eq_refl) (fun _ _ => eq_refl)) as (N1 & N2 & P1 & _). change (0 <= surplus this a1) in P1.
  assert (Ew : w2 = chain_run C this coin h2 w1) by apply run_app.
  pose proof (run_good this coin udec Ht Hc Hn h2 Hs2 w1 (fine_good _ _ F1)) as G2. fold C in G2. rewrite <- Ew in G2.
  pose proof (shows_fine this coin udec Hn) as Sh. fold C call in Sh.
  apply (Sh w1 b1 (fine_good _ _ F1) Fb1) in S1. apply (Sh w2 b2 G2 Fb2) in S2.
  destruct (fine_same this w1 a1 b1 Ht F1 S1) as (E1 & E3 & E4).
  assert (Main : forall o, is_address o -> others_call o h2 -> nobody (shares a1) o ->
    surplus this b1 <= surplus this b2 /\ l_balance (shares b1) o <= l_balance (shares b2) o).
  { intros o Ho Hco No.
    destruct (run_quiet this coin udec Ht Hc Hn o h2 Hs2 Hc2 Hco w1 a1 F1) as (a2 & F2 & Q2). fold C in F2. rewrite <- Ew in F2.
    destruct (Q2 N1 No) as (_ & _ & K1 & K2).
    destruct (fine_same this w2 a2 b2 Ht F2 S2) as (D1 & D3 & _).
    rewrite D1, E1 in K1. split; [exact K1|]. rewrite <- (E3 o Ho), <- (D3 o Ho). exact K2. }
  split; [rewrite E1 in P1; unfold surplus in P1; lia|]. split; [apply (Main this Ht Hc2 N2)|]. intros o Ho Hco No.
  apply (Main o Ho Hco). intros sp Hsp. rewrite (E4 o sp Ho Hsp). apply No, Hsp.
Qed.
Print Assumptions c90_backed.

(** The exit is always open: whoever has wrapped tokens can take out as many underlying ones. *)
Theorem c90_exit_is_open :
  forall this coin udec h, two_places this coin -> this <> 0 -> sane_chain h -> others_call this h ->
  let C := ExampleWrapper this coin udec in
  let call := chain_call C this coin in
  let w := chain_run C this coin h winit in
  forall b c a v, books_fit b -> shows call this coin w b ->
  is_address c -> c <> 0 -> is_address a -> a <> 0 -> a <> this -> 0 <= v <= l_balance (shares b) c ->
  exists w', call this c 0 (wrequest_data (WithdrawTo a v)) w = (Returned (word 1), w') /\
    shows call this coin w' (after_out this b c a c v v) /\ books_fit (after_out this b c a c v v).
Proof.
  intros this coin udec h Hp Ht0 Hs Hcl C call w b c a v Fb Sb Hc Hc0 Ha Ha0 Hat Hv.
  destruct (c90_wrapper_is_ideal this coin udec h Hp Hs) as (_ & Fol & _). fold C call w in Fol.
  destruct (c90_backed this coin udec h [] Hp) with (b1 := b) (b2 := b) as (B & _); try (rewrite app_nil_r); try assumption.
  destruct Hp as (Ht & Hco & Hn).
  pose proof (run_good this coin udec Ht Hco Hn h Hs winit (fine_good _ _ fine_init)) as G. fold C w in G.
  pose proof (shows_fine this coin udec Hn w b G Fb) as Sh. fold C call in Sh. pose proof (proj1 Sh Sb) as F.
  assert (Le : l_balance (shares b) c <= l_supply (shares b)).
  { destruct F as [_ (HI & (K1 & K2 & _) & _)]. rewrite K1, (K2 c Hc). apply Erc20_inv.bal_le_supply, HI. }
  assert (Fv : is_u256 v) by (destruct Fb as [_ (_ & K & _)]; specialize (K c); unfold is_u256 in *; lia).
  specialize (Fol b c (WithdrawTo a v) Fb Sb Hc (conj Ha Fv)). cbn [wrequest_to] in Fol.
  assert (E : wideal this coin c (WithdrawTo a v) b = Yes (word 1, after_out this b c a c v v)).
  { unfold wideal, money_out, may_destroy, refused. rewrite Z.eqb_refl. cbn [order_checks app decide]. unfold may_move. cbn [decide].
    replace (a =? this) with false by lia. replace (c =? 0) with false by lia. replace (l_balance (shares b) c <? v) with false by lia.
    replace (this =? 0) with false by lia. replace (a =? 0) with false by lia.
    replace (l_balance (coins b) this <? v) with false by lia. reflexivity. }
  rewrite E in Fol. exact Fol.
Qed.
Print Assumptions c90_exit_is_open.

(** ** Non-vacuity: wrapping, a gift, unwrapping, and a thief *)
Definition wrapper_sends this coin (l : list (Z * wrequest)) : list (Z * (Z * Z * list Z)) :=
  map (fun x => (wrequest_to this coin (snd x), (fst x, 0, wrequest_data (snd x)))) l.
Lemma wrequest_bytes r : List.Forall is_byte (wrequest_data r) /\ size (wrequest_data r) < two256.
Proof.
  destruct r as [a r|a r|o|o]; unfold wrequest_data.
  - apply (data_bytes _ [a; r]). reflexivity.
  - apply (data_bytes _ [a; r]). reflexivity.
  - apply order_bytes.
  - apply order_bytes.
Qed.
Lemma wrapper_sends_sane this coin l : List.Forall (fun x => is_address (fst x)) l -> sane_chain (wrapper_sends this coin l).
Proof.
  intros H. apply List.Forall_map. refine (List.Forall_impl _ _ H). intros [c r] Hc. cbn [fst snd] in *.
  destruct (wrequest_bytes r). repeat split; try assumption; apply Hc.
Qed.
Fixpoint wrapper_play this coin (l : list (Z * wrequest)) (b : books) : option books :=
  match l with
  | [] => Some b
  | (c, r) :: t => match wideal this coin c r b with Yes (_, b') => wrapper_play this coin t b' | No _ => None end
  end.
Lemma wrapper_play_ok this coin udec l : two_places this coin -> List.Forall (fun x => is_address (fst x) /\ wrequest_fits (snd x)) l ->
  forall h b b', sane_chain h -> books_fit b ->
  let C := ExampleWrapper this coin udec in
  let call := chain_call C this coin in
  shows call this coin (chain_run C this coin h winit) b -> wrapper_play this coin l b = Some b' ->
  books_fit b' /\ shows call this coin (chain_run C this coin (h ++ wrapper_sends this coin l) winit) b'.
Proof.
  intros Hp. induction 1 as [|[c r] l [Hc Hr] _ IH]; intros h b b' Hh Fb C call Sb E; cbn [wrapper_play] in E.
  - injection E as <-. change (wrapper_sends this coin []) with (@nil (Z * (Z * Z * list Z))). rewrite app_nil_r. auto.
  - cbn [fst snd] in Hc, Hr. destruct (c90_wrapper_is_ideal this coin udec h Hp Hh) as (_ & F & _).
    specialize (F b c r Fb Sb Hc Hr). destruct (wideal _ _ _ _ _) as [[out b1]|]; [|discriminate].
    destruct F as (s' & E1 & S1 & F1). fold C in E1, S1.
    assert (Er : chain_run C this coin (h ++ wrapper_sends this coin [(c, r)]) winit = s').
    { rewrite run_app. change (snd (chain_call C this coin (wrequest_to this coin r) c 0 (wrequest_data r) (chain_run C this coin h winit)) = s').
      rewrite E1. reflexivity. }
    change (wrapper_sends this coin ((c, r) :: l)) with (wrapper_sends this coin [(c, r)] ++ wrapper_sends this coin l). rewrite app_assoc. apply (IH _ b1).
    + apply List.Forall_app. split; [exact Hh|]. apply wrapper_sends_sane. apply List.Forall_cons; [exact Hc|apply List.Forall_nil].
    + exact F1.
    + fold C call. rewrite Er. exact S1.
    + exact E.
Qed.
Definition wrapper_story : list (Z * wrequest) :=
  [(10, OnUnderlying (Issue 10 1000)); (10, OnUnderlying (Allow 9 500)); (10, DepositFor 20 100);
   (30, OnUnderlying (Issue 9 50)); (20, WithdrawTo 30 40)].
Lemma wrapper_story_plays :
  option_map (fun b => (l_balance (coins b) 9, l_balance (coins b) 30, l_supply (shares b), l_balance (shares b) 20,
     match wideal 9 7 30 (WithdrawTo 30 1) b with No x => Some x | Yes _ => None end,
     match wideal 9 7 10 (DepositFor 10 401) b with No x => Some x | Yes _ => None end,
     match wideal 9 7 20 (WithdrawTo 9 1) b with No x => Some x | Yes _ => None end))
    (wrapper_play 9 7 wrapper_story new_books) =
  Some (110, 40, 60, 60, Some (Some (ERC20InsufficientBalance 30 0 1)), Some (Some (SafeErc20FailedOperation 7)), Some (Some (ERC20InvalidReceiver 9))).
Proof. vm_compute. reflexivity. Qed.
Lemma wrapper_story_fits : List.Forall (fun x => is_address (fst x) /\ wrequest_fits (snd x)) wrapper_story.
Proof.
  repeat (apply List.Forall_cons; [split; [split; [discriminate|reflexivity]|]|]); [..|apply List.Forall_nil]; cbn [snd];
    repeat (split; [split; [discriminate|reflexivity]|]); split; first [discriminate|reflexivity|split; [discriminate|reflexivity]].
Qed.
Lemma option_map_some {A B} (f : A -> B) o v : option_map f o = Some v -> exists b, o = Some b /\ f b = v.
Proof. destruct o as [b|]; [|discriminate]. intros [= E]. exists b. auto. Qed.
Example c90_nonvacuous :
  let C := ExampleWrapper 9 7 18 in
  let call := chain_call C 9 7 in
  let h := wrapper_sends 9 7 wrapper_story in
  let w := chain_run C 9 7 h winit in
  two_places 9 7 /\ sane_chain h /\ others_call 9 h /\
  says call 7 w "balanceOf(address)" [Word 9] 110 /\ says call 7 w "balanceOf(address)" [Word 30] 40 /\
  says call 9 w "totalSupply()" [] 60 /\ says call 9 w "balanceOf(address)" [Word 20] 60 /\
  (exists d, call 9 30 0 (wrequest_data (WithdrawTo 30 1)) w = (Reverted d, w) /\ decode_reason d = Some (ERC20InsufficientBalance 30 0 1)) /\
  (exists d, call 9 10 0 (wrequest_data (DepositFor 10 401)) w = (Reverted d, w) /\ decode_reason d = Some (SafeErc20FailedOperation 7)) /\
  (exists d, call 9 20 0 (wrequest_data (WithdrawTo 9 1)) w = (Reverted d, w) /\ decode_reason d = Some (ERC20InvalidReceiver 9)).
Proof.
  intros C call h w.
  assert (Hp : two_places 9 7) by (split; [split; [discriminate|reflexivity]|split; [split; [discriminate|reflexivity]|discriminate]]).
  assert (Hs : sane_chain h) by (apply wrapper_sends_sane; refine (List.Forall_impl _ _ wrapper_story_fits); intros x K; exact (proj1 K)).
  split; [exact Hp|]. split; [exact Hs|]. split; [repeat (apply List.Forall_cons; [discriminate|]); apply List.Forall_nil|].
  destruct (option_map_some _ _ _ wrapper_story_plays) as (b & E & P). cbv beta in P.
  apply pair_equal_spec in P. destruct P as [P P7]. apply pair_equal_spec in P. destruct P as [P P6].
  apply pair_equal_spec in P. destruct P as [P P5]. apply pair_equal_spec in P. destruct P as [P P4]. apply pair_equal_spec in P. destruct P as [P P3].
  apply pair_equal_spec in P. destruct P as [P1 P2].
  destruct (c90_wrapper_is_ideal 9 7 18 [] Hp (List.Forall_nil _)) as (_ & _ & S0 & _).
  destruct (wrapper_play_ok 9 7 18 wrapper_story Hp wrapper_story_fits [] new_books b (List.Forall_nil _) (fine_fits _ _ fine_init) S0 E) as [Fb Sb].
  change ([] ++ wrapper_sends 9 7 wrapper_story) with h in Sb.
  destruct (c90_wrapper_is_ideal 9 7 18 h Hp Hs) as (_ & F & _).
  assert (A10 : is_address 10) by (split; [discriminate|reflexivity]). assert (A20 : is_address 20) by (split; [discriminate|reflexivity]).
  assert (A30 : is_address 30) by (split; [discriminate|reflexivity]). assert (A9 : is_address 9) by (split; [discriminate|reflexivity]).
  assert (U1 : is_u256 1) by (split; [discriminate|reflexivity]). assert (U2 : is_u256 401) by (split; [discriminate|reflexivity]).
  pose proof (F b 30 (WithdrawTo 30 1) Fb Sb A30 (conj A30 U1)) as F5.
  pose proof (F b 10 (DepositFor 10 401) Fb Sb A10 (conj A10 U2)) as F6.
  pose proof (F b 20 (WithdrawTo 9 1) Fb Sb A20 (conj A9 U1)) as F7.
  destruct (wideal 9 7 30 (WithdrawTo 30 1) b) as [|x5]; [discriminate|]. injection P5 as ->.
  destruct (wideal 9 7 10 (DepositFor 10 401) b) as [|x6]; [discriminate|]. injection P6 as ->.
  destruct (wideal 9 7 20 (WithdrawTo 9 1) b) as [|x7]; [discriminate|]. injection P7 as ->.
  destruct Sb as ((_ & T2 & _) & (T4 & T5 & _)). rewrite P3 in T4. specialize (T5 20 A20). rewrite P4 in T5.
  pose proof (T2 9 A9) as R1. rewrite P1 in R1. pose proof (T2 30 A30) as R2. rewrite P2 in R2.
  exact (conj R1 (conj R2 (conj T4 (conj T5 (conj F5 (conj F6 F7)))))).
Qed.
