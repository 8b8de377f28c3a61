(** C89: bytes in, bytes out for the vault example, with the token it holds. *)
From Verif.Base Require Import Prelude Bytes Keccak Maps.
From Coq Require Import String List.
From Verif.Model Require Import Introspection Router Entry EntryErc20 EntryVault.
From Verif.Model Require SolAbi Erc20 SafeErc20 Erc20World Erc4626 Math.
From Verif.Spec Require Import Router_spec SolAbi_spec LogMeaning_spec Entry_spec Ledger_spec EntryVault_spec.
From Verif.Spec Require Erc4626_spec.
From Verif.Proofs Require Import Router_lemmas Entry_lemmas Ledger_lemmas EntryVault_lemmas.
From Verif.Proofs Require Erc20_inv Erc4626_lemmas.
From Verif.Props Require Import SolAbi_props.
Import SolAbi Erc20World.
#[global] Open Scope Z_scope.
Local Open Scope list_scope.
Local Open Scope Z_scope.
Opaque keccak256.

Section vault_example.
  Context (name symbol : list Z) (this coin offset udec : Z).
  Context (Hthis : is_address this) (Hcoin : is_address coin) (Hne : this <> coin) (Hoff : 0 <= offset < 256).
  Local Notation C := (ExampleVault name symbol this coin offset udec).
  Local Notation x := (bytes_ext this coin).
  Local Notation call := (chain_call C this coin).
  Local Notation R := reason_erc4626.
  Local Notation meets := (meets fine R).
  Local Notation ideal := (ideal this coin offset).
  Local Notation held := (held this). Local Notation issued := (issued offset).

  Lemma known_vault : all_known (blocks C) = true.
  Proof. vm_compute. reflexivity. Qed.
  Definition exposed_vault := Eval vm_compute in exposed Pub.Erc4626Example.
  Lemma exposed_vault_ok : exposed (blocks C) = exposed_vault.
  Proof. vm_compute. reflexivity. Qed.
  Lemma vault_supply c w : entry C c 0 (calldata "totalSupply()" []) w = (Returned (word (Erc20.total_supply (tok w))), w).
  Proof. change (@nil val) with (map Word []). ask constr:(C) known_vault "totalSupply()"%string (@nil Z) "Erc20"%string (fn "total_supply" []). rewrite <- one_word. reflexivity. Qed.
  Lemma vault_balance c w a : is_address a ->
    entry C c 0 (calldata "balanceOf(address)" [Word a]) w = (Returned (word (Erc20.balance_of (tok w) a)), w).
  Proof. clear Hthis Hcoin Hne Hoff. intros H. change [Word a] with (map Word [a]). ask constr:(C) known_vault "balanceOf(address)"%string [a] "Erc20"%string (fn "balance_of" [Address]). rewrite <- one_word. reflexivity. Qed.
  Lemma vault_allowance c w a b : is_address a -> is_address b ->
    entry C c 0 (calldata "allowance(address,address)" [Word a; Word b]) w = (Returned (word (Erc20.allowance (tok w) a b)), w).
  Proof.
    clear Hthis Hcoin Hne Hoff. intros H H'. change [Word a; Word b] with (map Word [a; b]). ask constr:(C) known_vault "allowance(address,address)"%string [a; b] "Erc20"%string (fn "allowance" [Address; Address]).
    rewrite <- one_word. reflexivity.
  Qed.

  (** *** Prices *)
  Lemma virt_pos : 0 < 10 ^ offset.
  Proof. apply Z.pow_pos_nonneg; lia. Qed.
  Lemma fits_pos w b : fine w b -> 0 < held b /\ 0 < issued b.
  Proof.
    intros F. destruct (fine_fits _ _ F) as [(_ & K & _) (K' & _)]. specialize (K this). pose proof virt_pos.
    unfold EntryVault_spec.held, EntryVault_spec.issued, is_u256 in *. lia.
  Qed.
  Lemma total_assets_eq w b : fine w b -> Erc4626.total_assets x coin w = (Ok (l_balance (coins b) this), w).
  Proof. intros F. unfold Erc4626.total_assets. cbn [SafeErc20.self bytes_ext]. rewrite (held_balance this coin Hthis w b F). reflexivity. Qed.
  Definition rounded (r : Math.rounding) : Z -> Z -> Z := match r with Math.Floor => down | Math.Ceil => up end.
  Lemma rounded_ok r n d : 0 < d -> Erc4626_lemmas.rounds r n d (rounded r n d).
  Proof.
    intros Hd. destruct r; [apply Erc4626_lemmas.floor_is, Hd|]. cbn [Erc4626_lemmas.rounds rounded]. unfold Erc4626_spec.is_ceil, up.
    pose proof (Z.div_mod (- n) d ltac:(lia)). pose proof (Z.mod_pos_bound (- n) d Hd). nia.
  Qed.
  Lemma mul_div_eq {E} a m d r : is_u256 a -> 0 <= m < two256 -> 0 < d < two256 ->
    @Math.mul_div E a m d r = if rounded r (a * m) d <? two256 then Ok (rounded r (a * m) d) else Panic.
  Proof.
    intros Ha Hm Hd. pose proof (rounded_ok r (a * m) d ltac:(lia)) as K.
    destruct (@Erc4626_lemmas.mul_div_spec E a m d r Ha Hm Hd) as [(q & Hq & B & ->)|(Hq & ->)].
    - rewrite (Erc4626_lemmas.rounds_unique r (a * m) d _ _ (proj1 Hd) K Hq). replace (q <? two256) with true by lia. reflexivity.
    - specialize (Hq _ K). replace (rounded r (a * m) d <? two256) with false by lia. reflexivity.
  Qed.
  Lemma to_shares_eq w b a r : fine w b -> is_u256 a -> let q := shares_for this offset (rounded r) b a in
    Erc4626._convert_to_shares x coin offset a r w = (if fits_words this offset b q then Ok q else Panic, w).
  Proof.
    intros F Ha q. pose proof virt_pos as V. pose proof F as [_ (_ & (K1 & _) & (F1 & _))]. destruct (fits_pos w b F) as [P1 P2].
    unfold Erc4626._convert_to_shares, Erc4626.virtual_shares, fits_words. mred.
    rewrite <- K1. fold (issued b). unfold is_u256 in F1. unfold EntryVault_spec.issued in *.
    destruct (10 ^ offset <? two256) eqn:E0; cbn [fst snd]; mred;
      [|replace (l_supply (shares b) + 10 ^ offset <? two256) with false by lia; rewrite andb_false_r; reflexivity].
    destruct (l_supply (shares b) + 10 ^ offset <? two256) eqn:E1; cbn [fst snd]; [|rewrite andb_false_r; reflexivity].
    rewrite (total_assets_eq w b F). fold (held b). change (l_balance (coins b) this + 1) with (held b).
    destruct (held b <? two256) eqn:E2; cbn [fst snd andb]; [|reflexivity]. unfold lift_res.
    rewrite mul_div_eq; [|exact Ha|lia|lia]. unfold q, shares_for. fold (issued b). change (l_supply (shares b) + 10 ^ offset) with (issued b).
    reflexivity.
  Qed.
  Lemma to_assets_eq w b s r : fine w b -> is_u256 s -> let q := assets_for this offset (rounded r) b s in
    Erc4626._convert_to_assets x coin offset s r w = (if fits_words this offset b q then Ok q else Panic, w).
  Proof.
    intros F Ha q. pose proof virt_pos as V. pose proof F as [_ (_ & (K1 & _) & (F1 & _))]. destruct (fits_pos w b F) as [P1 P2].
    unfold Erc4626._convert_to_assets, Erc4626.virtual_shares, fits_words. mred. rewrite (total_assets_eq w b F).
    change (l_balance (coins b) this + 1) with (held b). destruct (held b <? two256) eqn:E2; cbn [fst snd andb]; [|reflexivity].
    rewrite <- K1. unfold is_u256 in F1. unfold EntryVault_spec.issued in *.
    destruct (10 ^ offset <? two256) eqn:E0; cbn [fst snd]; mred;
      [|replace (l_supply (shares b) + 10 ^ offset <? two256) with false by lia; reflexivity].
    destruct (l_supply (shares b) + 10 ^ offset <? two256) eqn:E1; cbn [fst snd]; [|reflexivity].
    unfold lift_res. rewrite mul_div_eq; [|exact Ha|lia|lia]. unfold q, assets_for. reflexivity.
  Qed.
  Lemma priced_meets m w b q : fine w b -> m w = (if fits_words this offset b q then Ok q else Panic, w) -> meets m w (priced this offset b q) q b.
  Proof. intros F E. unfold EntryVault_lemmas.meets, priced. cbn [decide]. rewrite E. destruct (fits_words this offset b q); cbn [negb]; eauto. Qed.
  Lemma priced_fits b q : 0 <= q -> decide (priced this offset b q) tt = Yes tt -> is_u256 q.
  Proof.
    intros H. unfold priced, fits_words. cbn [decide]. destruct (negb _) eqn:E; [discriminate|]. intros _. unfold is_u256. lia.
  Qed.
  Lemma amount_pos w b r n : fine w b -> 0 <= n -> 0 <= shares_for this offset (rounded r) b n /\ 0 <= assets_for this offset (rounded r) b n.
  Proof.
    intros F Hn. destruct (fits_pos w b F) as [P1 P2]. unfold shares_for, assets_for.
    split.
    - refine (Erc4626_lemmas.rounds_nonneg r _ _ _ P1 _ (rounded_ok r _ _ P1)). apply Z.mul_nonneg_nonneg; lia.
    - refine (Erc4626_lemmas.rounds_nonneg r _ _ _ P2 _ (rounded_ok r _ _ P2)). apply Z.mul_nonneg_nonneg; lia.
  Qed.

  (** *** Deposits and withdrawals *)
  Lemma log_meets e w b : fine w b -> meets (modify (log_ev e)) w [] tt b.
  Proof. intros F. unfold EntryVault_lemmas.meets. cbn [decide]. eexists. split; [reflexivity|]. exact F. Qed.
  Lemma deposit_meets w b c r a s : fine w b -> is_address c -> is_address r -> is_u256 a -> is_u256 s ->
    meets (Erc4626._deposit x coin c r a s) w (money_in this coin b c r a s) tt (after_in this b c r a s).
  Proof.
    intros F Hc Hr Ha Hs. unfold Erc4626._deposit. cbn [SafeErc20.self bytes_ext].
    unfold money_in, after_in. rewrite <- (app_nil_r (order_checks c (Issue r s) (shares b))).
    apply (meets_bind fine R _ _ w [_] tt _ _ _ _ (pull_meets this coin Hthis R Erc4626.ErrSafeErc20 c a w b eq_refl Hcoin F Hc Ha)).
    intros w1 _ F1.
    refine (meets_bind fine R _ _ w1 _ tt _ _ _ _ (own_order_meets R Erc4626.ErrErc20 w1 _ c (Issue r s) (fun _ => eq_refl) F1 Hc (conj Hr Hs)) _).
    intros w2 _ F2. apply log_meets, F2.
  Qed.
  Lemma withdraw_meets w b c r o a s : fine w b -> is_address c -> is_address r -> is_address o -> is_u256 a -> is_u256 s ->
    meets (Erc4626._withdraw x coin c r o a s) w (money_out this coin b c r o a s) tt (after_out this b c r o a s).
  Proof.
    intros F Hc Hr Ho Ha Hs. unfold Erc4626._withdraw.
    set (b1 := mkBooks (coins b) (if c =? o then shares b else after_spending (shares b) o c s)).
    assert (Same : l_balance (shares b1) = l_balance (shares b) /\ l_supply (shares b1) = l_supply (shares b)).
    { unfold b1. cbn [shares]. destruct (c =? o); [auto|]. unfold after_spending. destruct (_ =? U256_MAX); auto. }
    destruct Same as [S1 S2].
    assert (M1 : meets (if negb (c =? o) then map_err Erc4626.ErrErc20 (on_tok (Erc20._spend_allowance o c s)) else ret tt) w
      (if c =? o then [] else may_spend (shares b) o c s) tt b1).
    { unfold b1. destruct (c =? o); cbn [negb]; [apply meets_ret; destruct b; exact F|].
      apply on_tok_meets; auto. apply spend_meets; auto. apply F. }
    unfold money_out, may_destroy. rewrite <- app_assoc.
    apply (meets_bind fine R _ _ w _ tt b1 _ _ _ M1). intros w1 _ F1.
    assert (M2 : meets (map_err Erc4626.ErrErc20 (on_tok (Erc20._burn o s))) w1
      [(o =? 0, Some (ERC20InvalidSender 0)); (l_balance (shares b) o <? s, Some (ERC20InsufficientBalance o (l_balance (shares b) o) s))] tt
      (mkBooks (coins b) (after_destroying (shares b) c o s))).
    { change (coins b) with (coins b1). apply on_tok_meets; auto. unfold after_destroying. change (if c =? o then _ else _) with (shares b1).
      rewrite <- S1, <- S2. apply burn_meets; auto. apply F1. }
    apply (meets_bind fine R _ _ w1 _ tt _ _ _ _ M2). intros w2 _ F2.
    change [(refused this (Pay r a) (coins b), Some (SafeErc20FailedOperation coin))]
      with ([(refused this (Pay r a) (coins b), Some (SafeErc20FailedOperation coin))] ++ []).
    apply (meets_bind fine R _ _ w2 _ tt _ _ _ _ (push_meets this coin Hthis R Erc4626.ErrSafeErc20 r a w2 _ eq_refl Hcoin F2 Hr Ha)).
    intros w3 _ F3. apply log_meets, F3.
  Qed.
  Lemma number_meets m w l v b : meets m w l v b -> meets (number m) w l [Word v] b.
  Proof.
    intros H. rewrite <- (app_nil_r l). unfold number. apply (meets_bind fine R _ _ w l v b); [exact H|]. intros w' _ F. apply meets_ret, F.
  Qed.
  Lemma then_ret {A} (m : M world Erc4626.error unit) w l b (v : A) : meets m w l tt b -> meets (m ;;; ret v) w l v b.
  Proof. intros H. rewrite <- (app_nil_r l). apply (meets_bind fine R _ _ w l tt b); [exact H|]. intros w' _ F. apply meets_ret, F. Qed.
  Lemma no_limit a e w b : fine w b -> is_u256 a -> meets (fail_if (U256_MAX <? a) e) w [] tt b.
  Proof. intros F Ha. unfold U256_MAX. replace (two256 - 1 <? a) with false by (unfold is_u256 in Ha; lia). apply meets_ret, F. Qed.
  Local Ltac step H := refine (meets_bind fine R _ _ _ _ _ _ _ _ _ H _).
  Lemma op_deposit w b c a r : fine w b -> is_address c -> is_address r -> is_u256 a -> let q := shares_for this offset down b a in
    meets (Erc4626.deposit x coin offset c a r) w (priced this offset b q ++ money_in this coin b c r a q) q (after_in this b c r a q).
  Proof.
    intros F Hc Hr Ha q. unfold Erc4626.deposit, Erc4626.max_deposit. change (priced this offset b q ++ ?l) with ([] ++ priced this offset b q ++ l).
    step (no_limit a (Erc4626.ExceededMaxDeposit r a U256_MAX) w b F Ha). intros w1 _ F1.
    step (priced_meets _ w1 b q F1 (to_shares_eq w1 b a Math.Floor F1 Ha)). intros w2 Y F2.
    apply then_ret, deposit_meets; auto. apply (priced_fits b); [|exact Y]. apply (amount_pos w b Math.Floor a F). apply Ha.
  Qed.
  Lemma op_mint w b c s r : fine w b -> is_address c -> is_address r -> is_u256 s -> let q := assets_for this offset up b s in
    meets (Erc4626.mint x coin offset c s r) w (priced this offset b q ++ money_in this coin b c r q s) q (after_in this b c r q s).
  Proof.
    intros F Hc Hr Ha q. unfold Erc4626.mint, Erc4626.max_mint. change (priced this offset b q ++ ?l) with ([] ++ priced this offset b q ++ l).
    step (no_limit s (Erc4626.ExceededMaxMint r s U256_MAX) w b F Ha). intros w1 _ F1.
    step (priced_meets _ w1 b q F1 (to_assets_eq w1 b s Math.Ceil F1 Ha)). intros w2 Y F2.
    apply then_ret, deposit_meets; auto. apply (priced_fits b); [|exact Y]. apply (amount_pos w b Math.Ceil s F). apply Ha.
  Qed.
  Lemma shares_of w b o : fine w b -> is_address o -> Erc20.balance_of (tok w) o = l_balance (shares b) o /\ is_u256 (l_balance (shares b) o).
  Proof. intros [_ (_ & (_ & K & _) & (_ & F & _))] Ho. split; [symmetry; apply K, Ho|apply F]. Qed.
  Lemma op_withdraw w b c a r o : fine w b -> is_address c -> is_address r -> is_address o -> is_u256 a ->
    let top := assets_for this offset down b (l_balance (shares b) o) in let q := shares_for this offset up b a in
    meets (Erc4626.withdraw x coin offset c a r o) w
      (priced this offset b top ++ [(top <? a, Some (ERC4626ExceededMaxWithdraw o a top))] ++ priced this offset b q ++ money_out this coin b c r o a q)
      q (after_out this b c r o a q).
  Proof.
    intros F Hc Hr Ho Ha top q. unfold Erc4626.withdraw. destruct (shares_of w b o F Ho) as [Eo Fo].
    assert (M0 : meets (Erc4626.max_withdraw x coin offset o) w (priced this offset b top) top b).
    { apply priced_meets; [exact F|]. unfold Erc4626.max_withdraw. mred. rewrite Eo. exact (to_assets_eq w b _ Math.Floor F Fo). }
    step M0. intros w1 Y1 F1.
    assert (Ft : is_u256 top) by (apply (priced_fits b); [apply (amount_pos w b Math.Floor _ F), Fo|exact Y1]).
    assert (M1 : meets (fail_if (top <? a) (Erc4626.ExceededMaxWithdraw o a top)) w1 [(top <? a, Some (ERC4626ExceededMaxWithdraw o a top))] tt b).
    { apply (meets_fail_if fine R (top <? a) (Erc4626.ExceededMaxWithdraw o a top)); [exact F1|]. apply F3; auto using address_fits. }
    step M1. intros w2 _ F2.
    step (priced_meets _ w2 b q F2 (to_shares_eq w2 b a Math.Ceil F2 Ha)). intros w3 Y F3.
    apply then_ret, withdraw_meets; auto. apply (priced_fits b); [|exact Y]. apply (amount_pos w b Math.Ceil a F). apply Ha.
  Qed.
  Lemma op_redeem w b c s r o : fine w b -> is_address c -> is_address r -> is_address o -> is_u256 s ->
    let top := l_balance (shares b) o in let q := assets_for this offset down b s in
    meets (Erc4626.redeem x coin offset c s r o) w
      ([(top <? s, Some (ERC4626ExceededMaxRedeem o s top))] ++ priced this offset b q ++ money_out this coin b c r o q s)
      q (after_out this b c r o q s).
  Proof.
    intros F Hc Hr Ho Ha top q. unfold Erc4626.redeem. destruct (shares_of w b o F Ho) as [Eo Fo]. fold top in Eo, Fo.
    match goal with |- meets (bind (gets ?g) ?k) w ?l ?v ?b' => change (meets (k (g w)) w l v b') end.
    unfold Erc4626.max_redeem. rewrite Eo.
    assert (M1 : meets (fail_if (top <? s) (Erc4626.ExceededMaxRedeem o s top)) w [(top <? s, Some (ERC4626ExceededMaxRedeem o s top))] tt b).
    { apply (meets_fail_if fine R (top <? s) (Erc4626.ExceededMaxRedeem o s top)); [exact F|]. apply F3; auto using address_fits. }
    step M1. intros w2 _ F2.
    step (priced_meets _ w2 b q F2 (to_assets_eq w2 b s Math.Floor F2 Ha)). intros w3 Y F3.
    apply then_ret, withdraw_meets; auto. apply (priced_fits b); [|exact Y]. apply (amount_pos w b Math.Floor s F). apply Ha.
  Qed.

  (** *** What each request does *)
  Local Notation does := (does this coin C).
  Lemma vault_reason e : reason_fits (R e) -> decode_reason (revert_data C e) = Some (R e).
  Proof. exact (revert_erc4626_ok e). Qed.
  Lemma request_does w b c r : fine w b -> is_address c -> request_fits r -> does w (request_to this coin r) c (request_data r) (ideal c r b).
  Proof.
    intros F Hc Hr. destruct r as [a r|s r|a r o|s r o|o|o]; cbn [request_fits request_to] in *; unfold request_data, EntryVault_spec.ideal; cbv zeta.
    - refine (meets_does this coin C R vault_reason _ w c _ _ _ _ _ _ (number_meets _ w _ _ _ (op_deposit w b c a r F Hc (proj2 Hr) (proj1 Hr))) (one_word _)).
      change [Word a; Word r] with (map Word [a; r]). ask constr:(C) known_vault "deposit(uint256,address)"%string [a; r] "Erc4626Example"%string (fn "deposit" [U256; Address]). reflexivity.
    - refine (meets_does this coin C R vault_reason _ w c _ _ _ _ _ _ (number_meets _ w _ _ _ (op_mint w b c s r F Hc (proj2 Hr) (proj1 Hr))) (one_word _)).
      change [Word s; Word r] with (map Word [s; r]). ask constr:(C) known_vault "mint(uint256,address)"%string [s; r] "Erc4626Example"%string (fn "mint" [U256; Address]). reflexivity.
    - destruct Hr as (Ha & Hr & Ho). refine (meets_does this coin C R vault_reason _ w c _ _ _ _ _ _ (number_meets _ w _ _ _ (op_withdraw w b c a r o F Hc Hr Ho Ha)) (one_word _)).
      change [Word a; Word r; Word o] with (map Word [a; r; o]). ask constr:(C) known_vault "withdraw(uint256,address,address)"%string [a; r; o] "Erc4626Example"%string (fn "withdraw" [U256; Address; Address]). reflexivity.
    - destruct Hr as (Ha & Hr & Ho). refine (meets_does this coin C R vault_reason _ w c _ _ _ _ _ _ (number_meets _ w _ _ _ (op_redeem w b c s r o F Hc Hr Ho Ha)) (one_word _)).
      change [Word s; Word r; Word o] with (map Word [s; r; o]). ask constr:(C) known_vault "redeem(uint256,address,address)"%string [s; r; o] "Erc4626Example"%string (fn "redeem" [U256; Address; Address]). reflexivity.
    - assert (Ho : order_fits o) by (destruct o; [exact Hr|exact Hr|exact Hr|destruct Hr]).
      pose proof (own_order_meets R Erc4626.ErrErc20 w b c o (fun _ => eq_refl) F Hc Ho) as M.
      destruct o as [a v|a v|a d v|a v]; [| | |destruct Hr]; unfold order_data; cbn [order_op Erc20.exec order_result order_fits] in *.
      + refine (meets_does this coin C R vault_reason _ w c _ _ _ _ _ _ (flag_meets R _ _ w _ _ (transfer_true c a v (tok w)) M) (one_word _)).
        change [Word a; Word v] with (map Word [a; v]). ask constr:(C) known_vault "transfer(address,uint256)"%string [a; v] "Erc20"%string (fn "transfer" [Address; U256]). reflexivity.
      + refine (meets_does this coin C R vault_reason _ w c _ _ _ _ _ _ (flag_meets R _ _ w _ _ (approve_true c a v (tok w)) M) (one_word _)).
        change [Word a; Word v] with (map Word [a; v]). ask constr:(C) known_vault "approve(address,uint256)"%string [a; v] "Erc20"%string (fn "approve" [Address; U256]). reflexivity.
      + refine (meets_does this coin C R vault_reason _ w c _ _ _ _ _ _ (flag_meets R _ _ w _ _ (transfer_from_true c a d v (tok w)) M) (one_word _)).
        change [Word a; Word d; Word v] with (map Word [a; d; v]). ask constr:(C) known_vault "transferFrom(address,address,uint256)"%string [a; d; v] "Erc20"%string (fn "transfer_from" [Address; Address; U256]). reflexivity.
    - apply coin_does; auto.
  Qed.
  (** A call of the vault changes nothing or is one of the requests, to the letter. *)
  Local Ltac req r := right; exists r; split; [reflexivity|]; split; [reflexivity|]; split; [reflexivity|cbn [request_fits order_fits]; tauto].
  Lemma tx_view {A} (m : M world Erc4626.error A) (g : A -> list val) w :
    snd (m w) = w -> snd (finish C ((v <~ m ;; ret (g v)) w) w) = w.
  Proof. mred. destruct (m w) as [[v|e|] w']; cbn; auto. Qed.
  Lemma total_assets_view w : snd (Erc4626.total_assets x coin w) = w.
  Proof. unfold Erc4626.total_assets. destruct (SafeErc20.balance_of _ _ _ _); reflexivity. Qed.
  Lemma to_shares_view a r w : snd (Erc4626._convert_to_shares x coin offset a r w) = w.
  Proof.
    unfold Erc4626._convert_to_shares, Erc4626.virtual_shares. mred. destruct (10 ^ offset <? two256); mred; [|reflexivity].
    destruct (_ <? two256); cbn [fst snd]; [|reflexivity]. pose proof (total_assets_view w) as K.
    destruct (Erc4626.total_assets x coin w) as [[t|e|] w']; cbn [snd] in K; subst w'; cbn [fst snd]; [|reflexivity..].
    destruct (_ <? two256); cbn [fst snd]; reflexivity.
  Qed.
  Lemma to_assets_view a r w : snd (Erc4626._convert_to_assets x coin offset a r w) = w.
  Proof.
    unfold Erc4626._convert_to_assets, Erc4626.virtual_shares. mred. pose proof (total_assets_view w) as K.
    destruct (Erc4626.total_assets x coin w) as [[t|e|] w']; cbn [snd] in K; subst w'; cbn [fst snd]; [|reflexivity..].
    destruct (_ <? two256); cbn [fst snd]; [|reflexivity]. destruct (10 ^ offset <? two256); mred; [|reflexivity].
    destruct (_ <? two256); cbn [fst snd]; reflexivity.
  Qed.
  Lemma max_withdraw_view o w : snd (Erc4626.max_withdraw x coin offset o w) = w.
  Proof. unfold Erc4626.max_withdraw. mred. apply to_assets_view. Qed.
  Lemma view_shares a r w : snd (finish C (number (Erc4626._convert_to_shares x coin offset a r) w) w) = w.
  Proof. exact (tx_view (Erc4626._convert_to_shares x coin offset a r) (fun v => [Word v]) w (to_shares_view a r w)). Qed.
  Lemma view_assets a r w : snd (finish C (number (Erc4626._convert_to_assets x coin offset a r) w) w) = w.
  Proof. exact (tx_view (Erc4626._convert_to_assets x coin offset a r) (fun v => [Word v]) w (to_assets_view a r w)). Qed.
  Lemma view_decimals w : snd (finish C (match Erc4626.decimals udec offset with Some d => ret [Word d] | None => panic end w) w) = w.
  Proof. destruct (Erc4626.decimals udec offset); reflexivity. Qed.
  Lemma any_vault_call c v d w : List.Forall is_byte d -> size d < two256 ->
    snd (entry C c v d w) = w \/ exists r, request_to this coin r = this /\ v = 0 /\ d = request_data r /\ request_fits r.
  Proof.
    clear Hthis Hcoin Hne Hoff. intros Hb Hsz. destruct (entry_cases C c v d w known_vault Hb Hsz) as [->|(t & f & args & Hin & -> & Ht & Hd & He)]; [left; reflexivity|].
    rewrite exposed_vault_ok in Hin. unfold exposed_vault in Hin. rewrite He. clear He Hb Hsz. one_of Hin Ht.
    all: match goal with |- context [fn_sig ?f] => let x := eval vm_compute in (fn_sig f) in change (fn_sig f) with x end.
    all: match goal with
      | |- context [calldata "deposit(uint256,address)" [Word ?a; Word ?r]] => req (EntryVault_spec.Deposit a r)
      | |- context [calldata "mint(uint256,address)" [Word ?a; Word ?r]] => req (EntryVault_spec.Mint a r)
      | |- context [calldata "withdraw(uint256,address,address)" [Word ?a; Word ?r; Word ?o]] => req (EntryVault_spec.Withdraw a r o)
      | |- context [calldata "redeem(uint256,address,address)" [Word ?a; Word ?r; Word ?o]] => req (Redeem a r o)
      | |- context [calldata "transfer(address,uint256)" [Word ?a; Word ?v]] => req (OnShares (Pay a v))
      | |- context [calldata "approve(address,uint256)" [Word ?a; Word ?v]] => req (OnShares (Allow a v))
      | |- context [calldata "transferFrom(address,address,uint256)" [Word ?a; Word ?b; Word ?v]] => req (OnShares (Draw a b v))
      | |- context [calldata "totalAssets()" _] => left; exact (tx_view (Erc4626.total_assets x coin) (fun v => [Word v]) w (total_assets_view w))
      | |- context [calldata "convertToShares(uint256)" [Word ?a]] => left; exact (view_shares a Math.Floor w)
      | |- context [calldata "previewDeposit(uint256)" [Word ?a]] => left; exact (view_shares a Math.Floor w)
      | |- context [calldata "previewWithdraw(uint256)" [Word ?a]] => left; exact (view_shares a Math.Ceil w)
      | |- context [calldata "convertToAssets(uint256)" [Word ?a]] => left; exact (view_assets a Math.Floor w)
      | |- context [calldata "previewRedeem(uint256)" [Word ?a]] => left; exact (view_assets a Math.Floor w)
      | |- context [calldata "previewMint(uint256)" [Word ?a]] => left; exact (view_assets a Math.Ceil w)
      | |- context [calldata "maxWithdraw(address)" [Word ?a]] => left; exact (tx_view (Erc4626.max_withdraw x coin offset a) (fun v => [Word v]) w (max_withdraw_view a w))
      | |- context [calldata "decimals()" _] => left; exact (view_decimals w)
      | |- _ => left; reflexivity
      end.
  Qed.

  (** *** Histories *)
  Lemma any_chain_call to c v d w : List.Forall is_byte d -> size d < two256 ->
    snd (call to c v d w) = w \/ exists r, to = request_to this coin r /\ v = 0 /\ d = request_data r /\ request_fits r.
  Proof.
    intros Hb Hsz. destruct (Z.eq_dec to this) as [->|N1].
    { rewrite call_this. destruct (any_vault_call c v d w Hb Hsz) as [K|(r & K1 & K2)]; [left; exact K|right; exists r; split; [symmetry; exact K1|exact K2]]. }
    destruct (Z.eq_dec to coin) as [->|N2].
    { rewrite call_coin by exact Hne. cbn [snd]. destruct (coin_call c v d (asset_st w) Hb Hsz) as [K|(o & K1 & K2 & K3)];
        [left; rewrite K; apply set_asset_same|right; exists (OnCoin o); auto]. }
    left. unfold chain_call. replace (to =? this) with false by lia. replace (to =? coin) with false by lia. reflexivity.
  Qed.
  Lemma does_next w to c data v : does w to c data v ->
    (exists out b', v = Yes (out, b') /\ fine (snd (call to c 0 data w)) b') \/ snd (call to c 0 data w) = w.
  Proof.
    unfold EntryVault_lemmas.does. destruct v as [[out b']|[why|]].
    - intros (w' & -> & F). left. exists out, b'. auto.
    - intros (d & -> & _). right. reflexivity.
    - intros ->. right. reflexivity.
  Qed.
  Lemma run_ind (P : books -> books -> Prop) (Q : Z -> Prop) :
    (forall b, P b b) -> (forall a b c, P a b -> P b c -> P a c) ->
    (forall w w' b c r out b', fine w b -> fine w' b' -> is_address c -> Q c -> request_fits r -> ideal c r b = Yes (out, b') -> P b b') ->
    forall h, sane_chain h -> List.Forall (fun y => Q (fst (fst (snd y)))) h -> forall w b, fine w b ->
    exists b', fine (chain_run C this coin h w) b' /\ P b b'.
  Proof.
    intros Pr Pt Ps h. induction h as [|[to [[c v] d]] h IH]; intros Hs Hq w b F; [exists b; auto|].
    inversion Hs as [|? ? (Hb & Hsz & Hc) Hs']; subst. inversion Hq as [|? ? Hqc Hq']; subst. cbn [fst snd] in *.
    change (chain_run C this coin ((to, (c, v, d)) :: h) w) with (chain_run C this coin h (snd (call to c v d w))).
    destruct (any_chain_call to c v d w Hb Hsz) as [->|(r & -> & -> & -> & Hr)]; [apply IH; assumption|].
    destruct (does_next _ _ _ _ _ (request_does w b c r F Hc Hr)) as [(out & b' & Ei & F')|K]; [|rewrite K; apply IH; assumption].
    destruct (IH Hs' Hq' _ b' F') as (b2 & F2 & P2). exists b2. split; [exact F2|]. apply (Pt b b'); [|exact P2]. apply (Ps w _ b c r out b' F F'); assumption.
  Qed.
  Lemma run_good h : sane_chain h -> forall w, Good w -> Good (chain_run C this coin h w).
  Proof.
    intros Hs w G. destruct (run_ind (fun _ _ => True) (fun _ => True) (fun _ => I) (fun _ _ _ _ _ => I) (fun _ _ _ _ _ _ _ _ _ _ _ _ _ => I) h Hs) with (w := w) (b := books_of w) as (b' & F & _).
    - clear. induction h; constructor; auto.
    - apply books_of_fine, G.
    - exact (fine_good _ _ F).
  Qed.
  (** *** The price *)
  Lemma down_le n d : 0 < d -> down n d * d <= n.
  Proof. intros H. pose proof (rounded_ok Math.Floor n d H) as K. cbn in K. unfold Erc4626_spec.is_floor in K. lia. Qed.
  Lemma up_ge n d : 0 < d -> n <= up n d * d.
  Proof. intros H. pose proof (rounded_ok Math.Ceil n d H) as K. cbn [Erc4626_lemmas.rounds rounded] in K. unfold Erc4626_spec.is_ceil in K. lia. Qed.
  Definition dearer (b b' : books) : Prop := held b * issued b' <= held b' * issued b.
  Definition quiet (o : Z) (b b' : books) : Prop :=
    0 < held b /\ 0 < issued b -> nobody (coins b) this -> nobody (shares b) o ->
    nobody (coins b') this /\ nobody (shares b') o /\ dearer b b' /\ l_balance (shares b) o <= l_balance (shares b') o /\
    0 < held b' /\ 0 < issued b'.
  Lemma in_quiet w b c r a s o : fine w b -> is_address c -> c <> this -> c <> o -> is_address r -> is_u256 a -> is_u256 s ->
    s * held b <= a * issued b -> decide (money_in this coin b c r a s) tt = Yes tt -> nobody (coins b) this -> nobody (shares b) o ->
    let b' := after_in this b c r a s in
    nobody (coins b') this /\ nobody (shares b') o /\ dearer b b' /\ l_balance (shares b) o <= l_balance (shares b') o.
  Proof.
    intros F Hc Hct Hco Hr Ha Hs Le Y N1 N2 b'. unfold money_in in Y. cbn [decide] in Y. destruct (refused _ _ _); [discriminate|].
    destruct (order_quiet (shares b) c (Issue r s) o N2 Hc Hco (conj Hr Hs) Y) as [K1 K2].
    split; [|split; [exact K1|split; [|exact K2]]].
    - intros sp Hsp. unfold b', after_in. cbn [coins order_effect]. cbn [with_balances l_allowance]. unfold after_spending. cbv zeta.
      destruct (_ =? U256_MAX); [apply N1, Hsp|]. cbn [with_allowance l_allowance]. replace (this =? c) with false by lia. apply N1, Hsp.
    - unfold dearer, EntryVault_spec.held, EntryVault_spec.issued, b', after_in in *. cbn [coins shares order_effect with_balances l_balance l_supply] in *.
      unfold moved, at_key. rewrite Z.eqb_refl. replace (this =? c) with false by lia. nia.
  Qed.
  Lemma out_quiet w b c r f a s o : fine w b -> is_address c -> c <> this -> c <> o -> is_u256 a -> is_u256 s ->
    a * issued b <= s * held b -> decide (money_out this coin b c r f a s) tt = Yes tt -> nobody (coins b) this -> nobody (shares b) o ->
    let b' := after_out this b c r f a s in
    nobody (coins b') this /\ nobody (shares b') o /\ dearer b b' /\ l_balance (shares b) o <= l_balance (shares b') o.
  Proof.
    intros F Hc Hct Hco Ha Hs Le Y N1 N2 b'. unfold money_out in Y. apply decide_yes_app in Y. destruct Y as [Y _].
    destruct (destroy_quiet (shares b) c f s o N2 Hc Hco Hs Y) as [K1 K2].
    split; [exact N1|]. split; [exact K1|]. split; [|exact K2]. destruct (fits_pos w b F) as [P1 P2].
    unfold dearer, EntryVault_spec.held, EntryVault_spec.issued, b', after_out, after_destroying, is_u256 in *. cbn [coins shares order_effect with_balances l_balance l_supply] in *.
    unfold moved, at_key. rewrite Z.eqb_refl. destruct (this =? r) eqn:D; [replace (r =? this) with true by lia|]; nia.
  Qed.
  Lemma ideal_quiet w b c r out b' o : fine w b -> is_address c -> c <> this /\ c <> o -> request_fits r -> ideal c r b = Yes (out, b') ->
    (0 < held b' /\ 0 < issued b') -> quiet o b b'.
  Proof.
    intros F Hc [Hct Hco] Hr E Pos _ N1 N2. destruct (fits_pos w b F) as [P1 P2].
    assert (Fin : nobody (coins b') this /\ nobody (shares b') o /\ dearer b b' /\ l_balance (shares b) o <= l_balance (shares b') o); [|tauto].
    destruct r as [a r|s r|a r f|s r f|ord|ord]; cbn [request_fits] in Hr; unfold EntryVault_spec.ideal in E; cbv zeta in E.
    - apply decide_yes in E. destruct E as [Y [= _ ->]]. apply decide_yes_app in Y. destruct Y as [Y1 Y2].
      apply (in_quiet w); try tauto; [apply (priced_fits b), Y1|apply down_le, P1]. apply (amount_pos w b Math.Floor a F), Hr.
    - apply decide_yes in E. destruct E as [Y [= _ ->]]. apply decide_yes_app in Y. destruct Y as [Y1 Y2].
      apply (in_quiet w); try tauto; [apply (priced_fits b), Y1|apply up_ge, P2]. apply (amount_pos w b Math.Ceil s F), Hr.
    - apply decide_yes in E. destruct E as [Y [= _ ->]]. apply decide_yes_app in Y. destruct Y as [_ Y]. apply decide_yes_app in Y. destruct Y as [_ Y].
      apply decide_yes_app in Y. destruct Y as [Y1 Y2].
      apply (out_quiet w); try tauto; [apply (priced_fits b), Y1|apply up_ge, P1]. apply (amount_pos w b Math.Ceil a F), Hr.
    - apply decide_yes in E. destruct E as [Y [= _ ->]]. apply decide_yes_app in Y. destruct Y as [_ Y].
      apply decide_yes_app in Y. destruct Y as [Y1 Y2].
      apply (out_quiet w); try tauto; [apply (priced_fits b), Y1|apply down_le, P2]. apply (amount_pos w b Math.Floor s F), Hr.
    - apply decide_yes in E. destruct E as [Y [= _ ->]]. cbn [coins shares].
      assert (Ho : order_fits ord) by (destruct ord; [exact Hr|exact Hr|exact Hr|destruct Hr]).
      destruct (order_quiet (shares b) c ord o N2 Hc Hco Ho Y) as [K1 K2]. split; [exact N1|]. split; [exact K1|]. split; [|exact K2].
      unfold dearer, EntryVault_spec.held, EntryVault_spec.issued. cbn [coins shares]. rewrite order_supply by (destruct ord; [exact I..|destruct Hr]). lia.
    - apply decide_yes in E. destruct E as [Y [= _ ->]]. cbn [coins shares].
      destruct (order_quiet (coins b) c ord this N1 Hc Hct Hr Y) as [K1 K2]. split; [exact K1|]. split; [exact N2|]. split; [|lia].
      unfold dearer, EntryVault_spec.held, EntryVault_spec.issued in *. cbn [coins shares] in *. nia.
  Qed.
  Lemma quiet_trans o a b c : quiet o a b -> quiet o b c -> quiet o a c.
  Proof.
    intros H1 H2 P N1 N2. destruct (H1 P N1 N2) as (A1 & A2 & A3 & A4 & A5 & A6). destruct (H2 (conj A5 A6) A1 A2) as (B1 & B2 & B3 & B4 & B5 & B6).
    repeat (split; [assumption|]). split; [|split; [lia|auto]]. unfold dearer in *. destruct P as [P1 P2].
    apply (Z.mul_le_mono_pos_r _ _ (issued b) A6).
    assert (K1 : held a * issued b * issued c <= held b * issued a * issued c) by (apply Z.mul_le_mono_nonneg_r; lia).
    assert (K2 : held b * issued c * issued a <= held c * issued b * issued a) by (apply Z.mul_le_mono_nonneg_r; lia).
    replace (held a * issued c * issued b) with (held a * issued b * issued c) by ring.
    replace (held c * issued a * issued b) with (held c * issued b * issued a) by ring.
    replace (held b * issued a * issued c) with (held b * issued c * issued a) in K1 by ring. lia.
  Qed.
  Lemma run_quiet o h : sane_chain h -> others_call this h -> others_call o h -> forall w b, fine w b ->
    exists b', fine (chain_run C this coin h w) b' /\ quiet o b b'.
  Proof.
    intros Hs H1 H2. apply (run_ind (quiet o) (fun c => c <> this /\ c <> o)); auto.
    - intros b P N1 N2. repeat (split; [assumption|]). split; [unfold dearer; lia|]. split; [lia|exact P].
    - intros a b c. apply quiet_trans.
    - intros w w' b c r out b' F F' Hc Hq Hr E. apply (ideal_quiet w b c r out b' o F Hc Hq Hr E). exact (fits_pos w' b' F').
    - unfold others_call in *. rewrite List.Forall_forall in *. intros y Hy. split; [apply H1|apply H2]; exact Hy.
  Qed.

  (** *** Questions *)
  Lemma finish_number (m : M world Erc4626.error Z) w (f : bool) q : m w = (if f then Ok q else Panic, w) ->
    finish C (number m w) w = (if f then Returned (word q) else Reverted [], w).
  Proof. intros E. unfold number. mred. rewrite E. destruct f; cbn [finish]; [rewrite one_word|]; reflexivity. Qed.
  Local Notation answer := (ideal_answer this offset).
  Lemma question_ok w b c q : fine w b -> question_fits q -> entry C c 0 (question_data q) w = (answer q b, w).
  Proof.
    intros F Hq. destruct q as [|a|a|a|a|n|n|n|n|n|n]; cbn [question_fits] in Hq; unfold question_data, ideal_answer; cbv zeta;
      try change [Word a] with (map Word [a]); try change [Word n] with (map Word [n]).
    - change (@nil val) with (map Word []). ask constr:(C) known_vault "totalAssets()"%string (@nil Z) "Erc4626Example"%string (fn "total_assets" []).
      exact (finish_number _ w true _ (total_assets_eq w b F)).
    - ask constr:(C) known_vault "maxDeposit(address)"%string [a] "Erc4626Example"%string (fn "max_deposit" [Address]). rewrite <- one_word. reflexivity.
    - ask constr:(C) known_vault "maxMint(address)"%string [a] "Erc4626Example"%string (fn "max_mint" [Address]). rewrite <- one_word. reflexivity.
    - ask constr:(C) known_vault "maxWithdraw(address)"%string [a] "Erc4626Example"%string (fn "max_withdraw" [Address]).
      destruct (shares_of w b a F Hq) as [Eo Fo].
      refine (finish_number (Erc4626.max_withdraw x coin offset a) w _ _ _). unfold Erc4626.max_withdraw. mred. rewrite Eo. exact (to_assets_eq w b _ Math.Floor F Fo).
    - ask constr:(C) known_vault "maxRedeem(address)"%string [a] "Erc4626Example"%string (fn "max_redeem" [Address]).
      destruct (shares_of w b a F Hq) as [Eo _]. rewrite <- Eo, <- one_word. reflexivity.
    - ask constr:(C) known_vault "convertToShares(uint256)"%string [n] "Erc4626Example"%string (fn "convert_to_shares" [U256]).
      exact (finish_number _ w _ _ (to_shares_eq w b n Math.Floor F Hq)).
    - ask constr:(C) known_vault "convertToAssets(uint256)"%string [n] "Erc4626Example"%string (fn "convert_to_assets" [U256]).
      exact (finish_number _ w _ _ (to_assets_eq w b n Math.Floor F Hq)).
    - ask constr:(C) known_vault "previewDeposit(uint256)"%string [n] "Erc4626Example"%string (fn "preview_deposit" [U256]).
      exact (finish_number _ w _ _ (to_shares_eq w b n Math.Floor F Hq)).
    - ask constr:(C) known_vault "previewMint(uint256)"%string [n] "Erc4626Example"%string (fn "preview_mint" [U256]).
      exact (finish_number _ w _ _ (to_assets_eq w b n Math.Ceil F Hq)).
    - ask constr:(C) known_vault "previewWithdraw(uint256)"%string [n] "Erc4626Example"%string (fn "preview_withdraw" [U256]).
      exact (finish_number _ w _ _ (to_shares_eq w b n Math.Ceil F Hq)).
    - ask constr:(C) known_vault "previewRedeem(uint256)"%string [n] "Erc4626Example"%string (fn "preview_redeem" [U256]).
      exact (finish_number _ w _ _ (to_assets_eq w b n Math.Floor F Hq)).
  Qed.
  Lemma constants_ok w c :
    entry C c 0 (calldata "asset()" []) w = (Returned (word coin), w) /\
    entry C c 0 (calldata "name()" []) w = (Returned (abi_params [Octets name]), w) /\
    entry C c 0 (calldata "symbol()" []) w = (Returned (abi_params [Octets symbol]), w) /\
    entry C c 0 (calldata "decimals()" []) w = (if udec + offset <? 256 then Returned (word (udec + offset)) else Reverted [], w).
  Proof.
    change (@nil val) with (map Word []). split; [|split; [|split]].
    - ask constr:(C) known_vault "asset()"%string (@nil Z) "Erc4626Example"%string (fn "asset" []). rewrite <- one_word. reflexivity.
    - ask constr:(C) known_vault "name()"%string (@nil Z) "Erc20Metadata"%string (fn "name" []). reflexivity.
    - ask constr:(C) known_vault "symbol()"%string (@nil Z) "Erc20Metadata"%string (fn "symbol" []). reflexivity.
    - ask constr:(C) known_vault "decimals()"%string (@nil Z) "Erc4626Example"%string (fn "decimals" []).
      change (body_of _ _ _ _ c w) with ((match Erc4626.decimals udec offset with Some d => ret [Word d] | None => panic end : M world Erc4626.error (list val)) w).
      unfold Erc4626.decimals. destruct (udec + offset <? 256); [|reflexivity]. rewrite <- one_word. reflexivity.
  Qed.
  Definition same_entry (x y : string * list abi_type) : {x = y} + {x <> y}.
  Proof. repeat decide equality. Defined.
  Lemma vault_exposed t f : In (t, f) (exposed (blocks C)) -> In (fn_sig f, arg_types f) vault_interface.
  Proof.
    rewrite exposed_vault_ok. intros H.
    assert (K : forallb (fun p => if in_dec same_entry (fn_sig (snd p), arg_types (snd p)) vault_interface then true else false) exposed_vault = true)
      by (vm_compute; reflexivity).
    rewrite forallb_forall in K. specialize (K _ H). cbn [snd] in K. destruct (in_dec _ _ _) as [Hin|]; [exact Hin|discriminate].
  Qed.
  Lemma coin_exposed t f : In (t, f) (exposed (blocks Coin)) -> In (fn_sig f, arg_types f) coin_interface.
  Proof.
    rewrite exposed_coin_ok. intros H.
    assert (K : forallb (fun p => if in_dec same_entry (fn_sig (snd p), arg_types (snd p)) coin_interface then true else false) exposed_coin = true)
      by (vm_compute; reflexivity).
    rewrite forallb_forall in K. specialize (K _ H). cbn [snd] in K. destruct (in_dec _ _ _) as [Hin|]; [exact Hin|discriminate].
  Qed.
  Lemma shows_fine w b : Good w -> books_fit b -> (shows call this coin w b <-> fine w b).
  Proof. exact (shows_ok this coin Hne C vault_supply vault_balance vault_allowance w b). Qed.
End vault_example.

(** A vault on a chain with a token: where they are, and how much the offset is. *)
Definition placed (this coin offset : Z) : Prop := is_address this /\ is_address coin /\ this <> coin /\ 0 <= offset < 256.

Theorem c89_vault_is_ideal :
  forall name symbol this coin offset udec h, placed this coin offset -> sane_chain h ->
  let C := ExampleVault name symbol this coin offset udec in
  let call := chain_call C this coin in
  let w := chain_run C this coin h winit in
  (exists b, books_fit b /\ shows call this coin w b) /\
  (forall b c r, books_fit b -> shows call this coin w b -> is_address c -> request_fits r ->
     follows call this coin w (request_to this coin r) c (request_data r) (ideal this coin offset c r b)) /\
  shows call this coin winit new_books.
Proof.
  intros name symbol this coin offset udec h (Ht & Hc & Hn & Ho) Hh C call w.
  pose proof (run_good name symbol this coin offset udec Ht Hc Hn Ho h Hh winit (fine_good _ _ fine_init)) as G. fold C w in G.
  pose proof (shows_fine name symbol this coin offset udec Hn) as Sh. fold C call in Sh. split; [|split].
  - exists (books_of w). pose proof (books_of_fine w G) as F. split; [exact (fine_fits _ _ F)|]. apply Sh; auto. exact (fine_fits _ _ F).
  - intros b c r Fb Sb Hcl Hr. apply Sh in Sb; auto. refine (does_follows this coin Hn C (vault_supply name symbol this coin offset udec) (vault_balance name symbol this coin offset udec)
      (vault_allowance name symbol this coin offset udec) w _ c _ _ (request_does name symbol this coin offset udec Ht Hc Hn Ho w b c r Sb Hcl Hr)).
  - apply Sh; [exact (fine_good _ _ fine_init)|exact (fine_fits _ _ fine_init)|exact fine_init].
Qed.
Print Assumptions c89_vault_is_ideal.

(** Questions, at books the getters show. *)
Theorem c89_questions :
  forall name symbol this coin offset udec h, placed this coin offset -> sane_chain h ->
  let C := ExampleVault name symbol this coin offset udec in
  let call := chain_call C this coin in
  let w := chain_run C this coin h winit in
  (forall b c q, books_fit b -> shows call this coin w b -> question_fits q ->
     call this c 0 (question_data q) w = (ideal_answer this offset q b, w)) /\
  (forall c, call this c 0 (calldata "asset()" []) w = (Returned (word coin), w)) /\
  (forall c, call this c 0 (calldata "name()" []) w = (Returned (abi_params [Octets name]), w)) /\
  (forall c, call this c 0 (calldata "symbol()" []) w = (Returned (abi_params [Octets symbol]), w)) /\
  (forall c, call this c 0 (calldata "decimals()" []) w =
     (if udec + offset <? 256 then Returned (word (udec + offset)) else Reverted [], w)).
Proof.
  intros name symbol this coin offset udec h (Ht & Hc & Hn & Ho) Hh C call w.
  pose proof (run_good name symbol this coin offset udec Ht Hc Hn Ho h Hh winit (fine_good _ _ fine_init)) as G. fold C w in G.
  assert (Ct : forall c v d, call this c v d w = entry C c v d w) by (intros; apply call_this).
  split.
  - intros b c q Fb Sb Hq. apply (shows_fine name symbol this coin offset udec Hn w b G Fb) in Sb. rewrite Ct. apply question_ok; assumption.
  - pose proof (fun c => constants_ok name symbol this coin offset udec w c) as K. fold C in K.
    split; [|split; [|split]]; intros c; rewrite Ct; apply (K c).
Qed.
Print Assumptions c89_questions.

(** Anything else fails without a reason and without effect, and only requests change anything. *)
Theorem c89_nothing_else :
  forall name symbol this coin offset udec to c v d w, this <> coin -> List.Forall is_byte d -> size d < two256 ->
  let call := chain_call (ExampleVault name symbol this coin offset udec) this coin in
  (~ proper_call vault_interface v d -> call this c v d w = (Reverted [], w)) /\
  (~ proper_call coin_interface v d -> call coin c v d w = (Reverted [], w)) /\
  (snd (call to c v d w) <> w -> exists r, to = request_to this coin r /\ v = 0 /\ d = request_data r /\ request_fits r).
Proof.
  intros name symbol this coin offset udec to c v d w Hn Hb Hsz call. split; [|split].
  - intros N. unfold call. rewrite call_this.
    destruct (entry_cases (ExampleVault name symbol this coin offset udec) c v d w (known_vault name symbol this coin offset udec) Hb Hsz)
      as [K|(t & f & args & Hin & Hv & Ht & Hd & _)]; [exact K|]. exfalso. apply N.
    split; [exact Hv|]. exists (fn_sig f), (arg_types f), args.
    split; [apply (vault_exposed name symbol this coin offset udec t), Hin|]. split; assumption.
  - intros N. unfold call. rewrite call_coin by exact Hn.
    destruct (entry_cases Coin c v d (asset_st w) known_coin Hb Hsz) as [->|(t & f & args & Hin & Hv & Ht & Hd & _)];
      [cbn [fst snd]; rewrite set_asset_same; reflexivity|]. exfalso. apply N.
    split; [exact Hv|]. exists (fn_sig f), (arg_types f), args. split; [apply (coin_exposed t), Hin|]. split; assumption.
  - intros Hs. destruct (any_chain_call name symbol this coin offset udec Hn to c v d w Hb Hsz) as [K|K]; [contradiction (Hs K)|exact K].
Qed.
Print Assumptions c89_nothing_else.

(** ** What depositors can count on *)
Lemma fine_same this offset w b b' : is_address this -> fine w b -> fine w b' ->
  held this b = held this b' /\ issued offset b = issued offset b' /\
  (forall a, is_address a -> l_balance (shares b) a = l_balance (shares b') a) /\
  (forall o sp, is_address o -> is_address sp -> l_allowance (shares b) o sp = l_allowance (shares b') o sp).
Proof.
  intros Ht [(_ & (A1 & A2 & A3) & _) (_ & (T1 & T2 & T3) & _)] [(_ & (B1 & B2 & B3) & _) (_ & (U1 & U2 & U3) & _)].
  unfold held, issued. rewrite (A2 this Ht), (B2 this Ht), T1, U1. split; [reflexivity|]. split; [reflexivity|].
  split; [intros a Ha; rewrite (T2 a Ha), (U2 a Ha)|intros o sp Ho Hs; rewrite (T3 o sp Ho Hs), (U3 o sp Ho Hs)]; reflexivity.
Qed.
Lemma others_app o h1 h2 : others_call o (h1 ++ h2) <-> others_call o h1 /\ others_call o h2.
Proof. unfold others_call. apply List.Forall_app. Qed.
Lemma run_app {E} (C : contract world E) this coin h1 h2 w : chain_run C this coin (h1 ++ h2) w = chain_run C this coin h2 (chain_run C this coin h1 w).
Proof. unfold chain_run. apply fold_left_app. Qed.
Lemma down_mono n d n' d' : 0 < d -> 0 < d' -> n * d' <= n' * d -> down n d <= down n' d'.
Proof.
  intros H H' Le. unfold down. apply Z.div_le_lower_bound; [exact H'|].
  pose proof (Z.mul_div_le n d H) as K. apply (Z.mul_le_mono_pos_r _ _ d H).
  assert (K' : d * (n / d) * d' <= n * d') by (apply Z.mul_le_mono_nonneg_r; lia). lia.
Qed.

(** Between any two moments the price of a share, as everybody can compute it from the getters,
    does not fall; and who has shares, has approved nobody and sleeps, keeps the shares and what
    they are worth, whatever bytes others send to whom. *)
Theorem c89_sleeping_depositor :
  forall name symbol this coin offset udec h1 h2, placed this coin offset ->
  sane_chain (h1 ++ h2) -> others_call this (h1 ++ h2) ->
  let C := ExampleVault name symbol this coin offset udec in
  let call := chain_call C this coin in
  let w1 := chain_run C this coin h1 winit in
  let w2 := chain_run C this coin (h1 ++ h2) winit in
  forall b1 b2, books_fit b1 -> books_fit b2 -> shows call this coin w1 b1 -> shows call this coin w2 b2 ->
  held this b1 * issued offset b2 <= held this b2 * issued offset b1 /\
  (forall o, is_address o -> others_call o h2 -> (forall sp, is_address sp -> l_allowance (shares b1) o sp = 0) ->
     l_balance (shares b1) o <= l_balance (shares b2) o /\
     assets_for this offset down b1 (l_balance (shares b1) o) <= assets_for this offset down b2 (l_balance (shares b2) o)).
Proof.
  intros name symbol this coin offset udec h1 h2 (Ht & Hc & Hn & Hof) Hs Hcl C call w1 w2 b1 b2 Fb1 Fb2 S1 S2.
  apply List.Forall_app in Hs. destruct Hs as [Hs1 Hs2]. apply others_app in Hcl. destruct Hcl as [Hc1 Hc2].
  destruct (run_quiet name symbol this coin offset udec Ht Hc Hn Hof this h1 Hs1 Hc1 Hc1 winit _ fine_init) as (a1 & F1 & Q1). fold C w1 in F1.
  assert (P0 : 0 < held this new_books /\ 0 < issued offset new_books) by exact (fits_pos this offset Hof _ _ fine_init).
  destruct (Q1 P0 (fun _ _ => eq_refl) (fun _ _ => eq_refl)) as (N1 & N2 & _ & _ & P1).
  assert (Ew : w2 = chain_run C this coin h2 w1) by apply run_app.
  pose proof (run_good name symbol this coin offset udec Ht Hc Hn Hof h2 Hs2 w1 (fine_good _ _ F1)) as G2. fold C in G2. rewrite <- Ew in G2.
  pose proof (shows_fine name symbol this coin offset udec Hn) as Sh. fold C call in Sh.
  apply (Sh w1 b1 (fine_good _ _ F1) Fb1) in S1. apply (Sh w2 b2 G2 Fb2) in S2.
  destruct (fine_same this offset w1 a1 b1 Ht F1 S1) as (E1 & E2 & E3 & E4).
  assert (Main : forall o, is_address o -> others_call o h2 -> nobody (shares a1) o ->
    held this b1 * issued offset b2 <= held this b2 * issued offset b1 /\ l_balance (shares b1) o <= l_balance (shares b2) o).
  { intros o Ho Hco No.
    destruct (run_quiet name symbol this coin offset udec Ht Hc Hn Hof o h2 Hs2 Hc2 Hco w1 a1 F1) as (a2 & F2 & Q2). fold C in F2. rewrite <- Ew in F2.
    destruct (Q2 P1 N1 No) as (_ & _ & K1 & K2 & _).
    destruct (fine_same this offset w2 a2 b2 Ht F2 S2) as (D1 & D2 & D3 & _). unfold dearer in K1.
    rewrite D1, D2, E1, E2 in K1. split; [exact K1|]. rewrite <- (E3 o Ho), <- (D3 o Ho). exact K2. }
  split; [apply (Main this Ht Hc2 N2)|]. intros o Ho Hco No.
  assert (No' : nobody (shares a1) o) by (intros sp Hsp; rewrite (E4 o sp Ho Hsp); apply No, Hsp).
  destruct (Main o Ho Hco No') as [K1 K2]. split; [exact K2|]. unfold assets_for.
  destruct (fits_pos this offset Hof w1 b1 S1) as [Q3 Q4]. destruct (fits_pos this offset Hof w2 b2 S2) as [Q5 Q6].
  assert (B0 : 0 <= l_balance (shares b1) o) by (destruct Fb1 as [_ (_ & K & _)]; apply K).
  apply down_mono; [assumption..|].
  set (s1 := l_balance (shares b1) o) in *. set (s2 := l_balance (shares b2) o) in *.
  set (x1 := held this b1) in *. set (x2 := held this b2) in *. set (y1 := issued offset b1) in *. set (y2 := issued offset b2) in *.
  assert (A1 : s1 * (x1 * y2) <= s1 * (x2 * y1)) by (apply Z.mul_le_mono_nonneg_l; lia).
  assert (A2 : s1 * (x2 * y1) <= s2 * (x2 * y1)) by (apply Z.mul_le_mono_nonneg_r; [apply Z.mul_nonneg_nonneg; lia|exact K2]).
  replace (s1 * x1 * y2) with (s1 * (x1 * y2)) by ring. replace (s2 * x2 * y1) with (s2 * (x2 * y1)) by ring. lia.
Qed.
Print Assumptions c89_sleeping_depositor.

(** The exit is always open: whoever has shares gets their worth for them, as long as the totals
    fit a word. *)
Theorem c89_exit_is_open :
  forall name symbol this coin offset udec h, placed this coin offset -> this <> 0 -> sane_chain h ->
  let C := ExampleVault name symbol this coin offset udec in
  let call := chain_call C this coin in
  let w := chain_run C this coin h winit in
  forall b o r s, books_fit b -> shows call this coin w b ->
  held this b < two256 -> issued offset b < two256 ->
  is_address o -> o <> 0 -> is_address r -> r <> 0 -> 0 <= s <= l_balance (shares b) o ->
  let q := assets_for this offset down b s in
  q <= l_balance (coins b) this /\
  exists w', call this o 0 (request_data (Redeem s r o)) w = (Returned (word q), w') /\
    shows call this coin w' (after_out this b o r o q s) /\ books_fit (after_out this b o r o q s).
Proof.
  intros name symbol this coin offset udec h (Ht & Hc & Hn & Hof) Ht0 Hs C call w b o r s Fb Sb Hh Hi Ho Ho0 Hr Hr0 Hsb q.
  destruct (c89_vault_is_ideal name symbol this coin offset udec h (conj Ht (conj Hc (conj Hn Hof))) Hs) as (_ & Fol & _).
  fold C call w in Fol.
  pose proof (run_good name symbol this coin offset udec Ht Hc Hn Hof h Hs winit (fine_good _ _ fine_init)) as G. fold C w in G.
  pose proof (shows_fine name symbol this coin offset udec Hn w b G Fb) as Sh. fold C call in Sh. pose proof (proj1 Sh Sb) as F.
  destruct (fits_pos this offset Hof w b F) as [P1 P2]. pose proof (virt_pos offset Hof) as V.
  assert (Le : l_balance (shares b) o <= l_supply (shares b)).
  { destruct F as [_ (HI & (K1 & K2 & _) & _)]. rewrite K1, (K2 o Ho). apply Erc20_inv.bal_le_supply, HI. }
  assert (Fs : is_u256 s) by (destruct Fb as [_ (_ & K & _)]; specialize (K o); unfold is_u256 in *; lia).
  assert (Hq : 0 <= q <= l_balance (coins b) this).
  { split; [apply (amount_pos this offset Hof w b Math.Floor s F); lia|]. unfold q, assets_for, down.
    apply Z.lt_succ_r. apply Z.div_lt_upper_bound; [exact P2|]. unfold held, issued in *.
    assert (s < l_supply (shares b) + 10 ^ offset) by lia. nia. }
  assert (Hw : fits_words this offset b q = true).
  { assert (q < two256) by (destruct Fb as [(_ & K & _) _]; specialize (K this); unfold is_u256 in K; lia).
    unfold fits_words. rewrite !andb_true_iff, !Z.ltb_lt. auto. }
  split; [apply Hq|]. specialize (Fol b o (Redeem s r o) Fb Sb Ho (conj Fs (conj Hr Ho))). cbn [request_to] in Fol.
  assert (E : ideal this coin offset o (Redeem s r o) b = Yes (word q, after_out this b o r o q s)).
  { unfold ideal. cbv zeta. fold q. unfold money_out, may_destroy, priced, refused. cbn [order_checks may_move]. unfold may_move. rewrite Z.eqb_refl.
    cbn [app decide]. replace (l_balance (shares b) o <? s) with false by lia. rewrite Hw. cbn [negb].
    replace (o =? 0) with false by lia. cbn [decide]. replace (this =? 0) with false by lia. replace (r =? 0) with false by lia.
    replace (l_balance (coins b) this <? q) with false by lia. reflexivity. }
  rewrite E in Fol. exact Fol.
Qed.
Print Assumptions c89_exit_is_open.

(** ** Non-vacuity: a deposit, a gift to the vault, a redemption, and a thief *)
Definition vault_sends this coin (l : list (Z * request)) : list (Z * (Z * Z * list Z)) :=
  map (fun x => (request_to this coin (snd x), (fst x, 0, request_data (snd x)))) l.
Lemma request_bytes r : List.Forall is_byte (request_data r) /\ size (request_data r) < two256.
Proof.
  destruct r as [a r|a r|a r o|a r o|o|o]; unfold request_data.
  - apply (data_bytes _ [a; r]). reflexivity.
  - apply (data_bytes _ [a; r]). reflexivity.
  - apply (data_bytes _ [a; r; o]). reflexivity.
  - apply (data_bytes _ [a; r; o]). reflexivity.
  - apply order_bytes.
  - apply order_bytes.
Qed.
Lemma vault_sends_sane this coin l : List.Forall (fun x => is_address (fst x)) l -> sane_chain (vault_sends this coin l).
Proof.
  intros H. apply List.Forall_map. refine (List.Forall_impl _ _ H). intros [c r] Hc. cbn [fst snd] in *.
  destruct (request_bytes r). repeat split; try assumption; apply Hc.
Qed.
Fixpoint vault_play this coin offset (l : list (Z * request)) (b : books) : option books :=
  match l with
  | [] => Some b
  | (c, r) :: t => match ideal this coin offset c r b with Yes (_, b') => vault_play this coin offset t b' | No _ => None end
  end.
Lemma vault_play_ok name symbol this coin offset udec l : placed this coin offset -> List.Forall (fun x => is_address (fst x) /\ request_fits (snd x)) l ->
  forall h b b', sane_chain h -> books_fit b ->
  let C := ExampleVault name symbol this coin offset udec in
  let call := chain_call C this coin in
  shows call this coin (chain_run C this coin h winit) b -> vault_play this coin offset l b = Some b' ->
  books_fit b' /\ shows call this coin (chain_run C this coin (h ++ vault_sends this coin l) winit) b'.
Proof.
  intros Hp. induction 1 as [|[c r] l [Hc Hr] _ IH]; intros h b b' Hh Fb C call Sb E; cbn [vault_play] in E.
  - injection E as <-. change (vault_sends this coin []) with (@nil (Z * (Z * Z * list Z))). rewrite app_nil_r. auto.
  - cbn [fst snd] in Hc, Hr. destruct (c89_vault_is_ideal name symbol this coin offset udec h Hp Hh) as (_ & F & _).
    specialize (F b c r Fb Sb Hc Hr). destruct (ideal _ _ _ _ _ _) as [[out b1]|]; [|discriminate].
    destruct F as (s' & E1 & S1 & F1). fold C in E1, S1.
    assert (Er : chain_run C this coin (h ++ vault_sends this coin [(c, r)]) winit = s').
    { rewrite run_app. change (snd (chain_call C this coin (request_to this coin r) c 0 (request_data r) (chain_run C this coin h winit)) = s').
      rewrite E1. reflexivity. }
    change (vault_sends this coin ((c, r) :: l)) with (vault_sends this coin [(c, r)] ++ vault_sends this coin l). rewrite app_assoc. apply (IH _ b1).
    + apply List.Forall_app. split; [exact Hh|]. apply vault_sends_sane. apply List.Forall_cons; [exact Hc|apply List.Forall_nil].
    + exact F1.
    + fold C call. rewrite Er. exact S1.
    + exact E.
Qed.
Definition vault_story : list (Z * request) :=
  [(10, OnCoin (Issue 10 1000)); (10, OnCoin (Allow 9 500)); (10, EntryVault_spec.Deposit 100 10);
   (30, OnCoin (Issue 9 50)); (10, Redeem 4000 20 10)].
Lemma vault_story_plays :
  option_map (fun b => (l_balance (coins b) 9, l_balance (coins b) 10, l_balance (coins b) 20, l_supply (shares b), l_balance (shares b) 10,
     match ideal 9 7 2 30 (Redeem 6000 30 10) b with No x => Some x | Yes _ => None end,
     match ideal 9 7 2 10 (Redeem 6001 10 10) b with No x => Some x | Yes _ => None end,
     ideal_answer 9 2 (MaxWithdraw 10) b))
    (vault_play 9 7 2 vault_story new_books) =
  Some (91, 900, 59, 6000, 6000, Some (Some (ERC20InsufficientAllowance 30 0 6000)), Some (Some (ERC4626ExceededMaxRedeem 10 6001 6000)), Returned (word 90)).
Proof. vm_compute. reflexivity. Qed.

Lemma vault_story_fits : List.Forall (fun x => is_address (fst x) /\ request_fits (snd x)) vault_story.
Proof.
  repeat (apply List.Forall_cons; [split; [split; [discriminate|reflexivity]|]|]); [..|apply List.Forall_nil]; cbn [snd];
    repeat (split; [split; [discriminate|reflexivity]|]); split; first [discriminate|reflexivity|split; [discriminate|reflexivity]].
Qed.
Lemma option_map_some {A B} (f : A -> B) o v : option_map f o = Some v -> exists b, o = Some b /\ f b = v.
Proof. destruct o as [b|]; [|discriminate]. intros [= E]. exists b. auto. Qed.
Example c89_nonvacuous :
  let C := ExampleVault [86] [86] 9 7 2 18 in
  let call := chain_call C 9 7 in
  let h := vault_sends 9 7 vault_story in
  let w := chain_run C 9 7 h winit in
  placed 9 7 2 /\ sane_chain h /\ others_call 9 h /\
  says call 7 w "balanceOf(address)" [Word 9] 91 /\ says call 7 w "balanceOf(address)" [Word 10] 900 /\
  says call 7 w "balanceOf(address)" [Word 20] 59 /\ says call 9 w "totalSupply()" [] 6000 /\ says call 9 w "balanceOf(address)" [Word 10] 6000 /\
  (exists d, call 9 30 0 (request_data (Redeem 6000 30 10)) w = (Reverted d, w) /\ decode_reason d = Some (ERC20InsufficientAllowance 30 0 6000)) /\
  (exists d, call 9 10 0 (request_data (Redeem 6001 10 10)) w = (Reverted d, w) /\ decode_reason d = Some (ERC4626ExceededMaxRedeem 10 6001 6000)) /\
  (forall c, call 9 c 0 (question_data (MaxWithdraw 10)) w = (Returned (word 90), w)).
Proof.
  intros C call h w.
  assert (Hp : placed 9 7 2) by (split; [split; [discriminate|reflexivity]|split; [split; [discriminate|reflexivity]|split; [discriminate|split; [discriminate|reflexivity]]]]).
  assert (Hs : sane_chain h) by (apply vault_sends_sane; refine (List.Forall_impl _ _ vault_story_fits); intros x K; exact (proj1 K)).
  split; [exact Hp|]. split; [exact Hs|]. split; [repeat (apply List.Forall_cons; [discriminate|]); apply List.Forall_nil|].
  destruct (option_map_some _ _ _ vault_story_plays) as (b & E & P). cbv beta in P.
  apply pair_equal_spec in P. destruct P as [P P8]. apply pair_equal_spec in P. destruct P as [P P7]. apply pair_equal_spec in P. destruct P as [P P6].
  apply pair_equal_spec in P. destruct P as [P P5]. apply pair_equal_spec in P. destruct P as [P P4]. apply pair_equal_spec in P. destruct P as [P P3].
  apply pair_equal_spec in P. destruct P as [P1 P2].
  assert (S0 := proj2 (proj2 (c89_vault_is_ideal [86] [86] 9 7 2 18 [] Hp (List.Forall_nil _)))).
  destruct (vault_play_ok [86] [86] 9 7 2 18 vault_story Hp vault_story_fits [] new_books b (List.Forall_nil _) (fine_fits _ _ fine_init) S0 E) as [Fb Sb].
  change ([] ++ vault_sends 9 7 vault_story) with h in Sb.
  destruct (c89_vault_is_ideal [86] [86] 9 7 2 18 h Hp Hs) as (_ & F & _).
  destruct (c89_questions [86] [86] 9 7 2 18 h Hp Hs) as (Q & _).
  assert (A10 : is_address 10) by (split; [discriminate|reflexivity]). assert (A20 : is_address 20) by (split; [discriminate|reflexivity]).
  assert (A30 : is_address 30) by (split; [discriminate|reflexivity]). assert (A9 : is_address 9) by (split; [discriminate|reflexivity]).
  assert (U1 : is_u256 6000) by (split; [discriminate|reflexivity]). assert (U2 : is_u256 6001) by (split; [discriminate|reflexivity]).
  pose proof (F b 30 (Redeem 6000 30 10) Fb Sb A30 (conj U1 (conj A30 A10))) as F6.
  pose proof (F b 10 (Redeem 6001 10 10) Fb Sb A10 (conj U2 (conj A10 A10))) as F7.
  pose proof (fun c => Q b c (MaxWithdraw 10) Fb Sb A10) as F8. rewrite P8 in F8.
  destruct (ideal 9 7 2 30 (Redeem 6000 30 10) b) as [|x6]; [discriminate|]. injection P6 as ->.
  destruct (ideal 9 7 2 10 (Redeem 6001 10 10) b) as [|x7]; [discriminate|]. injection P7 as ->.
  destruct Sb as ((_ & T2 & _) & (T4 & T5 & _)). rewrite P4 in T4. specialize (T5 10 A10). rewrite P5 in T5.
  pose proof (T2 9 A9) as R1. rewrite P1 in R1. pose proof (T2 10 A10) as R2. rewrite P2 in R2. pose proof (T2 20 A20) as R3. rewrite P3 in R3.
  exact (conj R1 (conj R2 (conj R3 (conj T4 (conj T5 (conj F6 (conj F7 F8))))))).
Qed.
