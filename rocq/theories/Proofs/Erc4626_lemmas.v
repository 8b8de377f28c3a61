From Verif.Base Require Import Prelude Maps.
From Verif.Model Require Erc20 SafeErc20 Erc20World Erc4626 Math.
From Verif.Spec Require Import Erc20_spec World_spec Erc4626_spec.
From Verif.Proofs Require Import Erc20_inv Erc20_api Erc20_hist World_lemmas.
From stdpp Require Import gmap.
Import SafeErc20 Erc20World Math Erc4626.
#[global] Open Scope Z_scope.

Lemma floor_is n d : 0 < d -> is_floor n d (n / d).
Proof. intros H. unfold is_floor. pose proof (Z.div_mod n d ltac:(lia)). pose proof (Z.mod_pos_bound n d H). nia. Qed.
Lemma ceil_is n d : 0 < d -> is_ceil n d ((n + (d - 1)) / d).
Proof.
  intros H. unfold is_ceil. pose proof (Z.div_mod (n + (d - 1)) d ltac:(lia)).
  pose proof (Z.mod_pos_bound (n + (d - 1)) d H). nia.
Qed.
Lemma floor_unique n d q q' : 0 < d -> is_floor n d q -> is_floor n d q' -> q = q'.
Proof. unfold is_floor. intros. nia. Qed.
Lemma ceil_unique n d q q' : 0 < d -> is_ceil n d q -> is_ceil n d q' -> q = q'.
Proof. unfold is_ceil. intros. nia. Qed.
Lemma floor_mono n n' d q q' : 0 < d -> n <= n' -> is_floor n d q -> is_floor n' d q' -> q <= q'.
Proof. unfold is_floor. intros. nia. Qed.
Lemma ceil_mono n n' d q q' : 0 < d -> n <= n' -> is_ceil n d q -> is_ceil n' d q' -> q <= q'.
Proof. unfold is_ceil. intros. nia. Qed.

Definition rounds (r : rounding) (n d q : Z) : Prop :=
  match r with Floor => is_floor n d q | Ceil => is_ceil n d q end.
Lemma rounds_unique r n d q q' : 0 < d -> rounds r n d q -> rounds r n d q' -> q = q'.
Proof. destruct r; [apply floor_unique|apply ceil_unique]. Qed.
Lemma rounds_mono r n n' d q q' : 0 < d -> n <= n' -> rounds r n d q -> rounds r n' d q' -> q <= q'.
Proof. destruct r; [apply floor_mono|apply ceil_mono]. Qed.
Lemma rounds_nonneg r n d q : 0 < d -> 0 <= n -> rounds r n d q -> 0 <= q.
Proof. destruct r; cbn; unfold is_floor, is_ceil; intros; nia. Qed.

Lemma mul_div_spec {E} a m d r : is_u256 a -> 0 <= m < two256 -> 0 < d < two256 ->
  (exists q, rounds r (a * m) d q /\ 0 <= q < two256 /\ @mul_div E a m d r = Ok q) \/
  ((forall q, rounds r (a * m) d q -> two256 <= q) /\ @mul_div E a m d r = Panic).
Proof.
  intros Ha Hm Hd. unfold mul_div. replace (d =? 0) with false by lia. unfold is_u256 in Ha.
  assert (Hp : 0 <= a * m <= (two256 - 1) * (two256 - 1)).
  { split; [apply Z.mul_nonneg_nonneg; lia|apply Z.mul_le_mono_nonneg; lia]. }
  assert (Hc : (two256 - 1) * (two256 - 1) + (two256 - 1) < two512) by reflexivity.
  replace (two512 <=? a * m) with false by lia.
  destruct r.
  - replace (two512 <=? a * m) with false by lia.
    pose proof (floor_is (a * m) d ltac:(lia)) as HF. set (q := a * m / d) in *.
    assert (0 <= q) by (apply Z.div_pos; lia).
    destruct (Z.ltb_spec U256_MAX q) as [Hq|Hq]; unfold U256_MAX in Hq.
    + right. split; [|reflexivity]. intros q' Hq'. cbn in Hq'. rewrite (floor_unique (a * m) d q' q ltac:(lia) Hq' HF). lia.
    + left. exists q. split; [exact HF|]. split; [lia|reflexivity].
  - replace (two512 <=? a * m + (d - 1)) with false by lia.
    pose proof (ceil_is (a * m) d ltac:(lia)) as HF. set (q := (a * m + (d - 1)) / d) in *.
    assert (0 <= q) by (apply Z.div_pos; lia).
    destruct (Z.ltb_spec U256_MAX q) as [Hq|Hq]; unfold U256_MAX in Hq.
    + right. split; [|reflexivity]. intros q' Hq'. cbn in Hq'. rewrite (ceil_unique (a * m) d q' q ltac:(lia) Hq' HF). lia.
    + left. exists q. split; [exact HF|]. split; [lia|reflexivity].
Qed.

Section vault.
  Context (this asset offset : Z) (Hthis : this <> 0) (Hoff : 0 <= offset < 256).
  Notation x := (honest_ext this asset).
  Notation A1 := (assets1 this).
  Notation S1 := (shares1 offset).
  Notation deposited := (Erc4626_spec.deposited this).
  Notation deposit_pre := (Erc4626_spec.deposit_pre this).
  Notation withdrawn := (Erc4626_spec.withdrawn this).

  Lemma virt_pos : 0 < 10 ^ offset.
  Proof. apply Z.pow_pos_nonneg; lia. Qed.

  Record VInv (w : world) : Prop := {
    vi_a : Inv (asset_st w);
    vi_t : Inv (tok w);
    vi_n : approves_nobody (asset_st w) this
  }.
  Definition T_ok (w : world) : Prop := is_u256 (asset_bal w this) /\ is_u256 (share_supply w).

  Lemma vinv_ok w : VInv w -> T_ok w.
  Proof.
    intros [HA HT _]. split; [apply bal_u256, HA|]. unfold share_supply, Erc20.total_supply.
    split; [apply (supply_nonneg _ HT)|apply (inv_max _ HT)].
  Qed.
  Lemma balance_of_honest' w : T_ok w -> SafeErc20.balance_of x asset this w = Some (asset_bal w this).
  Proof.
    intros [H _]. unfold SafeErc20.balance_of. cbn [raw_call honest_ext]. rewrite Z.eqb_refl. cbn [honest_call].
    rewrite Bytes.word_length. cbn [Nat.ltb Nat.leb]. rewrite firstn_word, of_be_word by exact H. reflexivity.
  Qed.

  Lemma to_shares_eq a r w : T_ok w ->
    _convert_to_shares x asset offset a r w =
    (if (A1 w <? two256) && (S1 w <? two256) then mul_div a (S1 w) (A1 w) r else Panic, w).
  Proof.
    intros Hok. pose proof virt_pos. pose proof Hok as [H1 H2]. unfold _convert_to_shares, virtual_shares, total_assets, bind, gets, cadd, ret, panic, lift_res, assets1, shares1, share_supply in *.
    unfold is_u256 in *. cbn [self honest_ext].
    destruct (Z.ltb_spec (10 ^ offset) two256).
    - destruct (Z.ltb_spec (Erc20.total_supply (tok w) + 10 ^ offset) two256); [|rewrite andb_false_r; reflexivity].
      rewrite (balance_of_honest' w Hok). rewrite andb_true_r. destruct (_ <? two256); reflexivity.
    - replace (Erc20.total_supply (tok w) + 10 ^ offset <? two256) with false by lia. rewrite andb_false_r. reflexivity.
  Qed.
  Lemma to_assets_eq s r w : T_ok w ->
    _convert_to_assets x asset offset s r w =
    (if (A1 w <? two256) && (S1 w <? two256) then mul_div s (A1 w) (S1 w) r else Panic, w).
  Proof.
    intros Hok. pose proof virt_pos. pose proof Hok as [H1 H2]. unfold _convert_to_assets, virtual_shares, total_assets, bind, gets, cadd, ret, panic, lift_res, assets1, shares1, share_supply in *.
    unfold is_u256 in *. cbn [self honest_ext]. rewrite (balance_of_honest' w Hok).
    destruct (Z.ltb_spec (asset_bal w this + 1) two256); [|reflexivity]. cbn [andb].
    destruct (Z.ltb_spec (10 ^ offset) two256).
    - destruct (Z.ltb_spec (Erc20.total_supply (tok w) + 10 ^ offset) two256); reflexivity.
    - replace (Erc20.total_supply (tok w) + 10 ^ offset <? two256) with false by lia. reflexivity.
  Qed.

  Lemma ok_pos w : T_ok w -> 0 < A1 w /\ 0 < S1 w.
  Proof. intros [H1 H2]. pose proof virt_pos. unfold assets1, shares1, is_u256 in *. lia. Qed.

  (** The two conversions, completely. *)
  Lemma to_shares_cases a r w : T_ok w -> is_u256 a ->
    (exists q, in_range this offset w /\ rounds r (a * S1 w) (A1 w) q /\ 0 <= q < two256 /\
       _convert_to_shares x asset offset a r w = (Ok q, w)) \/
    ((forall q, in_range this offset w -> rounds r (a * S1 w) (A1 w) q -> two256 <= q) /\
       _convert_to_shares x asset offset a r w = (Panic, w)).
  Proof.
    intros Hok Ha. rewrite (to_shares_eq a r w Hok). pose proof (ok_pos w Hok) as [P1 P2]. unfold in_range.
    destruct (Z.ltb_spec (A1 w) two256); cbn [andb]; [|right; split; [lia|reflexivity]].
    destruct (Z.ltb_spec (S1 w) two256); cbn [andb]; [|right; split; [lia|reflexivity]].
    destruct (@mul_div_spec error a (S1 w) (A1 w) r Ha ltac:(lia) ltac:(lia)) as [(q & R & B & E)|(R & E)]; rewrite E.
    - left. exists q. auto.
    - right. split; [intros q _; apply R|reflexivity].
  Qed.
  Lemma to_assets_cases s r w : T_ok w -> is_u256 s ->
    (exists q, in_range this offset w /\ rounds r (s * A1 w) (S1 w) q /\ 0 <= q < two256 /\
       _convert_to_assets x asset offset s r w = (Ok q, w)) \/
    ((forall q, in_range this offset w -> rounds r (s * A1 w) (S1 w) q -> two256 <= q) /\
       _convert_to_assets x asset offset s r w = (Panic, w)).
  Proof.
    intros Hok Ha. rewrite (to_assets_eq s r w Hok). pose proof (ok_pos w Hok) as [P1 P2]. unfold in_range.
    destruct (Z.ltb_spec (A1 w) two256); cbn [andb]; [|right; split; [lia|reflexivity]].
    destruct (Z.ltb_spec (S1 w) two256); cbn [andb]; [|right; split; [lia|reflexivity]].
    destruct (@mul_div_spec error s (A1 w) (S1 w) r Ha ltac:(lia) ltac:(lia)) as [(q & R & B & E)|(R & E)]; rewrite E.
    - left. exists q. auto.
    - right. split; [intros q _; apply R|reflexivity].
  Qed.

  (** ** Moving assets and shares *)



  Lemma deposit__cases cl r a s w : VInv w -> cl <> this -> is_u256 a -> is_u256 s ->
    (deposit_pre w cl r a s /\ exists w', _deposit x asset cl r a s w = (Ok tt, w') /\ VInv w' /\ deposited w w' cl r a s) \/
    (~ deposit_pre w cl r a s /\ is_ok (fst (_deposit x asset cl r a s w)) = false).
  Proof.
    intros HW Hcl Ha Hs. destruct HW as [HA HT HN]. unfold _deposit, bind, map_err, Erc4626_spec.deposit_pre. cbn [self honest_ext].
    destruct (safe_transfer_from_honest this asset cl a w HA Ha) as
      [(_ & B1 & B2 & B3 & u' & E & HI' & Hm & Hal & Hoa)|(Hno & E)]; rewrite E.
    2: { right. split; [intros (P1 & _ & P2 & P3 & _); apply Hno; tauto|reflexivity]. }
    unfold on_tok, zoom. cbn [tok set_asset].
    destruct (mint_spec (tok w) r s HT Hs) as (M1 & M2 & M3). pose proof (inv_mint r s (tok w) HT Hs) as HT'.
    destruct (Erc20._mint r s (tok w)) as [q t'] eqn:EM. cbn [snd fst] in *.
    destruct q as [[]|e|].
    - left. destruct (proj1 M1 eq_refl) as [P1 P2]. split; [unfold share_supply; tauto|].
      eexists. split; [reflexivity|]. destruct (M2 t' eq_refl) as (Q1 & Q2 & Q3 & Q4 & Q5). split.
      + split; cbn; [exact HI'|exact HT'|]. intros sp. rewrite Hoa; [apply HN|congruence].
      + unfold Erc4626_spec.deposited; cbn. split; [exact Hm|]. split; [exact Hal|]. split; [exact Hoa|]. split.
        { intros b. unfold share_bal, delta; cbn. destruct (Z.eqb_spec b r) as [->|Hne]; [exact Q1|rewrite Q2 by exact Hne; lia]. }
        split; [exact Q3|]. split; [exact Q4|]. split; [exact Q5|reflexivity].
    - right. split; [|reflexivity]. intros (_ & P1 & _ & _ & P2). apply proj2 in M1. discriminate M1. split; assumption.
    - right. split; [|reflexivity]. intros (_ & P1 & _ & _ & P2). apply proj2 in M1. discriminate M1. split; assumption.
  Qed.


  Definition withdraw_pre (w : world) (cl r o a s : Z) : Prop :=
    r <> 0 /\ o <> 0 /\ s <= share_bal w o /\ a <= asset_bal w this /\
    (cl = o \/ cl <> 0 /\ can_take (tok w) o cl s).

  Lemma withdraw__cases cl r o a s w : VInv w -> is_u256 a -> is_u256 s ->
    (withdraw_pre w cl r o a s /\ exists w', _withdraw x asset cl r o a s w = (Ok tt, w') /\ VInv w' /\ withdrawn w w' cl r o a s) \/
    (~ withdraw_pre w cl r o a s /\ is_ok (fst (_withdraw x asset cl r o a s w)) = false).
  Proof.
    intros HW Ha Hs. destruct HW as [HA HT HN].
    set (sp := map_err ErrErc20 (on_tok (if negb (cl =? o) then Erc20._spend_allowance o cl s else ret tt)) : M world error unit).
    assert (Eq : _withdraw x asset cl r o a s w =
      (sp ;;; map_err ErrErc20 (on_tok (Erc20._burn o s)) ;;;
       map_err ErrSafeErc20 (safe_transfer x asset r a) ;;; modify (log_ev (Withdraw cl r o a s))) w).
    { unfold _withdraw, sp. destruct (negb (cl =? o)); [reflexivity|]. unfold bind, map_err, on_tok, zoom, ret. destruct w; reflexivity. }
    rewrite Eq. clear Eq.
    (* first step *)
    assert (HS : (~ (o = 0 /\ cl <> o) -> ~ (cl = o \/ cl <> 0 /\ can_take (tok w) o cl s)) /\
                 (exists e, fst (sp w) = Err e) \/
                 (cl = o \/ o <> 0 /\ cl <> 0 /\ can_take (tok w) o cl s) /\ exists t1, sp w = (Ok tt, set_tok t1 w) /\ Inv t1 /\
                   same_balances (tok w) t1 /\ Erc20.total_supply t1 = Erc20.total_supply (tok w) /\
                   Erc20.log t1 = Erc20.log (tok w) /\
                   Erc20.allowance t1 o cl = (if cl =? o then Erc20.allowance (tok w) o cl else allowance_after (tok w) o cl s) /\
                   other_allowances_same (tok w) t1 o cl).
    { unfold sp, map_err, on_tok, zoom. destruct (Z.eqb_spec cl o) as [->|Hne]; cbn [negb].
      - right. split; [left; reflexivity|]. exists (tok w). split; [reflexivity|]. split; [exact HT|].
        split; [intros ?; reflexivity|]. split; [reflexivity|]. split; [reflexivity|]. split; [reflexivity|].
        intros ? ? _; reflexivity.
      - destruct (spend_spec o cl s (tok w) HT Hs) as
          [(P1 & P2 & Hm & E)|[(P1 & P2 & Hm & Hle & E)|(Hbad & e & E & _)]]; rewrite E.
        + right. split; [right; unfold can_take; tauto|]. exists (tok w). split; [reflexivity|]. split; [exact HT|].
          split; [intros ?; reflexivity|]. split; [reflexivity|]. split; [reflexivity|].
          unfold allowance_after. rewrite Hm, Z.eqb_refl. split; [reflexivity|]. intros ? ? _; reflexivity.
        + right. split; [right; unfold can_take; tauto|]. eexists. split; [reflexivity|].
          split. { pose proof (inv_spend o cl s (tok w) HT Hs) as Q. rewrite E in Q. exact Q. }
          split; [intros ?; reflexivity|]. split; [reflexivity|]. split; [reflexivity|].
          unfold allowance_after. replace (Erc20.allowance (tok w) o cl =? U256_MAX) with false by lia. split.
          * rewrite allowance_set. destruct (decide _) as [_|Hn]; [reflexivity|tauto].
          * intros o' sp' Hno. rewrite allowance_set. destruct (decide _) as [[E1 E2]|_]; [exfalso; apply Hno; rewrite E1, E2; reflexivity|reflexivity].
        + left. split; [|eexists; reflexivity]. intros Ho. unfold can_take. intros [?|[? ?]]; [contradiction|].
          destruct Hbad as [?|[?|[? ?]]]; [tauto|contradiction|lia]. }
    unfold withdraw_pre.
    destruct HS as [(Hno & e & E)|(Hyes & t1 & E & HI1 & Sb & Ss & Sl & Sa & So)].
    { right. split; [|unfold bind; destruct (sp w) as [q w1]; cbn [fst] in E; subst q; reflexivity].
      intros (_ & P2 & _ & _ & P3). apply Hno in P3; [exact P3|tauto]. }
    unfold bind. rewrite E. unfold map_err, on_tok, zoom. cbn [tok set_tok].
    destruct (burn_spec t1 o s HI1 Hs) as (M1 & M2 & M3). pose proof (inv_burn_ o s t1 HI1 Hs) as HT'.
    destruct (Erc20._burn o s t1) as [q t2] eqn:EB. cbn [fst snd] in *.
    assert (Hq : q = Ok tt \/ q <> Ok tt) by (destruct q as [[]|?|]; [left; reflexivity|right; discriminate|right; discriminate]).
    destruct Hq as [->|Hq].
    2: { right. split; [|destruct q as [[]|?|]; [congruence|reflexivity|reflexivity]].
         intros (_ & P1 & P2 & _). apply Hq, M1. split; [exact P1|]. rewrite Sb. exact P2. }
    destruct (proj1 M1 eq_refl) as [Ho0 Hle]. destruct (M2 t2 eq_refl) as (Q1 & Q2 & Q3 & Q4 & Q5). rewrite Sb in Hle.
    match goal with |- context [safe_transfer x asset r a ?W] => set (w2 := W) end.
    destruct (safe_transfer_honest this asset r a w2 HA Ha) as
      [(_ & B1 & B2 & u' & E2 & HI' & Hm & Hal)|(Hno & E2)]; rewrite E2; cbn [w2 asset_st set_tok] in *.
    - left. split; [unfold share_bal, asset_bal; tauto|]. eexists. split; [reflexivity|]. split.
      + split; cbn; [exact HI'|exact HT'|]. intros sp'. rewrite Hal. apply HN.
      + unfold Erc4626_spec.withdrawn; cbn. split; [exact Hm|]. split; [exact Hal|]. split.
        { intros b. unfold share_bal, delta; cbn. destruct (Z.eqb_spec b o) as [->|Hne]; [rewrite Q1, Sb; lia|rewrite Q2, Sb by exact Hne; lia]. }
        split; [unfold share_supply; cbn; lia|]. split; [rewrite Q4; exact Sa|]. split; [intros o' sp' Hne; rewrite Q4; apply So, Hne|].
        split; [rewrite Q5, Sl; reflexivity|reflexivity].
    - right. split; [|reflexivity]. intros (P1 & _ & _ & P4 & _). apply Hno. tauto.
  Qed.

  (** ** The four operations *)

  (** Redeemable assets never exceed what is there. *)
  Lemma redeem_covered w s a : T_ok w -> 0 <= s <= share_supply w -> is_floor (s * A1 w) (S1 w) a -> a <= asset_bal w this.
  Proof.
    intros Hok Hs [H1 H2]. pose proof virt_pos as Hv. pose proof (ok_pos w Hok) as [P1 P2].
    assert (s * A1 w < S1 w * A1 w). { apply Z.mul_lt_mono_pos_r; [exact P1|]. unfold shares1 in *. lia. }
    assert (a < A1 w). { apply (Z.mul_lt_mono_pos_r (S1 w)); [exact P2|]. lia. }
    unfold assets1 in *. lia.
  Qed.
  Lemma shares_le_supply w o : VInv w -> 0 <= share_bal w o <= share_supply w.
  Proof. intros HW. split; [apply (bal_nonneg _ (vi_t _ HW))|apply (bal_le_supply _ (vi_t _ HW))]. Qed.

  Lemma vinv_init : VInv winit.
  Proof. split; [apply inv_init|apply inv_init|]. intros sp; reflexivity. Qed.

  Lemma delta_self b v : delta b b v = v.
  Proof. unfold delta. rewrite Z.eqb_refl. reflexivity. Qed.

  Lemma deposited_rate w w' cl r a s : deposited w w' cl r a s -> cl <> this -> A1 w' = A1 w + a /\ S1 w' = S1 w + s.
  Proof.
    intros ([Hm _] & _ & _ & _ & Hs & _) Hc. unfold assets1, shares1, asset_bal. rewrite Hs, (Hm this Hthis).
    rewrite delta_self. unfold delta. replace (this =? cl) with false by lia. lia.
  Qed.
  Lemma withdrawn_rate w w' cl r o a s : withdrawn w w' cl r o a s ->
    A1 w' = A1 w - (if r =? this then 0 else a) /\ S1 w' = S1 w - s.
  Proof.
    intros ([Hm _] & _ & _ & Hs & _). unfold assets1, shares1, asset_bal. rewrite Hs, (Hm this Hthis).
    rewrite delta_self. unfold delta. destruct (Z.eqb_spec r this), (Z.eqb_spec this r); lia.
  Qed.

  Lemma is_ok_dec {E A} (r : res E A) : (exists a, r = Ok a) \/ is_ok r = false.
  Proof. destruct r; eauto. Qed.

  Lemma deposit_cases cl a r w : VInv w -> cl <> this -> is_u256 a ->
    (exists s w', in_range this offset w /\ is_floor (a * S1 w) (A1 w) s /\ is_u256 s /\ deposit_pre w cl r a s /\
       deposit x asset offset cl a r w = (Ok s, w') /\ VInv w' /\ deposited w w' cl r a s) \/
    ((forall s, in_range this offset w -> is_floor (a * S1 w) (A1 w) s -> is_u256 s -> ~ deposit_pre w cl r a s) /\
     is_ok (fst (deposit x asset offset cl a r w)) = false).
  Proof.
    intros HW Hcl Ha. pose proof (vinv_ok w HW) as Hok. pose proof (ok_pos w Hok) as [P1 P2].
    unfold deposit, bind, fail_if, max_deposit, preview_deposit.
    unfold is_u256 in Ha. replace (U256_MAX <? a) with false by (unfold U256_MAX; lia).
    destruct (to_shares_cases a Floor w Hok Ha) as [(s & Hr & R & B & E)|(R & E)]; rewrite E.
    2: { right. split; [|reflexivity]. intros s Hr F [_ U]. specialize (R s Hr F). lia. }
    destruct (deposit__cases cl r a s w HW Hcl Ha B) as [(P & w' & E2 & HW' & D)|(P & E2)].
    - rewrite E2. left. exists s, w'. repeat (split; [assumption|]). split; [reflexivity|]. split; assumption.
    - right. split.
      + intros s' _ F _. rewrite (floor_unique _ _ _ _ P1 F R). exact P.
      + destruct (_deposit x asset cl r a s w) as [[[]|e|] w']; [discriminate|reflexivity|reflexivity].
  Qed.
  Lemma mint_cases cl s r w : VInv w -> cl <> this -> is_u256 s ->
    (exists a w', in_range this offset w /\ is_ceil (s * A1 w) (S1 w) a /\ is_u256 a /\ deposit_pre w cl r a s /\
       mint x asset offset cl s r w = (Ok a, w') /\ VInv w' /\ deposited w w' cl r a s) \/
    ((forall a, in_range this offset w -> is_ceil (s * A1 w) (S1 w) a -> is_u256 a -> ~ deposit_pre w cl r a s) /\
     is_ok (fst (mint x asset offset cl s r w)) = false).
  Proof.
    intros HW Hcl Ha. pose proof (vinv_ok w HW) as Hok. pose proof (ok_pos w Hok) as [P1 P2].
    unfold mint, bind, fail_if, max_mint, preview_mint.
    unfold is_u256 in Ha. replace (U256_MAX <? s) with false by (unfold U256_MAX; lia).
    destruct (to_assets_cases s Ceil w Hok Ha) as [(a & Hr & R & B & E)|(R & E)]; rewrite E.
    2: { right. split; [|reflexivity]. intros a Hr F [_ U]. specialize (R a Hr F). lia. }
    destruct (deposit__cases cl r a s w HW Hcl B Ha) as [(P & w' & E2 & HW' & D)|(P & E2)].
    - rewrite E2. left. exists a, w'. repeat (split; [assumption|]). split; [reflexivity|]. split; assumption.
    - right. split.
      + intros a' _ F _. rewrite (ceil_unique _ _ _ _ P2 F R). exact P.
      + destruct (_deposit x asset cl r a s w) as [[[]|e|] w']; [discriminate|reflexivity|reflexivity].
  Qed.


  Lemma redeem_cases cl s r o w : VInv w -> is_u256 s ->
    (exists a w', in_range this offset w /\ s <= share_bal w o /\ is_floor (s * A1 w) (S1 w) a /\ is_u256 a /\
       exit_pre w cl r o s /\
       redeem x asset offset cl s r o w = (Ok a, w') /\ VInv w' /\ withdrawn w w' cl r o a s) \/
    (~ (in_range this offset w /\ s <= share_bal w o /\ exit_pre w cl r o s) /\
     is_ok (fst (redeem x asset offset cl s r o w)) = false /\
     (share_bal w o < s -> redeem x asset offset cl s r o w = (Err (ExceededMaxRedeem o s (share_bal w o)), w))).
  Proof.
    intros HW Hs. pose proof (vinv_ok w HW) as Hok. pose proof (ok_pos w Hok) as [P1 P2].
    pose proof (shares_le_supply w o HW) as Hsup.
    unfold redeem, bind, gets, fail_if, max_redeem, preview_redeem. fold (share_bal w o).
    destruct (Z.ltb_spec (share_bal w o) s) as [Hlt|Hle].
    { right. split; [lia|]. split; [reflexivity|]. intros _. reflexivity. }
    destruct (to_assets_cases s Floor w Hok Hs) as [(a & Hr & R & B & E)|(R & E)]; rewrite E.
    2: { right. split; [|split; [reflexivity|lia]]. intros (Hr & _ & _).
         pose proof (floor_is (s * A1 w) (S1 w) P2) as F. specialize (R _ Hr F).
         pose proof (redeem_covered w s _ Hok ltac:(unfold is_u256 in Hs; lia) F). destruct Hr as [Hr _]. unfold assets1 in *. lia. }
    pose proof (redeem_covered w s a Hok ltac:(unfold is_u256 in Hs; lia) R) as Hcov.
    destruct (withdraw__cases cl r o a s w HW B Hs) as [(P & w' & E2 & HW' & D)|(P & E2)].
    - rewrite E2. left. exists a, w'. destruct P as (Q1 & Q2 & _ & _ & Q3). unfold exit_pre.
      repeat (split; [first [assumption | repeat split; assumption]|]). assumption.
    - right. split; [|split; [destruct (_withdraw x asset cl r o a s w) as [[[]|e|] w']; [discriminate|reflexivity|reflexivity]|lia]].
      intros (_ & _ & Q1 & Q2 & Q3). apply P. unfold withdraw_pre. tauto.
  Qed.

  Lemma withdraw_max w o a m s : VInv w -> is_floor (share_bal w o * A1 w) (S1 w) m -> 0 <= a <= m ->
    is_ceil (a * S1 w) (A1 w) s -> s <= share_bal w o.
  Proof.
    intros HW [F1 F2] Ha [C1 C2]. pose proof (vinv_ok w HW) as Hok. pose proof (ok_pos w Hok) as [P1 P2].
    assert (a * S1 w <= m * S1 w) by (apply Z.mul_le_mono_nonneg_r; lia).
    assert ((s - 1) * A1 w < share_bal w o * A1 w) by lia.
    assert (s - 1 < share_bal w o); [|lia]. apply (Z.mul_lt_mono_pos_r (A1 w)); lia.
  Qed.

  Lemma withdraw_cases cl a r o w : VInv w -> is_u256 a ->
    (exists m s w', in_range this offset w /\ is_floor (share_bal w o * A1 w) (S1 w) m /\ a <= m /\
       is_ceil (a * S1 w) (A1 w) s /\ is_u256 s /\ exit_pre w cl r o s /\
       withdraw x asset offset cl a r o w = (Ok s, w') /\ VInv w' /\ withdrawn w w' cl r o a s) \/
    ((forall m s, in_range this offset w -> is_floor (share_bal w o * A1 w) (S1 w) m -> a <= m ->
        is_ceil (a * S1 w) (A1 w) s -> ~ exit_pre w cl r o s) /\
     is_ok (fst (withdraw x asset offset cl a r o w)) = false /\
     (forall m, in_range this offset w -> is_floor (share_bal w o * A1 w) (S1 w) m -> m < a ->
        withdraw x asset offset cl a r o w = (Err (ExceededMaxWithdraw o a m), w))).
  Proof.
    intros HW Ha. pose proof (vinv_ok w HW) as Hok. pose proof (ok_pos w Hok) as [P1 P2].
    pose proof (shares_le_supply w o HW) as Hsup.
    assert (Hb : is_u256 (share_bal w o)) by (apply bal_u256, HW).
    unfold withdraw, max_withdraw, bind, gets, fail_if, preview_withdraw. fold (share_bal w o).
    destruct (to_assets_cases (share_bal w o) Floor w Hok Hb) as [(m & Hr & R & B & E)|(R & E)]; rewrite E.
    2: { assert (Hn : forall m, in_range this offset w -> is_floor (share_bal w o * A1 w) (S1 w) m -> False).
         { intros m Hr F. specialize (R _ Hr F).
           pose proof (redeem_covered w _ m Hok Hsup F). destruct Hr as [Hr _]. unfold assets1 in *. lia. }
         right. split; [intros m s Hr F; exfalso; eauto|]. split; [reflexivity|]. intros m Hr F; exfalso; eauto. }
    destruct (Z.ltb_spec m a) as [Hlt|Hle].
    { right. split; [|split; [reflexivity|]].
      - intros m' s _ F Hle. rewrite (floor_unique _ _ _ _ P2 F R) in Hle. lia.
      - intros m' _ F _. rewrite (floor_unique _ _ _ _ P2 F R). reflexivity. }
    pose proof (redeem_covered w _ m Hok Hsup R) as Hcov.
    destruct (to_shares_cases a Ceil w Hok Ha) as [(s & _ & R2 & B2 & E2)|(R2 & E2)]; rewrite E2.
    2: { exfalso. pose proof (ceil_is (a * S1 w) (A1 w) P1) as C. specialize (R2 _ Hr C).
         pose proof (withdraw_max w o a m _ HW R ltac:(unfold is_u256 in Ha; lia) C). unfold is_u256 in Hb. lia. }
    pose proof (withdraw_max w o a m s HW R ltac:(unfold is_u256 in Ha; lia) R2) as Hsb.
    destruct (withdraw__cases cl r o a s w HW Ha B2) as [(P & w' & E3 & HW' & D)|(P & E3)].
    - rewrite E3. left. exists m, s, w'. destruct P as (Q1 & Q2 & _ & _ & Q3). unfold exit_pre.
      repeat (split; [first [assumption | repeat split; assumption]|]). assumption.
    - right. split; [|split; [destruct (_withdraw x asset cl r o a s w) as [[[]|e|] w']; [discriminate|reflexivity|reflexivity]|]].
      + intros m' s' _ _ _ C (Q1 & Q2 & Q3). rewrite (ceil_unique _ _ _ _ P1 C R2) in Q3. apply P. unfold withdraw_pre.
        repeat split; try assumption. lia.
      + intros m' _ F Hlt. rewrite (floor_unique _ _ _ _ P2 F R) in Hlt. lia.
  Qed.

  (** ** One step of a history *)
  Definition rate_le (w w' : world) : Prop := A1 w * S1 w' <= A1 w' * S1 w.

  Lemma step_ok w c : VInv w -> call_wf this c ->
    VInv (step x asset offset w c) /\ rate_le w (step x asset offset w c).
  Proof.
    intros HW Hc. pose proof HW as [HA HT HN]. pose proof (vinv_ok w HW) as Hok. pose proof (ok_pos w Hok) as [P1 P2].
    assert (Hsame : VInv w /\ rate_le w w) by (split; [exact HW|unfold rate_le; lia]).
    unfold step. destruct c as [cl a r|cl s r|cl a r o|cl s r o|cl op|cl op]; cbn [call_wf] in Hc; cbn [exec].
    - destruct Hc as [Hc Ha]. unfold tx, Erc20.ignore, bind.
      destruct (deposit_cases cl a r w HW Hc Ha) as [(s & w' & _ & F & _ & _ & E & HW' & D)|(_ & E)].
      + rewrite E. cbn. split; [exact HW'|]. destruct (deposited_rate _ _ _ _ _ _ D Hc) as [-> ->] || (unfold rate_le; destruct (deposited_rate _ _ _ _ _ _ D Hc) as [-> ->]).
        destruct F. nia.
      + destruct (deposit x asset offset cl a r w) as [[v|e|] w']; [discriminate|exact Hsame|exact Hsame].
    - destruct Hc as [Hc Ha]. unfold tx, Erc20.ignore, bind.
      destruct (mint_cases cl s r w HW Hc Ha) as [(a & w' & _ & F & _ & _ & E & HW' & D)|(_ & E)].
      + rewrite E. cbn. split; [exact HW'|]. unfold rate_le. destruct (deposited_rate _ _ _ _ _ _ D Hc) as [-> ->]. destruct F. nia.
      + destruct (mint x asset offset cl s r w) as [[v|e|] w']; [discriminate|exact Hsame|exact Hsame].
    - destruct Hc as [Hc Ha]. unfold tx, Erc20.ignore, bind.
      destruct (withdraw_cases cl a r o w HW Ha) as [(m & s & w' & _ & _ & _ & F & Hs & _ & E & HW' & D)|(_ & E & _)].
      + rewrite E. cbn. split; [exact HW'|]. unfold rate_le. destruct (withdrawn_rate _ _ _ _ _ _ _ D) as [-> ->].
        destruct F. unfold is_u256 in *. destruct (r =? this); nia.
      + destruct (withdraw x asset offset cl a r o w) as [[v|e|] w']; [discriminate|exact Hsame|exact Hsame].
    - destruct Hc as [Hc Hs]. unfold tx, Erc20.ignore, bind.
      destruct (redeem_cases cl s r o w HW Hs) as [(a & w' & _ & _ & F & Ha & _ & E & HW' & D)|(_ & E & _)].
      + rewrite E. cbn. split; [exact HW'|]. unfold rate_le. destruct (withdrawn_rate _ _ _ _ _ _ _ D) as [-> ->].
        destruct F. unfold is_u256 in *. destruct (r =? this); nia.
      + destruct (redeem x asset offset cl s r o w) as [[v|e|] w']; [discriminate|exact Hsame|exact Hsame].
    - destruct Hc as [Hw Hp].
      assert (E : snd (tx (map_err ErrErc20 (on_tok (Erc20.exec cl op))) w) = set_tok (Erc20.step (tok w) (cl, op)) w).
      { unfold Erc20.step, tx, map_err, on_tok, zoom. cbn [fst snd]. destruct w as [u t ev]; cbn.
        destruct (Erc20.exec cl op t) as [[[]|e|] t']; reflexivity. }
      rewrite E. pose proof (inv_step (tok w) (cl, op) HT Hw) as HT'. split; [split; cbn; assumption|].
      pose proof (public_supply_le (tok w) cl op HT Hw Hp). unfold rate_le.
      change (A1 (set_tok (Erc20.step (tok w) (cl, op)) w)) with (A1 w).
      apply Z.mul_le_mono_nonneg_l; [lia|]. unfold shares1, share_supply. cbn. lia.
    - destruct Hc as (Hs & Hw & Ho).
      assert (E : snd (tx (map_err ErrErc20 (on_asset (Erc20.exec cl op))) w) = set_asset (Erc20.step (asset_st w) (cl, op)) w).
      { unfold Erc20.step, tx, map_err, on_asset, zoom. cbn [fst snd]. destruct w as [u t ev]; cbn.
        destruct (Erc20.exec cl op u) as [[[]|e|] u']; reflexivity. }
      rewrite E. destruct (third_party_step this (asset_st w) cl op HA HN Hthis Hs Hw Ho) as (I1 & I2 & I3).
      split; [split; cbn; assumption|]. unfold rate_le.
      change (S1 (set_asset (Erc20.step (asset_st w) (cl, op)) w)) with (S1 w).
      apply Z.mul_le_mono_nonneg_r; [lia|]. unfold assets1, asset_bal. cbn. lia.
  Qed.

  Lemma rate_trans w1 w2 w3 : VInv w2 -> VInv w1 -> VInv w3 -> rate_le w1 w2 -> rate_le w2 w3 -> rate_le w1 w3.
  Proof.
    intros H2 H1 H3 L1 L2. unfold rate_le in *.
    pose proof (ok_pos _ (vinv_ok _ H1)) as [A11 S11]. pose proof (ok_pos _ (vinv_ok _ H2)) as [A21 S21].
    pose proof (ok_pos _ (vinv_ok _ H3)) as [A31 S31].
    apply (Z.mul_le_mono_pos_r _ _ (S1 w2) S21).
    assert (A1 w1 * S1 w2 * S1 w3 <= A1 w2 * S1 w1 * S1 w3) by (apply Z.mul_le_mono_nonneg_r; lia).
    assert (A1 w2 * S1 w3 * S1 w1 <= A1 w3 * S1 w2 * S1 w1) by (apply Z.mul_le_mono_nonneg_r; lia).
    lia.
  Qed.

  Lemma run_ok h w : Forall (call_wf this) h -> VInv w ->
    VInv (run x asset offset h w) /\ rate_le w (run x asset offset h w).
  Proof.
    intros Hh. revert w. induction Hh as [|c h Hc Hh IH]; intros w HW; [split; [exact HW|unfold rate_le; cbn; lia]|].
    destruct (step_ok w c HW Hc) as [H1 L1]. destruct (IH _ H1) as [H2 L2]. split; [exact H2|].
    eapply rate_trans; [exact H1|exact HW|exact H2|exact L1|exact L2].
  Qed.

  Lemma reachable_vinv w : reachable this asset offset w -> VInv w.
  Proof. intros (h & Hh & ->). apply run_ok; [exact Hh|apply vinv_init]. Qed.
End vault.
