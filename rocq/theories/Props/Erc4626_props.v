(** C11-C16: the ERC-4626 vault over an honest ERC-20 asset. *)
From Verif.Base Require Import Prelude Maps.
From Verif.Model Require Erc20 SafeErc20 Erc20World Erc4626 Math.
From Verif.Spec Require Import Erc20_spec World_spec Erc4626_spec.
From Verif.Proofs Require Import Erc20_inv Erc20_api Erc20_hist World_lemmas Erc4626_lemmas.
From stdpp Require Import gmap.
Import SafeErc20 Erc20World Math Erc4626.
#[global] Open Scope Z_scope.

Section vault.
  Context (this asset offset : Z) (Hthis : this <> 0) (Hoff : 0 <= offset < 256).
  Notation x := (honest_ext this asset).
  Notation A1 := (assets1 this).
  Notation S1 := (shares1 offset).
  Notation reachable := (Erc4626_spec.reachable this asset offset).
  Notation in_range := (in_range this offset).

  (** ** C11: previews are exactly rounded *)

  Lemma cases_iff (m : M world error Z) w (r : rounding) n d :
    0 < d ->
    ((exists q, in_range w /\ rounds r n d q /\ 0 <= q < two256 /\ m w = (Ok q, w)) \/
     ((forall q, in_range w -> rounds r n d q -> two256 <= q) /\ m w = (Panic, w))) ->
    snd (m w) = w /\
    (forall q, fst (m w) = Ok q <-> in_range w /\ rounds r n d q /\ q < two256) /\
    (fst (m w) = Panic <-> ~ exists q, in_range w /\ rounds r n d q /\ q < two256) /\
    (forall e, fst (m w) <> Err e).
  Proof.
    intros Hd [(q & Hr & R & B & E)|(R & E)]; rewrite E; cbn [fst snd]; split; [reflexivity| |reflexivity|].
    - split; [|split; [|discriminate]].
      + intros q'. split.
        * intros H. injection H as <-. split; [exact Hr|]. split; [exact R|lia].
        * intros (_ & R' & _). rewrite (rounds_unique r n d q' q Hd R' R). reflexivity.
      + split; [discriminate|]. intros H. exfalso. apply H. exists q. split; [exact Hr|]. split; [exact R|lia].
    - split; [|split; [|discriminate]].
      + intros q'. split; [discriminate|]. intros (Hr & R' & B). specialize (R _ Hr R'). lia.
      + split; [|reflexivity]. intros _ (q & Hr & R' & B). specialize (R _ Hr R'). lia.
  Qed.

  (** Complete behaviour of a view: it changes nothing, returns [q] exactly when [q] is the
      (unique) correctly rounded quotient and everything fits, and panics otherwise. *)
  Definition view_of (m : M world error Z) (w : world) (ok : Z -> Prop) : Prop :=
    snd (m w) = w /\
    (forall q, fst (m w) = Ok q <-> in_range w /\ ok q /\ q < two256) /\
    (fst (m w) = Panic <-> ~ exists q, in_range w /\ ok q /\ q < two256) /\
    (forall e, fst (m w) <> Err e).

  Theorem c11_preview_deposit_floor : forall w a, is_u256 (asset_bal w this) -> is_u256 (share_supply w) -> is_u256 a ->
    view_of (preview_deposit x asset offset a) w (is_floor (a * S1 w) (A1 w)).
  Proof. intros w a H1 H2 Ha. apply (cases_iff _ w Floor); [apply (ok_pos this offset Hoff w (conj H1 H2))|]. apply to_shares_cases; [exact Hoff|exact (conj H1 H2)|exact Ha]. Qed.
  Theorem c11_preview_mint_ceil : forall w s, is_u256 (asset_bal w this) -> is_u256 (share_supply w) -> is_u256 s ->
    view_of (preview_mint x asset offset s) w (is_ceil (s * A1 w) (S1 w)).
  Proof. intros w a H1 H2 Ha. apply (cases_iff _ w Ceil); [apply (ok_pos this offset Hoff w (conj H1 H2))|]. apply to_assets_cases; [exact Hoff|exact (conj H1 H2)|exact Ha]. Qed.
  Theorem c11_preview_withdraw_ceil : forall w a, is_u256 (asset_bal w this) -> is_u256 (share_supply w) -> is_u256 a ->
    view_of (preview_withdraw x asset offset a) w (is_ceil (a * S1 w) (A1 w)).
  Proof. intros w a H1 H2 Ha. apply (cases_iff _ w Ceil); [apply (ok_pos this offset Hoff w (conj H1 H2))|]. apply to_shares_cases; [exact Hoff|exact (conj H1 H2)|exact Ha]. Qed.
  Theorem c11_preview_redeem_floor : forall w s, is_u256 (asset_bal w this) -> is_u256 (share_supply w) -> is_u256 s ->
    view_of (preview_redeem x asset offset s) w (is_floor (s * A1 w) (S1 w)).
  Proof. intros w a H1 H2 Ha. apply (cases_iff _ w Floor); [apply (ok_pos this offset Hoff w (conj H1 H2))|]. apply to_assets_cases; [exact Hoff|exact (conj H1 H2)|exact Ha]. Qed.
  (** convert_to_* are the floor conversions as well; a rounded quotient always exists and is
      unique, so the characterisations above determine each view. *)
  Theorem c11_converts_floor : forall w a, is_u256 (asset_bal w this) -> is_u256 (share_supply w) -> is_u256 a ->
    view_of (convert_to_shares x asset offset a) w (is_floor (a * S1 w) (A1 w)) /\
    view_of (convert_to_assets x asset offset a) w (is_floor (a * A1 w) (S1 w)).
  Proof. intros. split; [apply c11_preview_deposit_floor|apply c11_preview_redeem_floor]; assumption. Qed.
  Theorem c11_quotients_exist_uniquely : forall n d, 0 < d ->
    (exists q, is_floor n d q /\ forall q', is_floor n d q' -> q' = q) /\
    (exists q, is_ceil n d q /\ forall q', is_ceil n d q' -> q' = q).
  Proof.
    intros n d Hd. split.
    - exists (n / d). split; [apply floor_is, Hd|]. intros q' H. exact (floor_unique n d q' _ Hd H (floor_is n d Hd)).
    - exists ((n + (d - 1)) / d). split; [apply ceil_is, Hd|]. intros q' H. exact (ceil_unique n d q' _ Hd H (ceil_is n d Hd)).
  Qed.
  Theorem c11_monotone : forall w a a' q q', is_u256 (asset_bal w this) -> is_u256 (share_supply w) ->
    is_u256 a -> is_u256 a' -> a <= a' ->
    (fst (preview_deposit x asset offset a w) = Ok q -> fst (preview_deposit x asset offset a' w) = Ok q' -> q <= q') /\
    (fst (preview_mint x asset offset a w) = Ok q -> fst (preview_mint x asset offset a' w) = Ok q' -> q <= q') /\
    (fst (preview_withdraw x asset offset a w) = Ok q -> fst (preview_withdraw x asset offset a' w) = Ok q' -> q <= q') /\
    (fst (preview_redeem x asset offset a w) = Ok q -> fst (preview_redeem x asset offset a' w) = Ok q' -> q <= q').
  Proof.
    intros w a a' q q' H1 H2 Ha Ha' Hle. pose proof (ok_pos this offset Hoff w (conj H1 H2)) as [P1 P2].
    assert (L1 : a * S1 w <= a' * S1 w) by (apply Z.mul_le_mono_nonneg_r; lia).
    assert (L2 : a * A1 w <= a' * A1 w) by (apply Z.mul_le_mono_nonneg_r; lia).
    split; [|split; [|split]]; intros E E'.
    - apply (c11_preview_deposit_floor w a H1 H2 Ha) in E. apply (c11_preview_deposit_floor w a' H1 H2 Ha') in E'.
      exact (floor_mono _ _ _ _ _ P1 L1 (proj1 (proj2 E)) (proj1 (proj2 E'))).
    - apply (c11_preview_mint_ceil w a H1 H2 Ha) in E. apply (c11_preview_mint_ceil w a' H1 H2 Ha') in E'.
      exact (ceil_mono _ _ _ _ _ P2 L2 (proj1 (proj2 E)) (proj1 (proj2 E'))).
    - apply (c11_preview_withdraw_ceil w a H1 H2 Ha) in E. apply (c11_preview_withdraw_ceil w a' H1 H2 Ha') in E'.
      exact (ceil_mono _ _ _ _ _ P1 L1 (proj1 (proj2 E)) (proj1 (proj2 E'))).
    - apply (c11_preview_redeem_floor w a H1 H2 Ha) in E. apply (c11_preview_redeem_floor w a' H1 H2 Ha') in E'.
      exact (floor_mono _ _ _ _ _ P2 L2 (proj1 (proj2 E)) (proj1 (proj2 E'))).
  Qed.

  (** ** C14: operations do exactly what was previewed *)

  Theorem c14_deposit_as_previewed : forall w cl a r, reachable w -> cl <> this -> is_u256 a ->
    (forall s, fst (deposit x asset offset cl a r w) = Ok s <->
       fst (preview_deposit x asset offset a w) = Ok s /\ deposit_pre this w cl r a s) /\
    (forall s w', deposit x asset offset cl a r w = (Ok s, w') -> deposited this w w' cl r a s).
  Proof.
    intros w cl a r Hr Hc Ha. apply reachable_vinv in Hr; [|exact Hthis|exact Hoff]. destruct (vinv_ok this w Hr) as [H1 H2].
    pose proof (c11_preview_deposit_floor w a H1 H2 Ha) as (_ & HP & _).
    destruct (deposit_cases this asset offset Hthis Hoff cl a r w Hr Hc Ha) as [(s0 & w0 & R & F & B & P & E & HI & D)|(N & E)].
    - rewrite E. cbn [fst]. split.
      + intros s. rewrite HP. split.
        * intros H; injection H as <-. unfold is_u256 in B. split; [|exact P]. split; [exact R|]. split; [exact F|lia].
        * intros [(_ & F' & _) _]. f_equal. exact (floor_unique _ _ _ _ (proj1 (ok_pos this offset Hoff w (conj H1 H2))) F F').
      + intros s w' H. injection H as <- <-. exact D.
    - split.
      + intros s. split; [intros H; rewrite H in E; discriminate|]. rewrite HP. intros [(R & F & B) P]. exfalso.
        apply (N s R F); [|exact P]. split; [|exact B]. pose proof (ok_pos this offset Hoff w (conj H1 H2)) as [P1 P2].
        apply (rounds_nonneg Floor (a * S1 w) (A1 w)); [exact P1| |exact F]. apply Z.mul_nonneg_nonneg; [apply Ha|lia].
      + intros s w' H. rewrite H in E. discriminate.
  Qed.

  Theorem c14_mint_as_previewed : forall w cl s r, reachable w -> cl <> this -> is_u256 s ->
    (forall a, fst (mint x asset offset cl s r w) = Ok a <->
       fst (preview_mint x asset offset s w) = Ok a /\ deposit_pre this w cl r a s) /\
    (forall a w', mint x asset offset cl s r w = (Ok a, w') -> deposited this w w' cl r a s).
  Proof.
    intros w cl s r Hr Hc Ha. apply reachable_vinv in Hr; [|exact Hthis|exact Hoff]. destruct (vinv_ok this w Hr) as [H1 H2].
    pose proof (c11_preview_mint_ceil w s H1 H2 Ha) as (_ & HP & _).
    destruct (mint_cases this asset offset Hthis Hoff cl s r w Hr Hc Ha) as [(s0 & w0 & R & F & B & P & E & HI & D)|(N & E)].
    - rewrite E. cbn [fst]. split.
      + intros a. rewrite HP. split.
        * intros H; injection H as <-. unfold is_u256 in B. split; [|exact P]. split; [exact R|]. split; [exact F|lia].
        * intros [(_ & F' & _) _]. f_equal. exact (ceil_unique _ _ _ _ (proj2 (ok_pos this offset Hoff w (conj H1 H2))) F F').
      + intros a w' H. injection H as <- <-. exact D.
    - split.
      + intros a. split; [intros H; rewrite H in E; discriminate|]. rewrite HP. intros [(R & F & B) P]. exfalso.
        apply (N a R F); [|exact P]. split; [|exact B]. pose proof (ok_pos this offset Hoff w (conj H1 H2)) as [P1 P2].
        apply (rounds_nonneg Ceil (s * A1 w) (S1 w)); [exact P2| |exact F]. apply Z.mul_nonneg_nonneg; [apply Ha|lia].
      + intros a w' H. rewrite H in E. discriminate.
  Qed.

  Theorem c14_redeem_as_previewed : forall w cl s r o, reachable w -> is_u256 s ->
    (forall a, fst (redeem x asset offset cl s r o w) = Ok a <->
       s <= max_redeem o w /\ fst (preview_redeem x asset offset s w) = Ok a /\ exit_pre w cl r o s) /\
    (forall a w', redeem x asset offset cl s r o w = (Ok a, w') -> withdrawn this w w' cl r o a s) /\
    (max_redeem o w < s -> redeem x asset offset cl s r o w = (Err (ExceededMaxRedeem o s (max_redeem o w)), w)).
  Proof.
    intros w cl s r o Hr Hs. apply reachable_vinv in Hr; [|exact Hthis|exact Hoff]. destruct (vinv_ok this w Hr) as [H1 H2].
    pose proof (c11_preview_redeem_floor w s H1 H2 Hs) as (_ & HP & _).
    change (max_redeem o w) with (share_bal w o).
    destruct (redeem_cases this asset offset Hthis Hoff cl s r o w Hr Hs) as [(a0 & w0 & R & L & F & B & P & E & HI & D)|(N & E & X)].
    - rewrite E. cbn [fst]. split; [|split].
      + intros a. rewrite HP. split.
        * intros H; injection H as <-. unfold is_u256 in B. split; [exact L|]. split; [|exact P]. split; [exact R|]. split; [exact F|lia].
        * intros (_ & (_ & F' & _) & _). f_equal. exact (floor_unique _ _ _ _ (proj2 (ok_pos this offset Hoff w (conj H1 H2))) F F').
      + intros a w' H. injection H as <- <-. exact D.
      + lia.
    - split; [|split; [|exact X]].
      + intros a. split; [intros H; rewrite H in E; discriminate|]. rewrite HP. intros (L & (R & F & B) & P). exfalso. apply N. auto.
      + intros a w' H. rewrite H in E. discriminate.
  Qed.

  Theorem c14_withdraw_as_previewed : forall w cl a r o, reachable w -> is_u256 a ->
    (forall s, fst (withdraw x asset offset cl a r o w) = Ok s <->
       (exists m, fst (max_withdraw x asset offset o w) = Ok m /\ a <= m) /\
       fst (preview_withdraw x asset offset a w) = Ok s /\ exit_pre w cl r o s) /\
    (forall s w', withdraw x asset offset cl a r o w = (Ok s, w') -> withdrawn this w w' cl r o a s) /\
    (forall m, fst (max_withdraw x asset offset o w) = Ok m -> m < a ->
       withdraw x asset offset cl a r o w = (Err (ExceededMaxWithdraw o a m), w)).
  Proof.
    intros w cl a r o Hr Ha. apply reachable_vinv in Hr; [|exact Hthis|exact Hoff]. destruct (vinv_ok this w Hr) as [H1 H2].
    pose proof (ok_pos this offset Hoff w (conj H1 H2)) as [P1 P2].
    pose proof (c11_preview_withdraw_ceil w a H1 H2 Ha) as (_ & HP & _).
    assert (Hb : is_u256 (share_bal w o)) by (apply bal_u256, Hr).
    pose proof (c11_preview_redeem_floor w (share_bal w o) H1 H2 Hb) as (_ & HM & _).
    change (fst (max_withdraw x asset offset o w)) with (fst (preview_redeem x asset offset (share_bal w o) w)).
    destruct (withdraw_cases this asset offset Hthis Hoff cl a r o w Hr Ha) as [(m0 & s0 & w0 & R & FM & L & F & B & P & E & HI & D)|(N & E & X)].
    - rewrite E. cbn [fst]. split; [|split].
      + intros s. rewrite HP. split.
        * intros H; injection H as <-. unfold is_u256 in B. split.
          { exists m0. split; [|exact L]. apply HM. split; [exact R|]. split; [exact FM|].
            pose proof (redeem_covered this offset Hoff w _ m0 (conj H1 H2) (shares_le_supply this w o Hr) FM). unfold is_u256 in H1. lia. }
          split; [|exact P]. split; [exact R|]. split; [exact F|lia].
        * intros (_ & (_ & F' & _) & _). f_equal. exact (ceil_unique _ _ _ _ P1 F F').
      + intros s w' H. injection H as <- <-. exact D.
      + intros m HH Hlt. apply HM in HH. destruct HH as (_ & FM' & _). rewrite (floor_unique _ _ _ _ P2 FM' FM) in Hlt. lia.
    - split; [|split].
      + intros s. split; [intros H; rewrite H in E; discriminate|]. rewrite HP. intros ((m & HMm & Lm) & (R & F & B) & P). exfalso.
        apply HM in HMm. destruct HMm as (_ & FM & _). exact (N m s R FM Lm F P).
      + intros s w' H. rewrite H in E. discriminate.
      + intros m HMm Hlt. apply HM in HMm. destruct HMm as (R & FM & _). exact (X m R FM Hlt).
  Qed.

  (** The owner can always take the announced maximum. *)
  Theorem c14_max_redeem_succeeds : forall w o r, reachable w -> in_range w -> o <> 0 -> r <> 0 ->
    exists a w', redeem x asset offset o (max_redeem o w) r o w = (Ok a, w') /\ share_bal w' o = 0.
  Proof.
    intros w o r Hr R Ho Hr0. apply reachable_vinv in Hr; [|exact Hthis|exact Hoff]. change (max_redeem o w) with (share_bal w o).
    assert (Hb : is_u256 (share_bal w o)) by (apply bal_u256, Hr).
    destruct (redeem_cases this asset offset Hthis Hoff o (share_bal w o) r o w Hr Hb) as [(a & w' & _ & _ & _ & _ & _ & E & _ & D)|(N & _)].
    - exists a, w'. split; [exact E|]. destruct D as (_ & _ & D & _). rewrite D, delta_self. lia.
    - exfalso. apply N. split; [exact R|]. split; [lia|]. split; [exact Hr0|]. split; [exact Ho|left; reflexivity].
  Qed.
  Theorem c14_max_withdraw_succeeds : forall w o r, reachable w -> in_range w -> o <> 0 -> r <> 0 ->
    exists m s w', fst (max_withdraw x asset offset o w) = Ok m /\ withdraw x asset offset o m r o w = (Ok s, w').
  Proof.
    intros w o r Hr R Ho Hr0. apply reachable_vinv in Hr; [|exact Hthis|exact Hoff]. destruct (vinv_ok this w Hr) as [H1 H2].
    pose proof (ok_pos this offset Hoff w (conj H1 H2)) as [P1 P2].
    assert (Hb : is_u256 (share_bal w o)) by (apply bal_u256, Hr).
    pose proof (floor_is (share_bal w o * A1 w) (S1 w) P2) as F. set (m := share_bal w o * A1 w / S1 w) in *. clearbody m.
    pose proof (redeem_covered this offset Hoff w _ m (conj H1 H2) (shares_le_supply this w o Hr) F) as Hcov.
    assert (Hm : is_u256 m).
    { split; [|unfold is_u256 in H1; lia]. apply (rounds_nonneg Floor (share_bal w o * A1 w) (S1 w)); [exact P2| |exact F].
      apply Z.mul_nonneg_nonneg; [apply Hb|lia]. }
    exists m. destruct (withdraw_cases this asset offset Hthis Hoff o m r o w Hr Hm) as [(m0 & s & w' & _ & _ & _ & _ & _ & _ & E & _ & D)|(N & _)].
    - exists s, w'. split; [|exact E].
      change (fst (max_withdraw x asset offset o w)) with (fst (preview_redeem x asset offset (share_bal w o) w)).
      apply (c11_preview_redeem_floor w (share_bal w o) H1 H2 Hb). split; [exact R|]. split; [exact F|]. unfold is_u256 in Hm. lia.
    - exfalso. apply (N m ((m * S1 w + (A1 w - 1)) / A1 w) R F (Z.le_refl m) (ceil_is _ _ P1)).
      split; [exact Hr0|]. split; [exact Ho|left; reflexivity].
  Qed.

  (** ** C12: round trips are never profitable *)

  Lemma after_deposit w cl a r s w' : VInv this w -> cl <> this -> is_u256 a -> deposit x asset offset cl a r w = (Ok s, w') ->
    VInv this w' /\ is_u256 s /\ is_floor (a * S1 w) (A1 w) s /\ A1 w' = A1 w + a /\ S1 w' = S1 w + s /\
    deposited this w w' cl r a s.
  Proof.
    intros HW Hc Ha E0. destruct (deposit_cases this asset offset Hthis Hoff cl a r w HW Hc Ha) as [(s0 & w0 & R & F & B & P & E & HI & D)|(_ & E)].
    - rewrite E in E0. injection E0 as <- <-. destruct (deposited_rate this offset Hthis _ _ _ _ _ _ D Hc). auto 10.
    - rewrite E0 in E. discriminate.
  Qed.
  Lemma after_mint w cl s r a w' : VInv this w -> cl <> this -> is_u256 s -> mint x asset offset cl s r w = (Ok a, w') ->
    VInv this w' /\ is_u256 a /\ is_ceil (s * A1 w) (S1 w) a /\ A1 w' = A1 w + a /\ S1 w' = S1 w + s.
  Proof.
    intros HW Hc Ha E0. destruct (mint_cases this asset offset Hthis Hoff cl s r w HW Hc Ha) as [(s0 & w0 & R & F & B & P & E & HI & D)|(_ & E)].
    - rewrite E in E0. injection E0 as <- <-. destruct (deposited_rate this offset Hthis _ _ _ _ _ _ D Hc). auto 10.
    - rewrite E0 in E. discriminate.
  Qed.
  Lemma after_redeem w cl s r o a w' : VInv this w -> r <> this -> is_u256 s -> redeem x asset offset cl s r o w = (Ok a, w') ->
    VInv this w' /\ is_u256 a /\ is_floor (s * A1 w) (S1 w) a /\ A1 w' = A1 w - a /\ S1 w' = S1 w - s /\
    (forall b, share_bal w' b = share_bal w b - delta b o s).
  Proof.
    intros HW Hc Ha E0. destruct (redeem_cases this asset offset Hthis Hoff cl s r o w HW Ha) as [(s0 & w0 & R & L & F & B & P & E & HI & D)|(_ & E & _)].
    - rewrite E in E0. injection E0 as <- <-. pose proof (withdrawn_rate this offset Hthis Hoff _ _ _ _ _ _ _ D) as [Q1 Q2].
      replace (r =? this) with false in Q1 by lia. destruct D as (_ & _ & D & _). auto 10.
    - rewrite E0 in E. discriminate.
  Qed.
  Lemma after_withdraw w cl a r o s w' : VInv this w -> r <> this -> is_u256 a -> withdraw x asset offset cl a r o w = (Ok s, w') ->
    VInv this w' /\ is_u256 s /\ is_ceil (a * S1 w) (A1 w) s /\ A1 w' = A1 w - a /\ S1 w' = S1 w - s.
  Proof.
    intros HW Hc Ha E0. destruct (withdraw_cases this asset offset Hthis Hoff cl a r o w HW Ha) as [(m & s0 & w0 & R & FM & L & F & B & P & E & HI & D)|(_ & E & _)].
    - rewrite E in E0. injection E0 as <- <-. pose proof (withdrawn_rate this offset Hthis Hoff _ _ _ _ _ _ _ D) as [Q1 Q2].
      replace (r =? this) with false in Q1 by lia. auto 10.
    - rewrite E0 in E. discriminate.
  Qed.
  Lemma pos w : VInv this w -> 0 < A1 w /\ 0 < S1 w.
  Proof. intros H. apply ok_pos; [exact Hoff|apply vinv_ok, H]. Qed.

  Theorem c12_deposit_then_redeem : forall w cl a s w1 a' w2, reachable w -> cl <> this -> is_u256 a ->
    deposit x asset offset cl a cl w = (Ok s, w1) -> redeem x asset offset cl s cl cl w1 = (Ok a', w2) -> a' <= a.
  Proof.
    intros w cl a s w1 a' w2 Hr Hc Ha E1 E2. apply reachable_vinv in Hr; [|exact Hthis|exact Hoff].
    destruct (after_deposit _ _ _ _ _ _ Hr Hc Ha E1) as (H1 & Hs & [F _] & Q1 & Q2 & _).
    destruct (after_redeem _ _ _ _ _ _ _ H1 Hc Hs E2) as (_ & _ & [G _] & _). rewrite Q1, Q2 in G.
    pose proof (pos _ H1) as [_ P]. rewrite Q2 in P. apply (Z.mul_le_mono_pos_r _ _ (S1 w + s) P). lia.
  Qed.
  Theorem c12_mint_then_withdraw : forall w cl s a w1 s' w2, reachable w -> cl <> this -> is_u256 s ->
    mint x asset offset cl s cl w = (Ok a, w1) -> withdraw x asset offset cl a cl cl w1 = (Ok s', w2) -> s <= s'.
  Proof.
    intros w cl s a w1 s' w2 Hr Hc Hs E1 E2. apply reachable_vinv in Hr; [|exact Hthis|exact Hoff].
    destruct (after_mint _ _ _ _ _ _ Hr Hc Hs E1) as (H1 & Ha & [_ F] & Q1 & Q2).
    destruct (after_withdraw _ _ _ _ _ _ _ H1 Hc Ha E2) as (_ & _ & [_ G] & _). rewrite Q1, Q2 in G.
    pose proof (pos _ H1) as [P _]. rewrite Q1 in P. apply (Z.mul_le_mono_pos_r _ _ (A1 w + a) P). lia.
  Qed.
  Theorem c12_withdraw_then_deposit : forall w cl a s w1 s' w2, reachable w -> cl <> this -> is_u256 a ->
    withdraw x asset offset cl a cl cl w = (Ok s, w1) -> deposit x asset offset cl a cl w1 = (Ok s', w2) -> s' <= s.
  Proof.
    intros w cl a s w1 s' w2 Hr Hc Ha E1 E2. apply reachable_vinv in Hr; [|exact Hthis|exact Hoff].
    destruct (after_withdraw _ _ _ _ _ _ _ Hr Hc Ha E1) as (H1 & Hs & [_ F] & Q1 & Q2).
    destruct (after_deposit _ _ _ _ _ _ H1 Hc Ha E2) as (_ & _ & [G _] & _). rewrite Q1, Q2 in G.
    pose proof (pos _ H1) as [P _]. rewrite Q1 in P. apply (Z.mul_le_mono_pos_r _ _ (A1 w - a) P). lia.
  Qed.
  Theorem c12_redeem_then_mint : forall w cl s a w1 a' w2, reachable w -> cl <> this -> is_u256 s ->
    redeem x asset offset cl s cl cl w = (Ok a, w1) -> mint x asset offset cl s cl w1 = (Ok a', w2) -> a <= a'.
  Proof.
    intros w cl s a w1 a' w2 Hr Hc Hs E1 E2. apply reachable_vinv in Hr; [|exact Hthis|exact Hoff].
    destruct (after_redeem _ _ _ _ _ _ _ Hr Hc Hs E1) as (H1 & Ha & [F _] & Q1 & Q2 & _).
    destruct (after_mint _ _ _ _ _ _ H1 Hc Hs E2) as (_ & _ & [_ G] & _). rewrite Q1, Q2 in G.
    pose proof (pos _ H1) as [_ P]. rewrite Q2 in P. apply (Z.mul_le_mono_pos_r _ _ (S1 w - s) P). lia.
  Qed.

  (** ** C13: the exchange rate never decreases *)
  Theorem c13_rate_never_decreases : forall w h, reachable w -> Forall (call_wf this) h ->
    let w' := run x asset offset h w in A1 w * S1 w' <= A1 w' * S1 w.
  Proof.
    intros w h Hr Hh. apply reachable_vinv in Hr; [|exact Hthis|exact Hoff]. exact (proj2 (run_ok this asset offset Hthis Hoff h w Hh Hr)).
  Qed.
  (** In particular assets only leave when shares are burned. *)
  Theorem c13_assets_leave_only_for_shares : forall w h, reachable w -> Forall (call_wf this) h ->
    let w' := run x asset offset h w in share_supply w <= share_supply w' -> asset_bal w this <= asset_bal w' this.
  Proof.
    intros w h Hr Hh w' Hle. pose proof (c13_rate_never_decreases w h Hr Hh) as L. cbv zeta in L. fold w' in L. clearbody w'.
    apply reachable_vinv in Hr; [|exact Hthis|exact Hoff]. pose proof (pos w Hr) as [P1 P2].
    assert (A1 w * S1 w <= A1 w * S1 w') by (apply Z.mul_le_mono_nonneg_l; [lia|unfold shares1; lia]).
    assert (A1 w <= A1 w'); [|unfold assets1 in *; lia]. apply (Z.mul_le_mono_pos_r _ _ (S1 w) P2). lia.
  Qed.

  (** ** C15: solvency *)

  (** Each listed owner in turn redeems everything it holds, to the given receiver; the
      total paid out, or [None] as soon as one of them fails. *)
  Fixpoint exits (l : list (Z * Z)) (w : world) : option (Z * world) :=
    match l with
    | [] => Some (0, w)
    | (o, r) :: l' =>
        match redeem x asset offset o (share_bal w o) r o w with
        | (Ok a, w') => match exits l' w' with Some (t, w'') => Some (a + t, w'') | None => None end
        | _ => None
        end
    end.

  Lemma exits_ok l : forall w, VInv this w -> in_range w ->
    Forall (fun '(o, r) => o <> 0 /\ r <> 0 /\ r <> this) l ->
    exists t w', exits l w = Some (t, w') /\ 0 <= t /\ asset_bal w' this = asset_bal w this - t /\ VInv this w' /\
      (forall o, share_bal w o = 0 \/ In o (map fst l) -> share_bal w' o = 0).
  Proof.
    induction l as [|[o r] l IH]; intros w HW HR HF.
    - exists 0, w. cbn. split; [reflexivity|]. split; [lia|]. split; [lia|]. split; [exact HW|]. intros o [H|[]]; exact H.
    - inversion HF as [|? ? HF0 HF']; subst. cbn in HF0. destruct HF0 as (Ho & Hr & Hrt). cbn [exits].
      assert (Hb : is_u256 (share_bal w o)) by (apply bal_u256, HW).
      destruct (redeem_cases this asset offset Hthis Hoff o (share_bal w o) r o w HW Hb) as [(a & w' & _ & _ & _ & _ & _ & E & _)|(N & _)].
      2: { exfalso. apply N. split; [exact HR|]. split; [lia|]. split; [exact Hr|]. split; [exact Ho|left; reflexivity]. }
      rewrite E. destruct (after_redeem _ _ _ _ _ _ _ HW Hrt Hb E) as (HW' & Ha & F & Q1 & Q2 & Q3).
      destruct HR as [HR1 HR2]. unfold is_u256 in Ha, Hb.
      destruct (IH w' HW' ltac:(split; lia) HF') as (t & w'' & E' & Ht & Hbal & HW'' & Hz). rewrite E'.
      exists (a + t), w''. split; [reflexivity|]. split; [lia|]. split; [unfold assets1 in *; lia|]. split; [exact HW''|].
      intros o' Ho'. apply Hz. rewrite Q3. unfold delta. destruct (Z.eqb_spec o' o) as [->|Hne]; [left; lia|].
      destruct Ho' as [H|[H|H]]; [left; lia|cbn in H; congruence|right; exact H].
  Qed.

  (** Any holders, in any order, can all get out completely; together they get no more than
      the vault holds. *)
  Theorem c15_everybody_can_exit : forall w l, reachable w -> in_range w ->
    Forall (fun '(o, r) => o <> 0 /\ r <> 0 /\ r <> this) l ->
    exists total w', exits l w = Some (total, w') /\ 0 <= total <= asset_bal w this /\
      asset_bal w' this = asset_bal w this - total /\ (forall o, In o (map fst l) -> share_bal w' o = 0).
  Proof.
    intros w l Hr HR HF. apply reachable_vinv in Hr; [|exact Hthis|exact Hoff].
    destruct (exits_ok l w Hr HR HF) as (t & w' & E & Ht & Hb & HW' & Hz). exists t, w'. split; [exact E|].
    pose proof (proj1 (vinv_ok this w' HW')) as [H0 _]. split; [lia|]. split; [exact Hb|]. auto.
  Qed.

  Lemma sum_balances_le s l : Inv s -> List.NoDup l -> 0 <= sum_balances s l <= Erc20.total_supply s.
  Proof.
    intros HI HN.
    assert (G : forall m : gmap Z Z, mnonneg m -> 0 <= fold_right (fun a acc => mget m a + acc) 0 l <= msum m).
    { revert HN. induction l as [|a l IH]; intros HN m Hm; cbn [fold_right].
      - split; [lia|]. pose proof (mget_le_msum m 0 Hm). specialize (Hm 0). lia.
      - inversion HN as [|? ? Hni HN']; subst.
        assert (Hd : mnonneg (delete a m)).
        { intros k. unfold mget. destruct (decide (a = k)) as [->|Hne]; [rewrite lookup_delete; cbn; lia|rewrite lookup_delete_ne by exact Hne; apply Hm]. }
        specialize (IH HN' (delete a m) Hd). rewrite (msum_delete m a).
        replace (fold_right (fun b acc => mget m b + acc) 0 l) with (fold_right (fun b acc => mget (delete a m) b + acc) 0 l); [specialize (Hm a); lia|].
        clear -Hni. induction l as [|b l IH]; cbn; [reflexivity|]. rewrite IH by (intros H; apply Hni; right; exact H).
        f_equal. unfold mget. rewrite lookup_delete_ne; [reflexivity|]. intros ->. apply Hni. left; reflexivity. }
    specialize (G (Erc20.balances s) (inv_nonneg s HI)). rewrite (inv_sum s HI) in G.
    replace (sum_balances s l) with (fold_right (fun a acc => mget (Erc20.balances s) a + acc) 0 l); [exact G|].
    clear. induction l as [|a l IH]; cbn; [reflexivity|]. rewrite IH. reflexivity.
  Qed.

  (** The quoted values of all holdings together are covered. *)
  Theorem c15_quotes_covered : forall w l qs, reachable w -> List.NoDup l ->
    Forall2 (fun o q => fst (max_withdraw x asset offset o w) = Ok q) l qs ->
    fold_right Z.add 0 qs <= asset_bal w this.
  Proof.
    intros w l qs Hr HN HF. apply reachable_vinv in Hr; [|exact Hthis|exact Hoff]. destruct (vinv_ok this w Hr) as [H1 H2].
    pose proof (ok_pos this offset Hoff w (conj H1 H2)) as [P1 P2].
    assert (G : fold_right Z.add 0 qs * S1 w <= sum_balances (tok w) l * A1 w).
    { clear HN. induction HF as [|o q l qs Hq HF IH]; cbn [fold_right sum_balances]; [lia|].
      assert (Hb : is_u256 (share_bal w o)) by (apply bal_u256, Hr).
      change (fst (max_withdraw x asset offset o w)) with (fst (preview_redeem x asset offset (share_bal w o) w)) in Hq.
      apply (c11_preview_redeem_floor w (share_bal w o) H1 H2 Hb) in Hq. destruct Hq as (_ & [F _] & _). fold (share_bal w o). lia. }
    pose proof (sum_balances_le (tok w) l (vi_t _ _ Hr) HN) as L. fold (share_supply w) in L.
    pose proof (virt_pos offset Hoff) as HV.
    assert (sum_balances (tok w) l * A1 w < S1 w * A1 w) by (apply Z.mul_lt_mono_pos_r; [exact P1|unfold shares1; lia]).
    assert (fold_right Z.add 0 qs < A1 w); [|unfold assets1 in *; lia]. apply (Z.mul_lt_mono_pos_r (S1 w)); lia.
  Qed.

  (** ** C16: bounded rounding loss and the inflation attack *)

  (** Valued at the rate before the deposit, the depositor loses less than the price A1/S1 of
      one share; redeeming at once, less than that price plus one unit of the asset. *)
  Theorem c16_loss_below_share_price : forall w cl a s w1, reachable w -> cl <> this -> is_u256 a ->
    deposit x asset offset cl a cl w = (Ok s, w1) ->
    0 <= a * S1 w - s * A1 w < A1 w /\
    forall a' w2, redeem x asset offset cl s cl cl w1 = (Ok a', w2) ->
      (a - a' - 1) * S1 w < A1 w /\ (forall price_up, is_ceil (A1 w) (S1 w) price_up -> a - a' <= price_up).
  Proof.
    intros w cl a s w1 Hr Hc Ha E1. apply reachable_vinv in Hr; [|exact Hthis|exact Hoff].
    destruct (after_deposit _ _ _ _ _ _ Hr Hc Ha E1) as (H1 & Hs & [F1 F2] & Q1 & Q2 & _).
    split; [lia|]. intros a' w2 E2.
    destruct (after_redeem _ _ _ _ _ _ _ H1 Hc Hs E2) as (_ & _ & [G1 G2] & _). rewrite Q1, Q2 in *.
    pose proof (pos _ Hr) as [P1 P2]. unfold is_u256 in *.
    assert (K : (a - a' - 1) * S1 w < A1 w).
    { assert (L : s * A1 w < (a' + 1) * S1 w); [|lia].
      assert (X : s * A1 w * (S1 w + s) < (a' + 1) * S1 w * (S1 w + s)).
      { assert (s * (s * A1 w) <= s * (a * S1 w)) by (apply Z.mul_le_mono_nonneg_l; lia).
        assert (s * (A1 w + a) * S1 w < (a' + 1) * (S1 w + s) * S1 w) by (apply Z.mul_lt_mono_pos_r; lia). lia. }
      apply (Z.mul_lt_mono_pos_r (S1 w + s)); lia. }
    split; [exact K|]. intros p [C1 C2].
    assert (a - a' - 1 < p); [|lia]. apply (Z.mul_lt_mono_pos_r (S1 w)); lia.
  Qed.

  (** The attack on an empty vault: the attacker deposits [d0], then donates [D]; the victim
      deposits [a]. The donation is at least 10^offset times what the victim loses (the loss
      in whole units at the rate before its deposit; with redemption at once, one unit
      more), and the attacker gets back at most what it put in. *)
  Theorem c16_inflation_attack_unprofitable_partial :
    forall w0 att d0 sh w1 D vic a s w3,
    reachable w0 -> att <> this -> vic <> this -> is_u256 d0 -> is_u256 D -> is_u256 a ->
    share_supply w0 = 0 -> asset_bal w0 this = 0 ->
    deposit x asset offset att d0 att w0 = (Ok sh, w1) ->
    let w2 := step x asset offset w1 (Asset att (Erc20.OTransfer this D)) in
    asset_bal w2 this = asset_bal w1 this + D ->
    deposit x asset offset vic a vic w2 = (Ok s, w3) ->
    sh = d0 * 10 ^ offset /\
    (forall loss, loss * S1 w2 <= a * S1 w2 - s * A1 w2 -> 0 <= loss -> loss * 10 ^ offset <= D) /\
    (forall a' w4, redeem x asset offset vic s vic vic w3 = (Ok a', w4) -> (a - a' - 1) * 10 ^ offset <= D) /\
    (forall g w4, redeem x asset offset att sh att att w3 = (Ok g, w4) -> g <= d0 + D).
  Proof.
    intros w0 att d0 sh w1 D vic a s w3 Hr Hat Hvi Hd0 HD Ha S0 A0 E1 w2 HB E2.
    apply reachable_vinv in Hr; [|exact Hthis|exact Hoff].
    destruct (after_deposit _ _ _ _ _ _ Hr Hat Hd0 E1) as (H1 & Hsh & F & Q1 & Q2 & _).
    pose proof (virt_pos offset Hoff) as HV. set (V := 10 ^ offset) in *.
    assert (CS : forall w, S1 w = share_supply w + V) by reflexivity.
    assert (CA : forall w, A1 w = asset_bal w this + 1) by reflexivity. clearbody V.
    assert (B0 : A1 w0 = 1) by (rewrite CA; lia). assert (C0 : S1 w0 = V) by (rewrite CS; lia).
    rewrite B0, C0 in *. assert (sh = d0 * V) as -> by (destruct F; lia).
    assert (Hwf : call_wf this (Asset att (Erc20.OTransfer this D))).
    { split; [exact Hat|]. split; [exact HD|]. left. exact I. }
    destruct (step_ok this asset offset Hthis Hoff w1 _ H1 Hwf) as [H2 _]. fold w2 in H2.
    assert (B2 : A1 w2 = d0 + D + 1) by (rewrite CA in *; lia).
    assert (C2 : S1 w2 = V * (d0 + 1)).
    { assert (share_supply w2 = share_supply w1); [|rewrite CS in *; lia].
      unfold w2, step, exec, tx, map_err, on_asset, zoom, share_supply. cbn [tok].
      destruct (Erc20.exec att (Erc20.OTransfer this D) (asset_st w1)) as [[[]|e|] u']; reflexivity. }
    destruct (after_deposit _ _ _ _ _ _ H2 Hvi Ha E2) as (H3 & Hs & [G1 G2] & R1 & R2 & _).
    unfold is_u256 in *. rewrite B2, C2 in *.
    assert (K : forall l, l * (V * (d0 + 1)) <= d0 + D -> 0 <= l -> l * V <= D).
    { intros l Hl Hl0. destruct (Z.eq_dec l 0) as [->|]; [lia|].
      assert (1 <= l * V) by (assert (1 * 1 <= l * V) by (apply Z.mul_le_mono_nonneg; lia); lia).
      assert (1 * d0 <= l * V * d0) by (apply Z.mul_le_mono_nonneg_r; lia). lia. }
    split; [reflexivity|]. split; [|split].
    - intros l Hl Hl0. apply K; [|exact Hl0]. lia.
    - intros a' w4 E3. destruct (Z_le_gt_dec (a - a' - 1) 0) as [Hneg|Hpos].
      { assert ((a - a' - 1) * V <= 0 * V) by (apply Z.mul_le_mono_nonneg_r; lia). lia. }
      apply K; [|lia].
      destruct (after_redeem _ _ _ _ _ _ _ H3 Hvi Hs E3) as (_ & _ & [L1 L2] & _). rewrite R1, R2 in *.
      assert (P2 : 0 < V * (d0 + 1)) by (apply Z.mul_pos_pos; lia).
      assert (L : s * (d0 + D + 1) < (a' + 1) * (V * (d0 + 1))); [|lia].
      set (S2 := V * (d0 + 1)) in *. set (A2 := d0 + D + 1) in *. clearbody S2. assert (0 < A2) by (subst A2; lia). clearbody A2.
      assert (X : s * A2 * (S2 + s) < (a' + 1) * S2 * (S2 + s)).
      { assert (s * (s * A2) <= s * (a * S2)) by (apply Z.mul_le_mono_nonneg_l; lia).
        assert (s * (A2 + a) * S2 < (a' + 1) * (S2 + s) * S2) by (apply Z.mul_lt_mono_pos_r; lia). lia. }
      apply (Z.mul_lt_mono_pos_r (S2 + s)); lia.
    - intros g w4 E3. destruct (after_redeem _ _ _ _ _ _ _ H3 Hat Hsh E3) as (_ & Hg & [L1 L2] & _). rewrite R1, R2 in *.
      destruct (Z_le_gt_dec g (d0 + D)) as [|Hgt]; [assumption|exfalso].
      assert (X : (d0 + D + 1) * (V * (d0 + 1) + s) <= g * (V * (d0 + 1) + s)).
      { apply Z.mul_le_mono_nonneg_r; [|lia]. assert (0 <= V * (d0 + 1)) by (apply Z.mul_nonneg_nonneg; lia). lia. }
      assert (Y : a * V + V * (d0 + D + 1) <= d0 + D) by lia.
      assert (0 <= a * V) by (apply Z.mul_nonneg_nonneg; lia).
      assert (1 * (d0 + D + 1) <= V * (d0 + D + 1)) by (apply Z.mul_le_mono_nonneg_r; lia). lia.
  Qed.
End vault.
Print Assumptions c11_preview_deposit_floor.
Print Assumptions c11_preview_mint_ceil.
Print Assumptions c11_preview_withdraw_ceil.
Print Assumptions c11_preview_redeem_floor.
Print Assumptions c11_converts_floor.
Print Assumptions c11_quotients_exist_uniquely.
Print Assumptions c11_monotone.
Print Assumptions c12_deposit_then_redeem.
Print Assumptions c12_mint_then_withdraw.
Print Assumptions c12_withdraw_then_deposit.
Print Assumptions c12_redeem_then_mint.
Print Assumptions c13_rate_never_decreases.
Print Assumptions c13_assets_leave_only_for_shares.
Print Assumptions c14_deposit_as_previewed.
Print Assumptions c14_mint_as_previewed.
Print Assumptions c14_redeem_as_previewed.
Print Assumptions c14_withdraw_as_previewed.
Print Assumptions c14_max_redeem_succeeds.
Print Assumptions c14_max_withdraw_succeeds.
Print Assumptions c15_everybody_can_exit.
Print Assumptions c15_quotes_covered.
Print Assumptions c16_loss_below_share_price.
Print Assumptions c16_inflation_attack_unprofitable_partial.

Ltac wf_calls :=
  assert (two256 > 100000) by reflexivity;
  repeat apply Forall_cons_2; try apply Forall_nil_2; cbn;
  unfold Erc20.op_wf, is_u256, third_party_op; cbn;
  repeat split; try lia; first [left; exact I | right; eauto | exact I].

(** The vault of all witnesses: address 100, asset contract 200. *)
Notation vx := (honest_ext 100 200).

(** C16 says the attacker must donate more than 10^offset times the victim's loss; exactly
    that multiple can be enough. *)
Definition c16_hist : list call :=
  [Asset 9 (Erc20.OMint 1 1); Asset 1 (Erc20.OTransfer 100 1);
   Asset 9 (Erc20.OMint 2 5); Asset 2 (Erc20.OApprove 100 5)].
Theorem c16_donation_must_exceed_loss_refuted :
  exists w vic a w', reachable 100 200 0 w /\ vic <> 100 /\ is_u256 a /\ share_supply w = 0 /\
    deposit vx 200 0 vic a vic w = (Ok 0, w') /\ a > 0 /\ ~ asset_bal w 100 > 10 ^ 0 * a.
Proof.
  exists (run vx 200 0 c16_hist winit), 2, 1. eexists.
  split; [exists c16_hist; split; [unfold c16_hist; wf_calls|reflexivity]|].
  split; [discriminate|]. split; [split; [discriminate|reflexivity]|]. split; [reflexivity|].
  split; [vm_compute; reflexivity|]. split; [reflexivity|]. vm_compute. discriminate.
Qed.
Print Assumptions c16_donation_must_exceed_loss_refuted.

(** Witness: offset 1; account 1 deposits 300 assets, 7 is donated, account 2 mints 111
    shares, account 1 withdraws 50 to account 3, account 2 redeems 30. *)
Definition demo_hist : list call :=
  [Asset 9 (Erc20.OMint 1 1000); Asset 1 (Erc20.OApprove 100 700); VDeposit 1 300 1;
   Asset 1 (Erc20.OTransfer 100 7); Asset 9 (Erc20.OMint 2 1000); Asset 2 (Erc20.OApprove 100 700);
   VMint 2 111 2; VWithdraw 1 50 3 1; VRedeem 2 30 2 2; Shares 1 (Erc20.OTransfer 4 5)].
Definition demo_world : world := run vx 200 1 demo_hist winit.
Example c11_c15_nonvacuous :
  reachable 100 200 1 demo_world /\ in_range 100 1 demo_world /\
  asset_bal demo_world 100 = 266 /\ share_supply demo_world = 2593 /\
  share_bal demo_world 1 = 2507 /\ share_bal demo_world 2 = 81 /\ share_bal demo_world 4 = 5 /\
  fst (preview_deposit vx 200 1 10 demo_world) = Ok 97 /\ fst (preview_mint vx 200 1 97 demo_world) = Ok 10 /\
  fst (preview_withdraw vx 200 1 10 demo_world) = Ok 98 /\ fst (preview_redeem vx 200 1 97 demo_world) = Ok 9 /\
  fst (deposit vx 200 1 2 10 2 demo_world) = Ok 97 /\ fst (mint vx 200 1 2 97 2 demo_world) = Ok 10 /\
  fst (withdraw vx 200 1 1 10 3 1 demo_world) = Ok 98 /\ fst (redeem vx 200 1 1 97 3 1 demo_world) = Ok 9 /\
  (exists t w, exits 100 200 1 [(1, 1); (4, 3); (2, 2)] demo_world = Some (t, w) /\ t = 265).
Proof.
  split; [exists demo_hist; split; [unfold demo_hist; wf_calls|reflexivity]|].
  split; [split; vm_compute; reflexivity|].
  repeat (split; [vm_compute; reflexivity|]). eexists. eexists. split; vm_compute; reflexivity.
Qed.

(** Witness of a round trip and of the attack: offset 0, attacker 1 deposits 1 and donates 9;
    the victim's 25 buys 4 shares. *)
Definition attack_hist : list call :=
  [Asset 9 (Erc20.OMint 1 10); Asset 1 (Erc20.OApprove 100 10); Asset 9 (Erc20.OMint 2 50); Asset 2 (Erc20.OApprove 100 50)].
Example c12_c16_nonvacuous :
  exists w0 w1 w3, reachable 100 200 0 w0 /\ share_supply w0 = 0 /\ asset_bal w0 100 = 0 /\
    deposit vx 200 0 1 1 1 w0 = (Ok 1, w1) /\
    (let w2 := step vx 200 0 w1 (Asset 1 (Erc20.OTransfer 100 9)) in
     asset_bal w2 100 = asset_bal w1 100 + 9 /\ deposit vx 200 0 2 25 2 w2 = (Ok 4, w3)) /\
    fst (redeem vx 200 0 2 4 2 2 w3) = Ok 24 /\ fst (redeem vx 200 0 1 1 1 1 w3) = Ok 6.
Proof.
  exists (run vx 200 0 attack_hist winit). eexists. eexists.
  split; [exists attack_hist; split; [unfold attack_hist; wf_calls|reflexivity]|].
  split; [reflexivity|]. split; [reflexivity|]. split; [vm_compute; reflexivity|].
  split; [cbv zeta; split; vm_compute; reflexivity|]. split; vm_compute; reflexivity.
Qed.
