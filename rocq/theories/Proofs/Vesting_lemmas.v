From Verif.Base Require Import Prelude Maps.
From Verif.Model Require Ownable Erc20 SafeErc20 Erc20World Vesting.
From Verif.Spec Require Import Erc20_spec World_spec Erc4626_spec Vesting_spec.
From Verif.Proofs Require Import Erc20_inv World_lemmas Erc4626_lemmas.
From stdpp Require Import gmap.
Import SafeErc20 Vesting.
#[global] Open Scope Z_scope.

Section schedule.
  Context (start duration : Z) (Hs : is_u64 start) (Hd : is_u64 duration).

  Definition V (total t : Z) : Z :=
    if t <? start then 0 else if start + duration <=? t then total else total * (t - start) / duration.
  Definition fits (total t : Z) : bool :=
    (t <? start) || (start + duration <=? t) || (total * (t - start) <? two256).

  Lemma V_vested total t v : vested start duration total t v <-> v = V total t.
  Proof.
    unfold vested, V. destruct (Z.ltb_spec t start); [lia|]. destruct (Z.leb_spec (start + duration) t); [lia|].
    pose proof (floor_is (total * (t - start)) duration ltac:(lia)) as F. split.
    - intros [?|[[_ F']|?]]; try lia. exact (floor_unique (total * (t - start)) duration _ _ ltac:(lia) F' F).
    - intros ->. right. left. split; [lia|exact F].
  Qed.

  Lemma V_bounds total t : 0 <= total -> 0 <= V total t <= total.
  Proof.
    intros H. unfold V. destruct (Z.ltb_spec t start); [lia|]. destruct (Z.leb_spec (start + duration) t); [lia|].
    split.
    - apply Z.div_pos; [apply Z.mul_nonneg_nonneg; lia|lia].
    - apply Z.div_le_upper_bound; [lia|]. rewrite (Z.mul_comm duration). apply Z.mul_le_mono_nonneg_l; lia.
  Qed.
  Lemma V_mono_total total total' t : 0 <= total <= total' -> V total t <= V total' t.
  Proof.
    intros H. unfold V. destruct (Z.ltb_spec t start); [lia|]. destruct (Z.leb_spec (start + duration) t); [lia|].
    apply Z.div_le_mono; [lia|]. apply Z.mul_le_mono_nonneg_r; lia.
  Qed.
  Lemma V_mono_time total t t' : 0 <= total -> t <= t' -> V total t <= V total t'.
  Proof.
    intros H Ht. unfold V. destruct (Z.ltb_spec t start) as [L|L].
    - apply (V_bounds total t' H).
    - destruct (Z.ltb_spec t' start); [lia|]. destruct (Z.leb_spec (start + duration) t) as [G|G].
      + replace (start + duration <=? t') with true by lia. lia.
      + destruct (Z.leb_spec (start + duration) t').
        * pose proof (V_bounds total t H) as B. unfold V in B. replace (t <? start) with false in B by lia.
          replace (start + duration <=? t) with false in B by lia. apply B.
        * apply Z.div_le_mono; [lia|]. apply Z.mul_le_mono_nonneg_l; lia.
  Qed.
  Lemma V_mono total total' t t' : 0 <= total <= total' -> t <= t' -> V total t <= V total' t'.
  Proof. intros H Ht. pose proof (V_mono_total _ _ t H). pose proof (V_mono_time total' t t' ltac:(lia) Ht). lia. Qed.

  Lemma schedule_eq {S} total t (w : world S) :
    vesting_schedule start duration total t w = (if fits total t then Ok (V total t) else Panic, w).
  Proof.
    assert (E : end_ start duration = start + duration).
    { unfold end_. apply wadd_small. unfold is_u64, two64, two256 in *. lia. }
    unfold vesting_schedule, fits, V. rewrite E. destruct (Z.ltb_spec t start); [reflexivity|].
    destruct (Z.leb_spec (start + duration) t); [reflexivity|]. cbn [orb].
    assert (Ew : wsub t start = t - start) by (apply wsub_small; unfold is_u64, two64, two256 in *; lia).
    rewrite Ew. unfold bind, cmul, ret. destruct (total * (t - start) <? two256); reflexivity.
  Qed.
End schedule.

Lemma received_app this l l' : received this (l ++ l') = received this l + received this l'.
Proof. induction l as [|[[f t] v] l IH]; cbn; [reflexivity|]. rewrite IH. lia. Qed.
Lemma paid_app this l l' : paid_out this (l ++ l') = paid_out this l + paid_out this l'.
Proof. induction l as [|[[f t] v] l IH]; cbn; [reflexivity|]. rewrite IH. lia. Qed.

(** Native transfers. *)
Lemma send_bal n f t v a :
  balance_of (send f t v n) a = balance_of n a - (if a =? f then v else 0) + (if a =? t then v else 0).
Proof.
  unfold balance_of, send; cbn [nbal]. rewrite !mget_set.
  destruct (Z.eqb_spec a f), (Z.eqb_spec a t); subst; repeat destruct (decide _); subst; try congruence; lia.
Qed.
Lemma send_sum n f t v : msum (nbal (send f t v n)) = msum (nbal n).
Proof. unfold send; cbn [nbal]. rewrite !msum_set. lia. Qed.
Lemma send_nonneg n f t v : mnonneg (nbal n) -> 0 <= v <= balance_of n f -> mnonneg (nbal (send f t v n)).
Proof.
  intros H Hv k. pose proof (send_bal n f t v k) as E. unfold balance_of in *. rewrite E.
  pose proof (H k). pose proof (H t). destruct (Z.eqb_spec k f), (Z.eqb_spec k t); subst; lia.
Qed.

Section wallet.
  Context (this token start duration : Z) (Hs : is_u64 start) (Hd : is_u64 duration) (Hthis : this <> 0).
  Notation x := (Erc20World.honest_ext this token).
  Notation W := (world Erc20World.world).
  Notation V := (V start duration).
  Notation fits := (fits start duration).
  Notation tin := (total_in this).
  Notation tout := (total_out this).
  Notation trel w := (released_erc20 token w).
  Notation tbal := (token_balance this).

  Record VI (w : W) : Prop := {
    i_nn : mnonneg (nbal (nat_ w));
    i_sum : msum (nbal (nat_ w)) < two256;
    i_bal : eth_balance this w = tin w - tout w;
    i_rel : released_eth w = tout w;
    i_range : 0 <= released_eth w < two256;
    i_vest : released_eth w <= V (tin w) (now w);
    i_asset : Inv (Erc20World.asset_st (toks w));
    i_appr : approves_nobody (Erc20World.asset_st (toks w)) this;
    i_trange : 0 <= trel w < two256;
    i_tvest : trel w <= V (tbal w + trel w) (now w)
  }.
  (** Everything only grows within a transaction. *)
  Record R (w w' : W) : Prop := {
    r_in : tin w <= tin w';
    r_out : tout w <= tout w';
    r_now : now w' = now w;
    r_tok : tbal w + trel w <= tbal w' + trel w';
    r_trel : trel w <= trel w'
  }.
  Lemma R_refl w : R w w.
  Proof. split; lia. Qed.
  Lemma R_trans w1 w2 w3 : R w1 w2 -> R w2 w3 -> R w1 w3.
  Proof. intros [] []. split; lia. Qed.

  Lemma eth_bal_range w : VI w -> 0 <= eth_balance this w < two256.
  Proof.
    intros H. pose proof (i_nn w H this). pose proof (mget_le_msum _ this (i_nn w H)). pose proof (i_sum w H).
    unfold eth_balance, balance_of. lia.
  Qed.
  Lemma total_eq w : VI w -> eth_balance this w + released_eth w = tin w.
  Proof. intros H. rewrite (i_bal w H), (i_rel w H). lia. Qed.

  Lemma releasable_eq w : VI w ->
    releasable_eth x start duration w =
    (if (tin w <? two256) && fits (tin w) (now w) then Ok (V (tin w) (now w) - released_eth w) else Panic, w).
  Proof.
    intros H. pose proof (total_eq w H) as Ht. pose proof (eth_bal_range w H). pose proof (i_range w H). pose proof (i_vest w H).
    unfold releasable_eth, vested_amount_eth, bind, gets, cadd. cbn [self Erc20World.honest_ext].
    change (balance_of (nat_ w) this) with (eth_balance this w). rewrite Ht.
    destruct (Z.ltb_spec (tin w) two256); [|reflexivity]. cbn [andb]. rewrite schedule_eq by assumption.
    destruct (fits (tin w) (now w)); [|reflexivity]. unfold ret. rewrite wsub_small; [reflexivity|].
    pose proof (V_bounds start duration (tin w) (now w) ltac:(lia)). lia.
  Qed.

  (** The state in which the owner's code runs during a release. *)
  Definition advance (w : W) : W :=
    set_wal (set_released (V (tin w) (now w)) (wal w)) w.
  Definition paid (w : W) : W :=
    set_nat (send this (owner w) (V (tin w) (now w) - released_eth w) (nat_ w)) (advance w).

  Lemma release_eq k w : VI w ->
    release_eth x start duration k w =
    (if (tin w <? two256) && fits (tin w) (now w)
     then match k (paid w) with
          | (Ok _, w') => (Ok tt, set_wal (emit (EtherReleased (V (tin w) (now w) - released_eth w)) (wal w')) w')
          | (Err (CallbackReverted d), _) => (Err (ReleaseEtherFailed d), advance w)
          | _ => (Err (ReleaseEtherFailed []), advance w)
          end
     else (Panic, w)).
  Proof.
    intros H. unfold release_eth. unfold bind at 1. rewrite (releasable_eq w H).
    destruct ((tin w <? two256) && fits (tin w) (now w)) eqn:EF; [|reflexivity].
    pose proof (total_eq w H) as Ht. pose proof (eth_bal_range w H). pose proof (i_range w H). pose proof (i_vest w H).
    pose proof (V_bounds start duration (tin w) (now w) ltac:(lia)) as HV.
    unfold bind, gets, cadd, modify. replace (released_eth w + (V (tin w) (now w) - released_eth w)) with (V (tin w) (now w)) by lia.
    replace (V (tin w) (now w) <? two256) with true by lia.
    unfold call_value. cbn [self Erc20World.honest_ext]. fold (advance w).
    change (balance_of (nat_ (advance w)) this) with (eth_balance this w).
    replace (eth_balance this w <? V (tin w) (now w) - released_eth w) with false by lia.
    change (Ownable.owner (own (wal (advance w)))) with (owner w). change (nat_ (advance w)) with (nat_ w). fold (paid w).
    destruct (k (paid w)) as [[[]|[]|] w']; reflexivity.
  Qed.

  Lemma VI_paid w : VI w -> V (tin w) (now w) < two256 -> VI (paid w) /\ R w (paid w) /\
    tout (paid w) = V (tin w) (now w) /\
    tin (paid w) = tin w + (if owner w =? this then V (tin w) (now w) - released_eth w else 0).
  Proof.
    intros H Hlt. pose proof (total_eq w H) as Ht. pose proof (eth_bal_range w H) as Hb. pose proof (i_range w H). pose proof (i_vest w H) as Hv.
    pose proof (V_bounds start duration (tin w) (now w) ltac:(lia)) as HV.
    assert (E1 : tin (paid w) = tin w + (if owner w =? this then V (tin w) (now w) - released_eth w else 0)).
    { change (tin (paid w)) with (received this (transfers (nat_ w) ++ [(this, owner w, V (tin w) (now w) - released_eth w)])).
      rewrite received_app. cbn [received]. change (received this (transfers (nat_ w))) with (tin w). lia. }
    assert (E1' : tin w <= tin (paid w)) by (rewrite E1; destruct (owner w =? this); lia).
    assert (E2 : tout (paid w) = V (tin w) (now w)).
    { unfold total_out, paid; cbn. rewrite paid_app; cbn. rewrite Z.eqb_refl. fold (tout w). rewrite <- (i_rel w H). lia. }
    split; [|split; [|split; assumption]].
    - split.
      + apply send_nonneg; [apply H|]. change (balance_of (nat_ w) this) with (eth_balance this w). lia.
      + unfold paid; cbn [nat_ set_nat]. rewrite send_sum. apply H.
      + rewrite E1, E2. unfold eth_balance, paid; cbn [nat_ set_nat]. rewrite send_bal. rewrite Z.eqb_refl.
        fold (eth_balance this w). destruct (Z.eqb_spec this (owner w)), (Z.eqb_spec (owner w) this); lia.
      + rewrite E2. reflexivity.
      + change (released_eth (paid w)) with (V (tin w) (now w)). lia.
      + change (now (paid w)) with (now w). change (released_eth (paid w)) with (V (tin w) (now w)).
        apply V_mono_total. lia.
      + apply (i_asset w H).
      + apply (i_appr w H).
      + apply (i_trange w H).
      + apply (i_tvest w H).
    - split; try reflexivity; try lia.
      + rewrite E2, <- (i_rel w H). lia.
  Qed.

  Lemma VI_emit e w : VI w -> VI (set_wal (emit e (wal w)) w) /\ R w (set_wal (emit e (wal w)) w).
  Proof. intros []. split; [split; assumption|split; cbn; unfold total_in, total_out, token_balance, released_erc20; cbn; lia]. Qed.

  Definition good (k : M W error unit) : Prop :=
    forall w, VI w -> match k w with (Ok _, w') => VI w' /\ R w w' | _ => True end.

  Lemma good_release k : good k -> good (release_eth x start duration k).
  Proof.
    intros Hk w H. rewrite (release_eq k w H). destruct ((tin w <? two256) && fits (tin w) (now w)) eqn:EF; [|exact I].
    pose proof (total_eq w H). pose proof (eth_bal_range w H). pose proof (i_range w H).
    pose proof (V_bounds start duration (tin w) (now w) ltac:(lia)) as HV.
    destruct (VI_paid w H ltac:(lia)) as (HP & R1 & _). specialize (Hk _ HP).
    destruct (k (paid w)) as [[[]|[]|] w']; try exact I. destruct Hk as [HP2 R2].
    destruct (VI_emit (EtherReleased (V (tin w) (now w) - released_eth w)) w' HP2) as [H3 R3].
    split; [exact H3|]. eapply R_trans; [exact R1|]. eapply R_trans; [exact R2|exact R3].
  Qed.

  (** *** Tokens *)
  Lemma treleasable_eq w : VI w ->
    releasable_erc20 x start duration token w =
    (let total := tbal w + trel w in
     if (total <? two256) && fits total (now w) then Ok (V total (now w) - trel w) else Panic, w).
  Proof.
    intros H. pose proof (i_trange w H). pose proof (i_tvest w H).
    pose proof (bal_u256 _ this (i_asset w H)) as Hb. unfold is_u256 in Hb.
    unfold releasable_erc20, vested_amount_erc20, bind, gets, cadd. cbn [self Erc20World.honest_ext].
    rewrite (balance_of_honest this token this (toks w) (i_asset w H)).
    change (Erc20.balance_of (Erc20World.asset_st (toks w)) this) with (tbal w) in *. cbv zeta.
    destruct (Z.ltb_spec (tbal w + trel w) two256); [|reflexivity]. cbn [andb]. rewrite schedule_eq by assumption.
    destruct (fits (tbal w + trel w) (now w)); [|reflexivity]. unfold ret. rewrite wsub_small; [reflexivity|].
    pose proof (V_bounds start duration (tbal w + trel w) (now w) ltac:(lia)). lia.
  Qed.

  Lemma trelease_cases w : VI w ->
    let total := tbal w + trel w in
    let amount := V total (now w) - trel w in
    (total < two256 /\ fits total (now w) = true /\ owner w <> 0 /\ exists u' w',
       release_erc20 x start duration token w = (Ok tt, w') /\
       w' = mkw (emit (ERC20Released token amount) (set_erc20_released token (V total (now w)) (wal w)))
                (nat_ w) (now w) (Erc20World.set_asset u' (toks w)) /\
       moved (Erc20World.asset_st (toks w)) u' this (owner w) amount /\
       same_allowances (Erc20World.asset_st (toks w)) u' /\ Inv u' /\ 0 <= amount <= tbal w) \/
    (~ (total < two256 /\ fits total (now w) = true /\ owner w <> 0) /\
     is_ok (fst (release_erc20 x start duration token w)) = false).
  Proof.
    intros H total amount.
    pose proof (i_trange w H). pose proof (i_tvest w H) as Hv. fold total in Hv.
    pose proof (bal_u256 _ this (i_asset w H)) as Hb. unfold is_u256 in Hb.
    change (Erc20.balance_of (Erc20World.asset_st (toks w)) this) with (tbal w) in Hb.
    assert (0 <= total) by (unfold total; lia).
    pose proof (V_bounds start duration total (now w) ltac:(lia)) as HV.
    assert (Ham : 0 <= amount <= tbal w) by (unfold amount, total in *; lia).
    destruct ((total <? two256) && fits total (now w)) eqn:EF.
    2: { right. split; [intros (A & B & _); rewrite B, andb_true_r in EF; lia|].
         unfold release_erc20. unfold bind at 1. rewrite (treleasable_eq w H). cbv zeta. fold total. rewrite EF. reflexivity. }
    assert (Eq : release_erc20 x start duration token w =
      match safe_transfer x token (owner w) amount (toks w) with
      | (Ok _, t') => (Ok tt, mkw (emit (ERC20Released token amount) (set_erc20_released token (V total (now w)) (wal w)))
                (nat_ w) (now w) t')
      | (Err e, t') => (Err (ErrSafeErc20 e), mkw (set_erc20_released token (V total (now w)) (wal w)) (nat_ w) (now w) t')
      | (Panic, t') => (Panic, mkw (set_erc20_released token (V total (now w)) (wal w)) (nat_ w) (now w) t')
      end).
    { unfold release_erc20. unfold bind at 1. rewrite (treleasable_eq w H). cbv zeta. fold total. rewrite EF.
      unfold bind, gets, cadd, modify. fold amount.
      replace (trel w + amount) with (V total (now w)) by (unfold amount; lia).
      replace (V total (now w) <? two256) with true by lia.
      unfold zoom, map_err. cbn [toks set_wal wal]. change (Ownable.owner (own (wal w))) with (owner w).
      destruct (safe_transfer x token (owner w) amount (toks w)) as [[[]|e|] t']; reflexivity. }
    apply andb_prop in EF. destruct EF as [EF1 EF2]. rewrite Eq.
    destruct (safe_transfer_honest this token (owner w) amount (toks w) (i_asset w H) ltac:(unfold is_u256; lia))
      as [(_ & B1 & B2 & u' & E & HI' & Hm & Hal)|(Hno & E)]; rewrite E.
    - left. split; [lia|]. split; [exact EF2|]. split; [exact B1|]. exists u'. eexists. split; [reflexivity|].
      split; [reflexivity|]. split; [exact Hm|]. split; [exact Hal|]. split; [exact HI'|exact Ham].
    - right. split; [|reflexivity]. intros (_ & _ & Ho). apply Hno. split; [exact Hthis|]. split; [exact Ho|]. apply Ham.
  Qed.

  Lemma other_token w t : t <> token -> release_erc20 x start duration t w = (Err (InvalidToken t), w).
  Proof.
    intros Hne. unfold release_erc20, releasable_erc20, vested_amount_erc20, bind, gets, SafeErc20.balance_of.
    cbn [raw_call Erc20World.honest_ext self]. replace (t =? token) with false by lia. reflexivity.
  Qed.

  Lemma good_trelease t : good (release_erc20 x start duration t).
  Proof.
    intros w H. destruct (Z.eq_dec t token) as [->|Hne]; [|rewrite other_token by exact Hne; exact I].
    destruct (trelease_cases w H) as [(T1 & T2 & T3 & u' & w' & E & -> & Hm & Hal & HI & Ham)|(_ & E)].
    2: { destruct (release_erc20 x start duration token w) as [[[]|e|] w']; [discriminate|exact I|exact I]. }
    rewrite E. clear E. set (total := tbal w + trel w) in *. set (amount := V total (now w) - trel w) in *.
    pose proof (i_trange w H). pose proof (i_tvest w H) as Hv. fold total in Hv.
    pose proof (bal_u256 _ this (i_asset w H)) as Hb. unfold is_u256 in Hb.
    change (Erc20.balance_of (Erc20World.asset_st (toks w)) this) with (tbal w) in Hb.
    pose proof (V_bounds start duration total (now w) ltac:(unfold total; lia)) as HV.
    match goal with |- VI ?X /\ _ => set (w' := X) end.
    assert (Et : trel w' = V total (now w)). { unfold released_erc20, w'; cbn. apply mget_set_eq. }
    assert (Eb : tbal w' = tbal w - (if owner w =? this then 0 else amount)).
    { unfold token_balance, w', asset_bal; cbn. destruct Hm as [Hm _]. rewrite (Hm this Hthis). unfold delta.
      rewrite Z.eqb_refl.
      fold (asset_bal (toks w) this). fold (tbal w). destruct (Z.eqb_spec this (owner w)), (Z.eqb_spec (owner w) this); lia. }
    split.
    - destruct H as [N1 N2 N3 N4 N5 N6 N8 N9 _ _].
      split; try assumption.
      + intros sp. change (Erc20World.asset_st (toks w')) with u'. rewrite Hal. apply N9.
      + rewrite Et. lia.
      + rewrite Et, Eb. change (now w') with (now w). apply V_mono_total. unfold amount, total in *. destruct (owner w =? this); lia.
    - split; try reflexivity; try lia. rewrite Et, Eb. unfold amount, total in *. destruct (owner w =? this); lia.
  Qed.

  (** *** Everything else *)
  Lemma good_send f t v : f <> this -> good (exec this token start duration (Send f t v)).
  Proof.
    intros Hf w H. cbn [exec]. destruct ((0 <=? v) && (v <=? balance_of (nat_ w) f)) eqn:E; [|exact I].
    set (w' := set_nat (send f t v (nat_ w)) w).
    assert (E1 : tin w' = tin w + (if t =? this then v else 0)) by (unfold total_in, w'; cbn; rewrite received_app; cbn; lia).
    assert (E2 : tout w' = tout w). { unfold total_out, w'; cbn. rewrite paid_app; cbn. replace (f =? this) with false by lia. lia. }
    assert (E3 : tin w <= tin w') by (rewrite E1; destruct (t =? this); lia).
    pose proof (total_eq w H). pose proof (eth_bal_range w H). pose proof (i_range w H).
    split.
    - destruct H as [N1 N2 N3 N4 N5 N6 N8 N9 N10 N11]. split; try assumption.
      + apply send_nonneg; [exact N1|lia].
      + unfold w'; cbn [nat_ set_nat]. rewrite send_sum. exact N2.
      + rewrite E1, E2. unfold eth_balance, w'; cbn [nat_ set_nat]. rewrite send_bal.
        replace (this =? f) with false by lia. fold (eth_balance this w). rewrite N3.
        destruct (Z.eqb_spec this t), (Z.eqb_spec t this); lia.
      + rewrite E2. exact N4.
      + change (now w') with (now w). change (released_eth w') with (released_eth w).
        pose proof (V_mono_total start duration (tin w) (tin w') (now w) ltac:(lia)). lia.
    - split; try lia; try reflexivity; cbn; unfold token_balance, released_erc20; cbn; lia.
  Qed.

  Lemma good_own c o : good (ownership c o).
  Proof.
    intros w H. unfold ownership, zoom, map_err.
    destruct (Ownable.exec c o (own (wal w))) as [[[]|e|] s'] eqn:E; try exact I. split.
    - destruct H. split; assumption.
    - split; cbn; unfold total_in, total_out, token_balance, released_erc20; cbn; lia.
  Qed.

  Lemma good_token c o : act_wf this (Token c o) -> good (exec this token start duration (Token c o)).
  Proof.
    intros (Hc & Hw & Ho) w H. cbn [exec]. unfold zoom, map_err, Erc20World.on_asset, zoom.
    destruct (third_party_step this (Erc20World.asset_st (toks w)) c o (i_asset w H) (i_appr w H) Hthis Hc Hw Ho) as (I1 & I2 & I3).
    unfold Erc20.step, tx in I1, I2, I3. cbn [fst snd] in *.
    destruct (Erc20.exec c o (Erc20World.asset_st (toks w))) as [[[]|e|] u'] eqn:E; try exact I. cbn [snd] in *.
    set (w' := set_toks _ w).
    assert (Eb : tbal w <= tbal w') by exact I3.
    pose proof (i_trange w H). pose proof (bal_u256 _ this (i_asset w H)) as Hb. unfold is_u256 in Hb.
    change (Erc20.balance_of (Erc20World.asset_st (toks w)) this) with (tbal w) in Hb.
    split.
    - destruct H as [N1 N2 N3 N4 N5 N6 N8 N9 N10 N11]. split; try assumption.
      change (trel w') with (trel w). change (now w') with (now w).
      pose proof (V_mono_total start duration (tbal w + trel w) (tbal w' + trel w) (now w) ltac:(lia)). lia.
    - split; try reflexivity; try lia; change (trel w') with (trel w); lia.
  Qed.

  Scheme act_mut := Induction for act Sort Prop with prog_mut := Induction for prog Sort Prop.
  Lemma good_tx k : good k -> forall w, VI w -> VI (snd (tx k w)) /\ R w (snd (tx k w)).
  Proof.
    intros Hk w H. specialize (Hk w H). unfold tx. destruct (k w) as [[[]|e|] w']; cbn [snd];
      [exact Hk|split; [exact H|apply R_refl]|split; [exact H|apply R_refl]].
  Qed.
  Combined Scheme act_prog_ind from act_mut, prog_mut.
  Lemma run_then m a p w : run_prog this token start duration (Then m a p) w =
    match tx (exec this token start duration a) w with
    | (Ok _, w') => run_prog this token start duration p w'
    | (_, w') => if m then (Err (CallbackReverted []), w') else run_prog this token start duration p w'
    end.
  Proof. reflexivity. Qed.
  Lemma all_good : (forall a, act_wf this a -> good (exec this token start duration a)) /\
                   (forall p, prog_wf this p -> good (run_prog this token start duration p)).
  Proof.
    apply act_prog_ind.
    - intros p IH Hp. exact (good_release _ (IH Hp)).
    - intros t _. apply good_trelease.
    - intros c o _. apply good_own.
    - intros f t v Hf. apply good_send. exact Hf.
    - intros c o Hw. apply good_token. exact Hw.
    - intros _ w H. split; [exact H|apply R_refl].
    - intros d _ w H. exact I.
    - intros m a IHa p IH Hw w H. cbn [prog_wf] in Hw. destruct Hw as [Ha Hp]. rewrite run_then.
      pose proof (good_tx _ (IHa Ha) w H) as [H1 R1].
      destruct (tx (exec this token start duration a) w) as [r w'] eqn:E; cbn [snd] in H1, R1.
      specialize (IH Hp w' H1).
      assert (HG : match run_prog this token start duration p w' with (Ok _, w2) => VI w2 /\ R w w2 | _ => True end).
      { destruct (run_prog this token start duration p w') as [[[]|e|] w2]; try exact I.
        destruct IH as [H2 R2]. split; [exact H2|eapply R_trans; eassumption]. }
      destruct r as [[]|e|]; [exact HG|destruct m; [exact I|exact HG]|destruct m; [exact I|exact HG]].
  Qed.

  (** *** Histories *)
  Lemma step_ok w c : VI w -> call_wf this c -> VI (step this token start duration w c) /\
    tin w <= tin (step this token start duration w c) /\ tout w <= tout (step this token start duration w c) /\
    trel w <= trel (step this token start duration w c) /\ now w <= now (step this token start duration w c).
  Proof.
    intros H Hc. destruct c as [a|d]; cbn [call_wf step] in *.
    - pose proof (good_tx _ (proj1 all_good a Hc) w H) as [H1 [] ]. split; [exact H1|]. lia.
    - pose proof (total_eq w H). pose proof (eth_bal_range w H). pose proof (i_range w H). pose proof (i_trange w H).
      pose proof (bal_u256 _ this (i_asset w H)) as Hb. unfold is_u256 in Hb.
      change (Erc20.balance_of (Erc20World.asset_st (toks w)) this) with (tbal w) in Hb.
      split.
      + destruct H as [N1 N2 N3 N4 N5 N6 N8 N9 N10 N11]. split; try assumption; cbn [now].
        * match goal with |- _ <= V (tin ?w') _ => change (tin w') with (tin w) end.
          match goal with |- released_eth ?w' <= _ => change (released_eth w') with (released_eth w) end.
          pose proof (V_mono_time start duration (tin w) (now w) (now w + d) ltac:(lia) ltac:(lia)). lia.
        * match goal with |- _ <= V (tbal ?w' + _) _ => change (tbal w') with (tbal w); change (trel w') with (trel w) end.
          pose proof (V_mono_time start duration (tbal w + trel w) (now w) (now w + d) ltac:(lia) ltac:(lia)). lia.
      + cbn [now]. unfold total_in, total_out, released_erc20; cbn. lia.
  Qed.
  Lemma run_ok h w : Forall (call_wf this) h -> VI w -> VI (run this token start duration h w) /\
    tin w <= tin (run this token start duration h w) /\ tout w <= tout (run this token start duration h w) /\
    trel w <= trel (run this token start duration h w) /\ now w <= now (run this token start duration h w).
  Proof.
    intros Hh. revert w. induction Hh as [|c h Hc Hh IH]; intros w H; [split; [exact H|cbn; lia]|].
    destruct (step_ok w c H Hc) as (H1 & L1 & L2 & L3 & L4). destruct (IH _ H1) as (H2 & K1 & K2 & K3 & K4).
    change (run this token start duration (c :: h) w) with (run this token start duration h (step this token start duration w c)).
    split; [exact H2|]. lia.
  Qed.
  Lemma initial_VI w : initial this w -> VI w.
  Proof.
    intros (o & t0 & m & Ht & Hn & Hsum & Hm & ->). split; try assumption.
    - reflexivity.
    - split; [discriminate|reflexivity].
    - change (0 <= V 0 t0). apply (V_bounds start duration 0 t0). lia.
    - apply inv_init.
    - intros sp. reflexivity.
    - unfold released_erc20; cbn. rewrite mget_empty. split; [lia|reflexivity].
    - unfold released_erc20; cbn. rewrite mget_empty. apply V_bounds. unfold token_balance, asset_bal, Erc20.balance_of; cbn. rewrite mget_empty. lia.
  Qed.
  Lemma reachable_VI w : reachable this token start duration w -> VI w.
  Proof. intros (w0 & h & Hi & Hh & ->). apply run_ok; [exact Hh|apply initial_VI, Hi]. Qed.
End wallet.
