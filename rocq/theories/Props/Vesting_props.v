(** C18-C21: the vesting wallet. *)
From Verif.Base Require Import Prelude Maps Bytes.
From Verif.Model Require Ownable Erc20 SafeErc20 Erc20World Vesting.
From Verif.Spec Require Import Erc20_spec World_spec Erc4626_spec Vesting_spec.
From Verif.Proofs Require Import Erc20_inv World_lemmas Erc4626_lemmas Vesting_lemmas.
From stdpp Require Import gmap.
Import SafeErc20 Vesting.
#[global] Open Scope Z_scope.

Section schedule.
  Context (start duration : Z) (Hs : is_u64 start) (Hd : is_u64 duration).

  (** ** C18 *)
  (** The scaled product fits whenever it is computed. *)
  Definition product_fits (total t : Z) : Prop :=
    start <= t < start + duration -> total * (t - start) < two256.

  Lemma fits_iff total t : fits start duration total t = true <-> product_fits total t.
  Proof.
    unfold fits, product_fits. destruct (Z.ltb_spec t start), (Z.leb_spec (start + duration) t); cbn [orb]; split; try lia; try (intros; reflexivity).
  Qed.

  Theorem c18_schedule_exact : forall S (w : world S) total t,
    snd (vesting_schedule start duration total t w) = w /\
    (forall v, fst (vesting_schedule start duration total t w) = Ok v <-> vested start duration total t v /\ product_fits total t) /\
    (fst (vesting_schedule start duration total t w) = Panic <-> ~ product_fits total t) /\
    (forall e, fst (vesting_schedule start duration total t w) <> Err e).
  Proof.
    intros S w total t. rewrite schedule_eq by assumption. cbn [fst snd]. split; [reflexivity|].
    pose proof (fits_iff total t) as HF. pose proof (fun v => V_vested start duration total t v) as HV.
    destruct (fits start duration total t).
    - split; [|split; [|discriminate]].
      + intros v. rewrite HV. split; [intros H; injection H as <-; split; [reflexivity|apply HF; reflexivity]|intros [-> _]; reflexivity].
      + split; [discriminate|]. intros H. exfalso. apply H, HF. reflexivity.
    - split; [|split; [|discriminate]].
      + intros v. split; [discriminate|]. intros [_ H]. apply HF in H. discriminate.
      + split; [|reflexivity]. intros _ H. apply HF in H. discriminate.
  Qed.
  Theorem c18_vested_determined : forall total t, exists v,
    vested start duration total t v /\ forall v', vested start duration total t v' -> v' = v.
  Proof.
    intros total t. exists (V start duration total t). split; [apply V_vested; reflexivity|]. intros v' H. apply V_vested in H. exact H.
  Qed.
  Theorem c18_vested_bounds : forall total t v, 0 <= total -> vested start duration total t v ->
    0 <= v <= total /\ (t < start -> v = 0) /\ (start <= t -> start + duration <= t -> v = total).
  Proof.
    intros total t v H Hv. pose proof Hv as Hv'. apply V_vested in Hv'. subst v. split; [apply V_bounds, H|].
    unfold V. split; [intros; replace (t <? start) with true by lia; reflexivity|].
    intros. replace (t <? start) with false by lia. replace (start + duration <=? t) with true by lia. reflexivity.
  Qed.
  Theorem c18_vested_monotone : forall total total' t t' v v', 0 <= total <= total' -> t <= t' ->
    vested start duration total t v -> vested start duration total' t' v' -> v <= v'.
  Proof. intros total total' t t' v v' H Ht Hv Hv'. apply V_vested in Hv, Hv'. subst. apply V_mono; assumption. Qed.
End schedule.
Print Assumptions c18_schedule_exact.
Print Assumptions c18_vested_determined.
Print Assumptions c18_vested_bounds.
Print Assumptions c18_vested_monotone.
Example c18_nonvacuous : vested 1000 300 90 1100 30 /\ vested 1000 300 91 1100 30 /\ vested 1000 0 91 1000 91 /\ vested 1000 300 91 999 0.
Proof. unfold vested, is_floor. repeat split; lia. Qed.

Section wallet.
  Context (this token start duration : Z) (Hs : is_u64 start) (Hd : is_u64 duration) (Hthis : this <> 0).
  Notation x := (Erc20World.honest_ext this token).
  Notation W := (world Erc20World.world).
  Notation reachable := (Vesting_spec.reachable this token start duration).
  Notation vested := (vested start duration).
  Notation tin := (total_in this).
  Notation tout := (total_out this).
  Notation ebal := (eth_balance this).
  Notation tbal := (token_balance this).
  Notation exec := (exec this token start duration).
  Notation run := (run this token start duration).

  (** ** C19: Ether *)
  Theorem c19_conservation : forall w, reachable w ->
    released_eth w = tout w /\ released_eth w + ebal w = tin w /\ 0 <= ebal w.
  Proof.
    intros w Hr. apply reachable_VI in Hr; try assumption. pose proof (total_eq _ _ _ _ w Hr). pose proof (eth_bal_range _ _ _ _ w Hr).
    split; [apply (i_rel _ _ _ _ _ Hr)|]. lia.
  Qed.
  Theorem c19_never_more_than_vested : forall w v, reachable w -> vested (tin w) (now w) v -> released_eth w <= v.
  Proof. intros w v Hr Hv. apply reachable_VI in Hr; try assumption. apply V_vested in Hv. subst v. apply (i_vest _ _ _ _ _ Hr). Qed.
  Theorem c19_released_never_decreases : forall w h, reachable w -> Forall (call_wf this) h ->
    released_eth w <= released_eth (run h w) /\ released_erc20 token w <= released_erc20 token (run h w).
  Proof.
    intros w h Hr Hh. apply reachable_VI in Hr; try assumption.
    destruct (run_ok this token start duration Hs Hd Hthis h w Hh Hr) as (H1 & _ & L & L' & _).
    rewrite (i_rel _ _ _ _ _ Hr), (i_rel _ _ _ _ _ H1). split; assumption.
  Qed.
  (** An owner that just takes the money gets exactly vested - released, now. *)
  Theorem c19_release_exact : forall w v, reachable w -> vested (tin w) (now w) v ->
    let amount := v - released_eth w in
    (is_ok (fst (exec (ReleaseEth Accept) w)) = true <-> tin w < two256 /\ product_fits start duration (tin w) (now w)) /\
    forall w', exec (ReleaseEth Accept) w = (Ok tt, w') ->
      0 <= amount /\
      transfers (nat_ w') = transfers (nat_ w) ++ [(this, owner w, amount)] /\
      (forall a, balance_of (nat_ w') a = balance_of (nat_ w) a - delta a this amount + delta a (owner w) amount) /\
      released_eth w' = v /\ evs (wal w') = evs (wal w) ++ [EtherReleased amount] /\
      own (wal w') = own (wal w) /\ erc20_released (wal w') = erc20_released (wal w) /\
      toks w' = toks w /\ now w' = now w.
  Proof.
    intros w v Hr Hv amount. apply reachable_VI in Hr; try assumption. apply V_vested in Hv.
    cbn [Vesting.exec run_prog]. rewrite (release_eq _ _ _ _ Hs Hd _ w Hr).
    pose proof (i_vest _ _ _ _ _ Hr) as Hle. rewrite <- Hv in *. pose proof (fits_iff start duration (tin w) (now w)) as HF. split.
    - destruct (Z.ltb_spec (tin w) two256); cbn [andb].
      + rewrite <- HF. destruct (fits start duration (tin w) (now w)); cbn [fst is_ok ret]; split; try tauto; try discriminate.
      + split; [discriminate|lia].
    - intros w' E. destruct ((tin w <? two256) && fits start duration (tin w) (now w)); [|discriminate]. unfold ret in E. injection E as <-.
      split; [unfold amount; lia|]. unfold paid, advance; cbn. rewrite <- Hv. fold amount. split; [reflexivity|]. split.
      { intros a. fold (send this (owner w) amount (nat_ w)). rewrite send_bal. unfold delta. reflexivity. }
      repeat split; reflexivity.
  Qed.
  Theorem c19_second_release_pays_nothing : forall w w1 w2, reachable w ->
    exec (ReleaseEth Accept) w = (Ok tt, w1) -> owner w <> this -> exec (ReleaseEth Accept) w1 = (Ok tt, w2) ->
    transfers (nat_ w2) = transfers (nat_ w1) ++ [(this, owner w, 0)] /\ forall a, balance_of (nat_ w2) a = balance_of (nat_ w1) a.
  Proof.
    intros w w1 w2 Hr E1 Ho E2.
    destruct (c18_vested_determined start duration (tin w) (now w)) as (v & Hv & _).
    destruct (proj2 (c19_release_exact w v Hr Hv) w1 E1) as (_ & T1 & B1 & R1 & _ & O1 & _ & _ & N1).
    assert (Hr1 : reachable w1).
    { destruct Hr as (w0 & h & Hi & Hh & ->). exists w0, (h ++ [Do (ReleaseEth Accept)]). split; [exact Hi|].
      split; [apply Forall_app; split; [exact Hh|constructor; [exact I|constructor]]|].
      assert (Er : run (h ++ [Do (ReleaseEth Accept)]) w0 = Vesting.step this token start duration (run h w0) (Do (ReleaseEth Accept)))
        by (unfold Vesting.run; rewrite fold_left_app; reflexivity).
      rewrite Er. unfold Vesting.step, tx. rewrite E1. reflexivity. }
    assert (Hin : tin w1 = tin w). { unfold total_in. rewrite T1, received_app. cbn [received]. replace (owner w =? this) with false by lia. lia. }
    rewrite <- Hin, <- N1 in Hv.
    destruct (proj2 (c19_release_exact w1 v Hr1 Hv) w2 E2) as (_ & T2 & B2 & _).
    replace (v - released_eth w1) with 0 in * by lia.
    assert (owner w1 = owner w) as Eo by (unfold owner; rewrite O1; reflexivity). rewrite Eo in *. split; [exact T2|].
    intros a. rewrite B2. unfold delta. destruct (a =? this), (a =? owner w); lia.
  Qed.
  Theorem c19_empty_after_end : forall w w', reachable w -> start <= now w -> start + duration <= now w -> owner w <> this ->
    exec (ReleaseEth Accept) w = (Ok tt, w') -> ebal w' = 0.
  Proof.
    intros w w' Hr N1 N2 Ho E.
    assert (Hv : vested (tin w) (now w) (tin w)) by (right; right; auto).
    destruct (proj2 (c19_release_exact w _ Hr Hv) w' E) as (_ & _ & B & _).
    destruct (c19_conservation w Hr) as (_ & C & _). unfold eth_balance. rewrite B. unfold delta. rewrite Z.eqb_refl.
    replace (this =? owner w) with false by lia. fold (ebal w). lia.
  Qed.

  (** ** C19: ERC-20 tokens *)
  Theorem c19_token_never_more_than_vested : forall w v, reachable w ->
    vested (tbal w + released_erc20 token w) (now w) v -> 0 <= released_erc20 token w <= v.
  Proof.
    intros w v Hr Hv. apply reachable_VI in Hr; try assumption. apply V_vested in Hv. subst v.
    split; [apply (i_trange _ _ _ _ _ Hr)|apply (i_tvest _ _ _ _ _ Hr)].
  Qed.
  Theorem c19_token_release_exact : forall w v, reachable w ->
    let total := tbal w + released_erc20 token w in
    vested total (now w) v ->
    let amount := v - released_erc20 token w in
    (is_ok (fst (exec (ReleaseToken token) w)) = true <->
       total < two256 /\ product_fits start duration total (now w) /\ owner w <> 0) /\
    forall w', exec (ReleaseToken token) w = (Ok tt, w') ->
      0 <= amount <= tbal w /\
      moved (Erc20World.asset_st (toks w)) (Erc20World.asset_st (toks w')) this (owner w) amount /\
      same_allowances (Erc20World.asset_st (toks w)) (Erc20World.asset_st (toks w')) /\
      released_erc20 token w' = v /\ (forall t, t <> token -> released_erc20 t w' = released_erc20 t w) /\
      evs (wal w') = evs (wal w) ++ [ERC20Released token amount] /\
      own (wal w') = own (wal w) /\ released_eth w' = released_eth w /\ nat_ w' = nat_ w /\ now w' = now w.
  Proof.
    intros w v Hr total Hv amount. apply reachable_VI in Hr; try assumption. apply V_vested in Hv. cbn [Vesting.exec].
    pose proof (fits_iff start duration total (now w)) as HF.
    pose proof (trelease_cases this token start duration Hs Hd Hthis w Hr) as HC. cbv zeta in HC. fold total in HC.
    destruct HC as [(T1 & T2 & T3 & u' & w' & E & E' & Hm & Hal & HI & Ham)|(N & E)].
    - rewrite E. split; [split; [intros _; split; [exact T1|]; split; [apply HF, T2|exact T3]|reflexivity]|].
      intros w1 E1. injection E1 as <-. rewrite <- Hv in E', Hm, Ham. fold amount in E', Hm, Ham. subst w'. cbn.
      split; [exact Ham|]. split; [exact Hm|]. split; [exact Hal|]. split; [unfold released_erc20; cbn; apply mget_set_eq|].
      split; [intros t Ht; unfold released_erc20; cbn; apply mget_set_ne; congruence|]. repeat split; reflexivity.
    - split; [|intros w' E1; rewrite E1 in E; discriminate].
      split; [rewrite E; discriminate|]. intros (A & B & C). exfalso. apply N. split; [exact A|]. split; [apply HF, B|exact C].
  Qed.
  Theorem c19_other_tokens_untouched : forall w t, t <> token ->
    exec (ReleaseToken t) w = (Err (InvalidToken t), w).
  Proof. intros w t Ht. apply other_token. exact Ht. Qed.

  (** ** C20: the owner's code may do anything while being paid *)
  Theorem c20_reentrant_release : forall w p w' v v', reachable w -> prog_wf this p ->
    exec (ReleaseEth p) w = (Ok tt, w') ->
    vested (tin w) (now w) v -> vested (tin w') (now w) v' ->
    now w' = now w /\ released_eth w' = tout w' /\ v <= tout w' <= v' /\ (tin w' = tin w -> tout w' = v).
  Proof.
    intros w p w' v v' Hr Hp E Hv Hv'. apply reachable_VI in Hr; try assumption. apply V_vested in Hv, Hv'.
    pose proof (proj1 (all_good this token start duration Hs Hd Hthis) (ReleaseEth p) Hp w Hr) as HG. rewrite E in HG.
    destruct HG as [H1 R1]. pose proof (r_now _ _ _ _ R1) as Hn. pose proof (i_rel _ _ _ _ _ H1) as HR. pose proof (i_vest _ _ _ _ _ H1) as HL.
    rewrite HR, Hn, <- Hv' in HL.
    assert (HG : v <= tout w').
    { change (exec (ReleaseEth p) w) with (release_eth x start duration (run_prog this token start duration p) w) in E.
      rewrite (release_eq _ _ _ _ Hs Hd _ w Hr) in E.
      destruct ((tin w <? two256) && fits start duration (tin w) (now w)) eqn:EF; [|discriminate].
      pose proof (total_eq _ _ _ _ w Hr). pose proof (eth_bal_range _ _ _ _ w Hr). pose proof (i_range _ _ _ _ _ Hr).
      pose proof (V_bounds start duration (tin w) (now w) ltac:(lia)) as HV.
      destruct (VI_paid this token start duration w Hr ltac:(lia)) as (HP & _ & Eo & _).
      pose proof (proj2 (all_good this token start duration Hs Hd Hthis) p Hp _ HP) as HK.
      destruct (run_prog this token start duration p (paid this start duration w)) as [[[]|[]|] w2]; try discriminate.
      destruct HK as [_ RK]. injection E as <-. pose proof (r_out _ _ _ _ RK) as HO. rewrite Eo, <- Hv in HO. exact HO. }
    split; [exact Hn|]. split; [exact HR|]. split; [lia|]. intros Hin. rewrite Hin in Hv'. lia.
  Qed.
  (** A refusing owner: nothing changes. *)
  Theorem c20_refused_payment_undone : forall w p, is_ok (fst (exec (ReleaseEth p) w)) = false ->
    Vesting.step this token start duration w (Do (ReleaseEth p)) = w.
  Proof.
    intros w p H. cbn [Vesting.step]. unfold tx. destruct (exec (ReleaseEth p) w) as [[[]|e|] w'] eqn:E; [discriminate| |]; reflexivity.
  Qed.
End wallet.
Print Assumptions c19_conservation.
Print Assumptions c19_never_more_than_vested.
Print Assumptions c19_released_never_decreases.
Print Assumptions c19_release_exact.
Print Assumptions c19_second_release_pays_nothing.
Print Assumptions c19_empty_after_end.
Print Assumptions c19_token_never_more_than_vested.
Print Assumptions c19_token_release_exact.
Print Assumptions c19_other_tokens_untouched.
Print Assumptions c20_reentrant_release.
Print Assumptions c20_refused_payment_undone.

(** Witness for C19/C20: wallet 100, start 1000, duration 100, owner 5. 90 comes in; at time
    1050 somebody releases and the owner re-enters release twice while being paid; the
    token side receives 40. *)
Definition demo_init : world Erc20World.world :=
  mkw (mkwal (Ownable.mk 5 []) 0 ∅ []) (mknat (mset ∅ 1 500) []) 900 Erc20World.winit.
Definition demo_hist : list call :=
  [Do (Send 1 100 90); Do (Token 9 (Erc20.OMint 1 100)); Do (Token 1 (Erc20.OTransfer 100 40)); Wait 150;
   Do (ReleaseEth (Then true (ReleaseEth (Then false (ReleaseEth Accept) Accept)) (Then true (Send 5 7 10) Accept)));
   Do (ReleaseToken 200)].
Definition demo_world := run 100 200 1000 100 demo_hist demo_init.
Example c19_c20_nonvacuous :
  reachable 100 200 1000 100 demo_world /\ released_eth demo_world = 45 /\ eth_balance 100 demo_world = 45 /\
  total_in 100 demo_world = 90 /\ balance_of (nat_ demo_world) 5 = 35 /\
  released_erc20 200 demo_world = 20 /\ token_balance 100 demo_world = 20 /\
  evs (wal demo_world) = [EtherReleased 0; EtherReleased 0; EtherReleased 45; ERC20Released 200 20] /\
  is_ok (fst (exec 100 200 1000 100 (ReleaseEth (Reject [])) demo_world)) = false /\
  is_ok (fst (exec 100 200 1000 100 (ReleaseEth Accept) demo_world)) = true.
Proof.
  split.
  - exists demo_init, demo_hist. split; [|split; [|reflexivity]].
    + exists 5, 900, (mset ∅ 1 500). split; [lia|]. split; [|split; [|split; [|reflexivity]]].
      * intros k. rewrite mget_set, mget_empty. destruct (decide _); lia.
      * vm_compute. reflexivity.
      * reflexivity.
    + assert (two256 > 100000) by reflexivity. unfold demo_hist.
      repeat apply Forall_cons_2; try apply Forall_nil_2; cbn; unfold Erc20.op_wf, is_u256, third_party_op; cbn;
        repeat split; try lia; try exact I; first [left; exact I | right; eauto].
  - repeat split; vm_compute; reflexivity.
Qed.

(** ** C21 *)

(** A token whose holders' balances can shrink: its state is the wallet's balance. *)
Definition shrinking : ext Z :=
  mkext Z 100 (fun _ => true)
    (fun _ c b => match c with
                  | CBalanceOf _ => Some (word b, b)
                  | CTransfer _ v => if v <=? b then Some (word 1, b - v) else None
                  | _ => None
                  end).
(** Half of 10 vested and released; then the token destroys the remaining 5. *)
Definition shrunk : world Z :=
  set_toks 0 (snd (tx (release_erc20 shrinking 1000 100 200)
    (mkw (mkwal (Ownable.mk 5 []) 0 ∅ []) (mknat ∅ []) 1050 10))).
Theorem c21_releasable_within_balance_refuted :
  exists (S : Type) (x : ext S) start duration token (w : world S) r,
    is_u64 start /\ is_u64 duration /\
    fst (releasable_erc20 x start duration token w) = Ok r /\
    SafeErc20.balance_of x token (self x) (toks w) = Some 0 /\ r > 0 /\
    fst (release_erc20 x start duration token w) = Panic.
Proof.
  exists Z, shrinking, 1000, 100, 200, shrunk, (2 ^ 256 - 3).
  split; [split; [discriminate|reflexivity]|]. split; [split; [discriminate|reflexivity]|].
  split; [vm_compute; reflexivity|]. split; [vm_compute; reflexivity|]. split; [reflexivity|]. vm_compute. reflexivity.
Qed.
Print Assumptions c21_releasable_within_balance_refuted.

(** What does hold, for every token: a release that succeeds pays exactly what releasable()
    announced, namely vested - released, which the reported balance covers; and the
    announcement is wrong exactly when less is vested than was released, in which case
    the release panics. *)
Theorem c21_successful_release_pays_releasable_partial :
  forall S (x : ext S) start duration token (w : world S) b v,
    is_u64 start -> is_u64 duration ->
    SafeErc20.balance_of x token (self x) (toks w) = Some b -> 0 <= b < two256 ->
    0 <= released_erc20 token w < two256 ->
    vested start duration (b + released_erc20 token w) (now w) v ->
    (v < released_erc20 token w -> is_ok (fst (release_erc20 x start duration token w)) = false) /\
    forall w', release_erc20 x start duration token w = (Ok tt, w') ->
      let amount := v - released_erc20 token w in
      fst (releasable_erc20 x start duration token w) = Ok amount /\ 0 <= amount <= b /\
      released_erc20 token w' = v /\ evs (wal w') = evs (wal w) ++ [ERC20Released token amount] /\
      safe_transfer x token (Ownable.owner (own (wal w))) amount (toks w) = (Ok tt, toks w').
Proof.
  intros S x start duration token w b v Hs Hd Hb Hbr Hr Hv. apply V_vested in Hv.
  set (rel := released_erc20 token w) in *.
  pose proof (V_bounds start duration (b + rel) (now w) ltac:(lia)) as HV. rewrite <- Hv in HV.
  assert (HR : releasable_erc20 x start duration token w =
    (if (b + rel <? two256) && fits start duration (b + rel) (now w) then Ok (wsub v rel) else Panic, w)).
  { unfold releasable_erc20, vested_amount_erc20, bind, gets, cadd. rewrite Hb. fold rel.
    destruct (b + rel <? two256); [|reflexivity]. rewrite schedule_eq by assumption. cbn [andb].
    destruct (fits start duration (b + rel) (now w)); [|reflexivity]. rewrite <- Hv. reflexivity. }
  unfold release_erc20. rewrite HR. unfold bind. rewrite HR.
  destruct ((b + rel <? two256) && fits start duration (b + rel) (now w)) eqn:EF.
  2: { split; [reflexivity|discriminate]. }
  apply andb_prop in EF. destruct EF as [EF _]. unfold gets, cadd. fold rel.
  destruct (Z.ltb_spec v rel) as [Hlt|Hge].
  - assert (Ew : wsub v rel = v - rel + two256).
    { unfold wsub. rewrite <- (Z.mod_add _ 1) by discriminate. apply Z.mod_small. lia. }
    rewrite Ew. replace (rel + (v - rel + two256) <? two256) with false by lia. split; [reflexivity|discriminate].
  - rewrite wsub_small by lia. replace (rel + (v - rel) <? two256) with true by lia. split; [lia|].
    unfold modify, zoom, map_err. cbn [toks set_wal wal].
    intros w' E. destruct (safe_transfer x token (Ownable.owner (own (wal w))) (v - rel) (toks w)) as [[[]|e|] t'] eqn:ET; try discriminate.
    injection E as <-. cbv zeta. split; [reflexivity|]. split; [lia|]. split; [unfold released_erc20; cbn; rewrite mget_set_eq; lia|].
    split; [reflexivity|]. reflexivity.
Qed.
Print Assumptions c21_successful_release_pays_releasable_partial.
(** For Ether and honest tokens releasable() is right, see C19; here the views. *)
Theorem c21_views_exact_on_honest_assets_partial :
  forall this token start duration w v vt, is_u64 start -> is_u64 duration -> this <> 0 ->
    Vesting_spec.reachable this token start duration w ->
    vested start duration (total_in this w) (now w) v ->
    vested start duration (token_balance this w + released_erc20 token w) (now w) vt ->
    let x := Erc20World.honest_ext this token in
    (forall r, fst (releasable_eth x start duration w) = Ok r -> r = v - released_eth w /\ 0 <= r <= eth_balance this w) /\
    (forall r, fst (releasable_erc20 x start duration token w) = Ok r -> r = vt - released_erc20 token w /\ 0 <= r <= token_balance this w).
Proof.
  intros this token start duration w v vt Hs Hd Ht Hr Hv Hvt x. apply reachable_VI in Hr; try assumption.
  apply V_vested in Hv, Hvt. unfold x. rewrite (releasable_eq _ _ _ _ Hs Hd w Hr), (treleasable_eq _ _ _ _ Hs Hd w Hr). cbv zeta. cbn [fst].
  rewrite <- Hv, <- Hvt. pose proof (total_eq _ _ _ _ w Hr). pose proof (eth_bal_range _ _ _ _ w Hr). pose proof (i_range _ _ _ _ _ Hr).
  pose proof (i_trange _ _ _ _ _ Hr). pose proof (bal_u256 _ this (i_asset _ _ _ _ _ Hr)) as Hb. unfold is_u256 in Hb.
  change (Erc20.balance_of (Erc20World.asset_st (toks w)) this) with (token_balance this w) in Hb.
  pose proof (V_bounds start duration (total_in this w) (now w) ltac:(lia)).
  pose proof (V_bounds start duration (token_balance this w + released_erc20 token w) (now w) ltac:(lia)).
  pose proof (i_vest _ _ _ _ _ Hr). pose proof (i_tvest _ _ _ _ _ Hr).
  split; intros r E; destruct (_ && _); try discriminate; injection E as <-; (split; [reflexivity|lia]).
Qed.
Print Assumptions c21_views_exact_on_honest_assets_partial.
