(** C93: bytes in, bytes out for the vesting-wallet example, with its [#[receive]], money, time
    and a token. *)
From Verif.Base Require Import Prelude Bytes Keccak Maps.
From stdpp Require Import gmap.
From Coq Require Import String List.
From Verif.Model Require Import Introspection Router Entry EntryErc20 EntryVault EntryVesting.
From Verif.Model Require SolAbi Ownable Erc20 SafeErc20 Erc20World Vesting.
From Verif.Spec Require Import Router_spec SolAbi_spec LogMeaning_spec Entry_spec Ledger_spec EntryVault_spec EntryVesting_spec.
From Verif.Spec Require World_spec Vesting_spec.
From Verif.Proofs Require Import Router_lemmas Entry_lemmas Ledger_lemmas EntryVault_lemmas EntryVesting_lemmas.
From Verif.Proofs Require Erc20_inv World_lemmas Vesting_lemmas.
From Verif.Props Require Import SolAbi_props.
From Verif.Props Require EntryNft_props.
Import SolAbi Erc20World Vesting Vesting_spec.
#[global] Open Scope Z_scope.
Local Open Scope list_scope.
Local Open Scope Z_scope.
Opaque keccak256.

Section wallet.
  Context (this coin start duration : Z) (Hup : set_up this coin start duration).
  Local Notation W := (Vesting.world Erc20World.world).
  Local Notation VI := (Vesting_lemmas.VI this coin start duration).
  Local Notation xb := (bytes_ext this coin).
  Local Notation xh := (honest_ext this coin).
  Local Notation C := (ExampleWallet this coin start duration).
  Local Notation call := (wallet_call this coin start duration).
  Local Notation V := (vested_part start duration).
  Local Notation countable := (countable start duration).
  Local Notation ideal := (ideal this coin start duration).
  Local Notation Good := (Good this coin start duration).
  Local Notation agree := (agree coin).
  Local Notation shows := (shows_purse this coin call ether clock).
  Local Notation does := (does this coin start duration).

  Lemma up_this : is_address this. Proof. apply Hup. Qed.
  Lemma up_zero : this <> 0. Proof. apply Hup. Qed.
  Lemma up_coin : is_address coin. Proof. apply Hup. Qed.
  Lemma up_ne : this <> coin. Proof. apply Hup. Qed.
  Lemma up_start : is_u64 start. Proof. destruct Hup as (_ & _ & _ & _ & H & _). exact H. Qed.
  Lemma up_duration : is_u64 duration. Proof. destruct Hup as (_ & _ & _ & _ & _ & H). exact H. Qed.
  Definition wish_ok w b p c r G A Ha Hc Hr : does w p (wish_to this coin r) c (wish_value r) (wish_data r) (ideal p c r b) :=
    wish_does this coin start duration up_this up_zero up_coin up_ne up_start up_duration w b p c r G A Ha Hc Hr.

  (** *** The getters *)
  Ltac reads p sig l f :=
    refine (eq_trans (call_words this coin start duration p sig l _ _ "VestingWallet"%string f _ _ _ _) _);
    [vm_compute; reflexivity|vm_compute; reflexivity|clear Hup; types|reflexivity|].
  Lemma ask_owner p c w : call p this c 0 (calldata "owner()" []) w = (Returned (word (owner w)), w).
  Proof. change (@nil val) with (map Word []). reads p "owner()"%string (@nil Z) (fn "owner" []). rewrite <- one_word. reflexivity. Qed.
  Lemma ask_released p c w : call p this c 0 (calldata "released()" []) w = (Returned (word (released_eth w)), w).
  Proof. change (@nil val) with (map Word []). reads p "released()"%string (@nil Z) (fn_as "released" "released_eth" []). rewrite <- one_word. reflexivity. Qed.
  Lemma ask_released_token p c w t : is_address t -> call p this c 0 (calldata "released(address)" [Word t]) w = (Returned (word (released_erc20 t w)), w).
  Proof. intros H. change [Word t] with (map Word [t]). reads p "released(address)"%string [t] (fn_as "released" "released_erc20" [Address]). rewrite <- one_word. reflexivity. Qed.
  Lemma ask_coin p c d r w : entry Coin c 0 d (asset_st (toks w)) = (r, asset_st (toks w)) -> call p coin c 0 d w = (r, w).
  Proof. intros E. rewrite (coin_call_eq this coin start duration up_ne), E. cbn [fst snd]. rewrite same_toks. reflexivity. Qed.
  Lemma one_number a b (w : W) : is_u256 a -> is_u256 b -> (Returned (word a), w) = (Returned (word b), w) -> b = a.
  Proof. intros Ha Hb E. assert (K : word a = word b) by congruence. symmetry. exact (word_inj _ _ Ha Hb K). Qed.
  Lemma shows_agree w b : Good w -> purse_fits b -> (shows w b <-> agree w b).
  Proof.
    intros G (Fo & Fp & Fc & Fl). pose proof (Vesting_lemmas.i_asset _ _ _ _ _ (g_vi _ _ _ _ w G)) as HI. split.
    - intros (Hp & He & Hk). destruct (Hp (fun _ => Reverted [])) as (H1 & H2 & H3 & H4 & H5 & H6). unfold says in *.
      specialize (H1 0). rewrite ask_owner in H1. specialize (H2 0). rewrite ask_released in H2.
      specialize (H3 coin up_coin 0). rewrite ask_released_token, Z.eqb_refl in H3 by exact up_coin.
      apply one_number in H1; [|apply address_fits, (g_owner _ _ _ _ w G)|apply address_fits, Fo].
      apply one_number in H2; [|exact (Vesting_lemmas.i_range _ _ _ _ _ (g_vi _ _ _ _ w G))|exact Fp].
      apply one_number in H3; [|exact (Vesting_lemmas.i_trange _ _ _ _ _ (g_vi _ _ _ _ w G))|exact Fc].
      split; [exact H1|]. split; [exact H2|]. split; [exact H3|]. split; [symmetry; exact Hk|]. split; [intros a; symmetry; apply He|].
      split; [exact HI|]. split; [|exact Fl]. pose proof Fl as (L1 & L2 & L3). split; [|split].
      + specialize (H4 0). rewrite (ask_coin _ _ _ _ _ (coin_supply 0 _)) in H4. apply one_number in H4; auto. apply supply_fits, HI.
      + intros a Ha. specialize (H5 a Ha 0). rewrite (ask_coin _ _ _ _ _ (coin_balance 0 _ a Ha)) in H5. apply one_number in H5; auto. apply balance_fits, HI.
      + intros o sp Ho Hsp. specialize (H6 o sp Ho Hsp 0). rewrite (ask_coin _ _ _ _ _ (coin_allowance 0 _ o sp Ho Hsp)) in H6. apply one_number in H6; auto.
        apply allowance_fits, HI.
    - intros (A1 & A2 & A3 & A4 & A5 & _ & (K1 & K2 & K3) & _). split; [|split; [intros a; symmetry; apply A5|symmetry; exact A4]]. intros p. unfold says.
      split; [intros c; rewrite ask_owner, A1; reflexivity|]. split; [intros c; rewrite ask_released, A2; reflexivity|].
      split; [|split; [|split]].
      + intros t Ht c. rewrite ask_released_token by exact Ht. destruct (Z.eqb_spec t coin) as [->|Ne]; [rewrite A3; reflexivity|].
        rewrite (g_other _ _ _ _ w G t Ne). reflexivity.
      + intros c. rewrite (ask_coin _ _ _ _ _ (coin_supply c _)), K1. reflexivity.
      + intros a Ha c. rewrite (ask_coin _ _ _ _ _ (coin_balance c _ a Ha)), (K2 a Ha). reflexivity.
      + intros o sp Ho Hsp c. rewrite (ask_coin _ _ _ _ _ (coin_allowance c _ o sp Ho Hsp)), (K3 o sp Ho Hsp). reflexivity.
  Qed.
  Lemma does_obeys w p to c v d x : does w p to c v d x -> obeys this coin call ether clock w p to c v d x.
  Proof.
    unfold EntryVesting_lemmas.does, obeys. destruct x as [out b'|why|q]; auto. intros (w' & E & G & A). exists w'. split; [exact E|].
    pose proof (agree_fits _ _ _ _ w' b' G A) as F. split; [|exact F]. apply shows_agree; assumption.
  Qed.

  (** *** Questions *)
  Definition silent {A} (m : M W Vesting.error A) : Prop := forall w, match m w with (Ok _, w') => w' = w | _ => True end.
  Lemma silent_schedule total t : silent (vesting_schedule start duration total t).
  Proof.
    intros w. unfold vesting_schedule. destruct (t <? start); [reflexivity|]. destruct (end_ start duration <=? t); [reflexivity|].
    unfold bind, cmul. destruct (_ <? two256); reflexivity || exact I.
  Qed.
  Lemma silent_vested t : silent (vested_amount_eth xb start duration t).
  Proof.
    intros w. unfold vested_amount_eth, bind, gets, cadd. destruct (_ <? two256); [|exact I]. apply silent_schedule.
  Qed.
  Lemma silent_vested_token a t : silent (vested_amount_erc20 xb start duration a t).
  Proof.
    intros w. unfold vested_amount_erc20, bind, gets, cadd. destruct (SafeErc20.balance_of xb a _ (toks w)); [|exact I].
    destruct (_ <? two256); [|exact I]. apply silent_schedule.
  Qed.
  Lemma silent_releasable : silent (releasable_eth xb start duration).
  Proof.
    intros w. unfold releasable_eth. unfold bind, gets. pose proof (silent_vested (now w) w) as K.
    destruct (vested_amount_eth xb start duration (now w) w) as [[n|e|] w']; [|exact I..]. exact K.
  Qed.
  Lemma silent_releasable_token a : silent (releasable_erc20 xb start duration a).
  Proof.
    intros w. unfold releasable_erc20. unfold bind, gets. pose proof (silent_vested_token a (now w) w) as K.
    destruct (vested_amount_erc20 xb start duration a (now w) w) as [[n|e|] w']; [|exact I..]. exact K.
  Qed.
  Lemma silent_answer p (m : M W Vesting.error Z) w : silent m -> snd (finish (C p) (number m w) w) = w.
  Proof. intros H. rewrite answer_number. specialize (H w). destruct (m w) as [[n|e|] w']; [exact H|reflexivity..]. Qed.

  (** *** Every call *)
  Ltac wish r := right; exists r; split; [reflexivity|]; split; [reflexivity|]; split; [reflexivity|cbn [wish_fits]; tauto].
  Lemma any_call p to c v d w : is_u256 v -> List.Forall is_byte d -> size d < two256 ->
    snd (call p to c v d w) = w \/ exists r, to = wish_to this coin r /\ v = wish_value r /\ d = wish_data r /\ wish_fits this coin r.
  Proof.
    intros Hv Hb Hsz. unfold wallet_call. destruct (Z.eqb_spec to this) as [->|N1].
    - destruct d as [|x d]; [wish (Fund v)|]. set (input := x :: d) in *.
      destruct (entry_cases (C p) c v input w (known_wallet this coin start duration p) Hb Hsz) as [->|(ty & f & args & Hin & -> & Ht & Hd & He)]; [left; reflexivity|].
      rewrite (exposed_wallet_ok this coin start duration p) in Hin. unfold exposed_wallet in Hin. rewrite He. clear He Hb Hsz Hup Hv. clearbody input. subst input. one_of Hin Ht.
      all: match goal with |- context [fn_sig ?f] => let x := eval vm_compute in (fn_sig f) in change (fn_sig f) with x end.
      all: lazymatch goal with
        | |- context [calldata "release()" []] => wish Release
        | |- context [calldata "release(address)" [Word ?a]] => wish (ReleaseCoin a)
        | |- context [calldata "transferOwnership(address)" [Word ?a]] => wish (HandOver a)
        | |- context [calldata "renounceOwnership()" []] => wish Renounce
        | |- _ => left
        end.
      1-6: reflexivity.
      + apply (silent_answer p _ w silent_releasable).
      + refine (silent_answer p _ w (silent_releasable_token _)).
      + refine (silent_answer p _ w (silent_vested _)).
      + refine (silent_answer p _ w (silent_vested_token _ _)).
    - destruct (Z.eqb_spec to coin) as [->|N2].
      + destruct (coin_call c v d (asset_st (toks w)) Hb Hsz) as [E|(o & -> & -> & Ho)]; [left|right; exists (OnToken o); auto].
        destruct (entry Coin c v d (asset_st (toks w))) as [a u]. cbn [snd] in *. subst u. apply same_toks.
      + right. exists (Give to v d). cbn [wish_to wish_value wish_data wish_fits]. auto 10.
  Qed.
  Lemma does_good w p to c v d x : Good w -> does w p to c v d x -> Good (snd (call p to c v d w)).
  Proof. intros G. destruct x as [out b|why|q]; cbn [EntryVesting_lemmas.does]; [intros (w' & -> & G' & _)|intros (d' & -> & _)|intros ->]; assumption. Qed.
  Lemma wait_good w d : Good w -> 0 <= d -> Good (wallet_step this coin start duration w (Passed d)).
  Proof.
    intros G H. destruct (Vesting_lemmas.step_ok this coin start duration up_start up_duration up_zero w (Wait d) (g_vi _ _ _ _ w G) H) as [K _].
    split; [exact K|exact (g_owner _ _ _ _ w G)|exact (g_other _ _ _ _ w G)|exact (g_tok _ _ _ _ w G)].
  Qed.
  Lemma step_good w e : Good w -> sane_happening this e -> Good (wallet_step this coin start duration w e).
  Proof.
    intros G H. destruct e as [p to c v d|d]; [|apply wait_good; assumption]. cbn [wallet_step]. destruct H as (Hc & Ht & Hv & Hb & Hsz).
    destruct (any_call p to c v d w Hv Hb Hsz) as [->|(r & -> & -> & -> & Hr)]; [exact G|].
    apply (does_good _ _ _ _ _ _ _ G (wish_ok w (purse_of coin w) p c r G (purse_of_agree _ _ _ _ _ G) Hc Ht Hr)).
  Qed.
  Lemma run_good h : List.Forall (sane_happening this) h -> forall w, Good w -> Good (wallet_run this coin start duration h w).
  Proof. induction 1 as [|e h He _ IH]; intros w G; [exact G|]. apply IH, step_good; assumption. Qed.
  Lemma deployed_good o t m : at_first this o t m -> Good (deployed o t m) /\ agree (deployed o t m) (new_purse o t (fun a => mget m a)).
  Proof.
    intros (Ho & Ht & Hn & Hm & H0). split.
    - split.
      + apply Vesting_lemmas.initial_VI; try exact up_start; try exact up_duration. exists o, t, m. auto 10.
      + exact Ho.
      + intros a _. unfold released_erc20. cbn. apply mget_empty.
      + apply Erc20_inv.inv_init.
    - split; [reflexivity|]. split; [reflexivity|]. split; [symmetry; apply mget_empty|]. split; [reflexivity|]. split; [reflexivity|].
      exact (proj1 fine_init).
  Qed.

  (** *** What the queries say *)
  Lemma vested_eth_eq t w b : Good w -> agree w b ->
    vested_amount_eth xb start duration t w = (if countable (funds this b) t then Ok (V (funds this b) t) else Panic, w).
  Proof.
    intros G A. pose proof (agree_funds _ _ _ _ w b G A) as Ef. unfold vested_amount_eth, bind, gets, cadd. cbn [SafeErc20.self bytes_ext].
    pose proof (Vesting_lemmas.total_eq this coin start duration w (g_vi _ _ _ _ w G)) as T. unfold eth_balance in T. rewrite T, Ef.
    rewrite <- countable_same. destruct (funds this b <? two256); [|reflexivity]. cbn [andb].
    rewrite (Vesting_lemmas.schedule_eq start duration up_start up_duration). reflexivity.
  Qed.
  Lemma vested_token_eq a t w b : Good w -> agree w b -> is_address a ->
    vested_amount_erc20 xb start duration a t w =
      (if a =? coin then if countable (coin_funds this b) t then Ok (V (coin_funds this b) t) else Panic else Err (Vesting.InvalidToken a), w).
  Proof.
    intros G A Ha. rewrite (bytes_vested this coin start duration up_this).
    destruct (Z.eqb_spec a coin) as [->|N].
    - pose proof (agree_coin_funds this coin up_this w b A) as Ef. unfold vested_amount_erc20, bind, gets, cadd. cbn [SafeErc20.self honest_ext].
      rewrite (World_lemmas.balance_of_honest this coin this (toks w) (Vesting_lemmas.i_asset _ _ _ _ _ (g_vi _ _ _ _ w G))).
      change (Erc20.balance_of (asset_st (toks w)) this) with (token_balance this w). rewrite Ef.
      rewrite <- countable_same. destruct (coin_funds this b <? two256); [|reflexivity]. cbn [andb].
      rewrite (Vesting_lemmas.schedule_eq start duration up_start up_duration). reflexivity.
    - unfold vested_amount_erc20, bind, SafeErc20.balance_of. cbn [SafeErc20.raw_call honest_ext]. replace (a =? coin) with false by lia. reflexivity.
  Qed.
  Lemma due_bounds w b : Good w -> agree w b ->
    0 <= v_paid b /\ v_paid b <= V (funds this b) (v_clock b) /\ V (funds this b) (v_clock b) <= funds this b /\
    0 <= v_coin_paid b /\ v_coin_paid b <= V (coin_funds this b) (v_clock b) /\ V (coin_funds this b) (v_clock b) <= coin_funds this b.
  Proof.
    intros G A. pose proof (agree_funds _ _ _ _ w b G A) as Ef. pose proof (agree_coin_funds this coin up_this w b A) as Ec.
    pose proof A as (A1 & A2 & A3 & A4 & A5 & A6). rewrite <- Ef, <- Ec, A2, A3, A4. change V with (Vesting_lemmas.V start duration).
    pose proof (Vesting_lemmas.i_vest _ _ _ _ _ (g_vi _ _ _ _ w G)). pose proof (Vesting_lemmas.i_tvest _ _ _ _ _ (g_vi _ _ _ _ w G)).
    pose proof (Vesting_lemmas.i_range _ _ _ _ _ (g_vi _ _ _ _ w G)). pose proof (Vesting_lemmas.i_trange _ _ _ _ _ (g_vi _ _ _ _ w G)).
    assert (0 <= total_in this w).
    { rewrite <- (Vesting_lemmas.total_eq this coin start duration w (g_vi _ _ _ _ w G)).
      pose proof (Vesting_lemmas.eth_bal_range this coin start duration w (g_vi _ _ _ _ w G)). lia. }
    assert (0 <= token_balance this w + released_erc20 coin w).
    { pose proof (balance_fits _ this (Vesting_lemmas.i_asset _ _ _ _ _ (g_vi _ _ _ _ w G))) as Hb. unfold is_u256 in Hb.
      unfold token_balance, World_spec.asset_bal. lia. }
    pose proof (Vesting_lemmas.V_bounds start duration (total_in this w) (now w)).
    pose proof (Vesting_lemmas.V_bounds start duration (token_balance this w + released_erc20 coin w) (now w)). lia.
  Qed.
  Lemma query_does w b p c q : Good w -> agree w b -> query_fits q -> answers_query this call w p c q (told this coin start duration q b).
  Proof.
    intros G A Hq. pose proof (due_bounds w b G A) as (B1 & B2 & B3 & B4 & B5 & B6). pose proof A as (A1 & A2 & A3 & A4 & A5 & A6).
    assert (Inv : forall a, is_address a -> decode_reason (revert_vesting (Vesting.InvalidToken a)) = Some (SolAbi_spec.InvalidToken a)).
    { intros a Ha. apply (revert_vesting_ok (Vesting.InvalidToken a)); [reflexivity|]. apply F1, address_fits, Ha. }
    assert (Small : forall total t, countable total t = true -> total < two256).
    { intros total t E. unfold EntryVesting_spec.countable in E. apply andb_prop in E. destruct E. lia. }
    unfold answers_query, told. destruct q as [|a|t|a t| | |]; cbn [query_data query_fits] in *.
    - assert (E : call p this c 0 (calldata "releasable()" []) w = finish (C p) (number (releasable_eth xb start duration) w) w).
      { change (@nil val) with (map Word []). reads p "releasable()"%string (@nil Z) (fn_as "releasable" "releasable_eth" []). reflexivity. }
      rewrite answer_number in E. unfold releasable_eth, bind, gets in E. rewrite (vested_eth_eq _ w b G A), <- A4 in E.
      destruct (countable (funds this b) (v_clock b)) eqn:Ek; [|exact E]. specialize (Small _ _ Ek). unfold ret in E.
      rewrite <- A2, wsub_small in E by lia. exact E.
    - assert (E : call p this c 0 (calldata "releasable(address)" [Word a]) w = finish (C p) (number (releasable_erc20 xb start duration a) w) w).
      { change [Word a] with (map Word [a]). reads p "releasable(address)"%string [a] (fn_as "releasable" "releasable_erc20" [Address]). reflexivity. }
      rewrite answer_number in E. unfold releasable_erc20, bind, gets in E. rewrite (vested_token_eq a _ w b G A Hq), <- A4 in E.
      destruct (Z.eqb_spec a coin) as [->|N]; [|eexists; split; [exact E|apply Inv, Hq]].
      destruct (countable (coin_funds this b) (v_clock b)) eqn:Ek; [|exact E]. specialize (Small _ _ Ek). unfold ret in E.
      rewrite <- A3, wsub_small in E by lia. exact E.
    - assert (E : call p this c 0 (calldata "vestedAmount(uint64)" [Word t]) w = finish (C p) (number (vested_amount_eth xb start duration t) w) w).
      { change [Word t] with (map Word [t]). reads p "vestedAmount(uint64)"%string [t] (fn_as "vestedAmount" "vested_amount_eth" [u64]). reflexivity. }
      rewrite answer_number, (vested_eth_eq _ w b G A) in E. destruct (countable (funds this b) t); exact E.
    - destruct Hq as [Ha Ht].
      assert (E : call p this c 0 (calldata "vestedAmount(address,uint64)" [Word a; Word t]) w = finish (C p) (number (vested_amount_erc20 xb start duration a t) w) w).
      { change [Word a; Word t] with (map Word [a; t]). reads p "vestedAmount(address,uint64)"%string [a; t] (fn_as "vestedAmount" "vested_amount_erc20" [Address; u64]). reflexivity. }
      rewrite answer_number, (vested_token_eq a _ w b G A Ha) in E.
      destruct (Z.eqb_spec a coin) as [->|N]; [|eexists; split; [exact E|apply Inv, Ha]].
      destruct (countable (coin_funds this b) t); exact E.
    - change (@nil val) with (map Word []). reads p "start()"%string (@nil Z) (fn "start" []). rewrite <- one_word. reflexivity.
    - change (@nil val) with (map Word []). reads p "duration()"%string (@nil Z) (fn "duration" []). rewrite <- one_word. reflexivity.
    - change (@nil val) with (map Word []). reads p "end()"%string (@nil Z) (fn "end" []). rewrite <- one_word.
      replace (start + duration) with (end_ start duration); [reflexivity|]. unfold end_. apply wadd_small.
      pose proof up_start. pose proof up_duration. unfold is_u64, two64, two256 in *. lia.
  Qed.

  (** *** Step by step, by hand *)
  Lemma deed_step w b x : Good w -> agree w b -> deed_fits this coin x ->
    Good (wallet_step this coin start duration w (happening_of this coin x)) /\
    agree (wallet_step this coin start duration w (happening_of this coin x)) (by_hand this coin start duration b x).
  Proof.
    intros G A Hx. destruct x as [p c r|d].
    - destruct Hx as (Ha & Hc & Hr). pose proof (wish_ok w b p c r G A Ha Hc Hr) as D. cbn [happening_of wallet_step by_hand].
      destruct (ideal p c r b) as [out b'|why|q]; cbn [EntryVesting_lemmas.does] in D; [destruct D as (w' & -> & G' & A')|destruct D as (d & -> & _)|rewrite D]; auto.
    - cbn [deed_fits] in Hx. split; [apply wait_good; assumption|]. destruct A as (A1 & A2 & A3 & A4 & A5 & A6). cbn [by_hand later happening_of].
      split; [exact A1|]. split; [exact A2|]. split; [exact A3|]. split; [exact (f_equal (fun z => z + d) A4)|]. split; [exact A5|exact A6].
  Qed.
  Lemma deeds_run l : List.Forall (deed_fits this coin) l -> forall w b, Good w -> agree w b ->
    Good (wallet_run this coin start duration (map (happening_of this coin) l) w) /\
    agree (wallet_run this coin start duration (map (happening_of this coin) l) w) (fold_left (by_hand this coin start duration) l b).
  Proof.
    induction 1 as [|x l Hx _ IH]; intros w b G A; [split; assumption|]. destruct (deed_step w b x G A Hx) as [G' A']. exact (IH _ _ G' A').
  Qed.
  (** Two purses that describe the same state. *)
  Lemma agree_same w b b' : agree w b -> agree w b' ->
    v_paid b = v_paid b' /\ v_coin_paid b = v_coin_paid b' /\ v_clock b = v_clock b' /\ funds this b = funds this b' /\ coin_funds this b = coin_funds this b'.
  Proof.
    intros (A1 & A2 & A3 & A4 & A5 & _ & (_ & K & _) & _) (B1 & B2 & B3 & B4 & B5 & _ & (_ & L & _) & _). unfold funds, coin_funds.
    rewrite A2, A3, A4, B2, B3, B4, A5, B5, (K this up_this), (L this up_this). auto 10.
  Qed.
  Definition grows (b b' : purse) : Prop :=
    v_paid b <= v_paid b' /\ v_coin_paid b <= v_coin_paid b' /\ funds this b <= funds this b' /\ coin_funds this b <= coin_funds this b' /\ v_clock b <= v_clock b'.
  Lemma moved_from f x y v a : a <> x -> a <> y -> Entry_spec.moved f x y v a = f a.
  Proof. intros H1 H2. unfold Entry_spec.moved, at_key. replace (a =? x) with false by lia. replace (a =? y) with false by lia. lia. Qed.
  Lemma moved_out f x y v : x <> y -> Entry_spec.moved f x y v x = f x - v.
  Proof. intros H. unfold Entry_spec.moved, at_key. rewrite Z.eqb_refl. replace (x =? y) with false by lia. lia. Qed.
  Lemma moved_self f x v : Entry_spec.moved f x x v x = f x.
  Proof. unfold Entry_spec.moved, at_key. rewrite Z.eqb_refl. lia. Qed.
  Lemma moved_in f x y v : x <> y -> Entry_spec.moved f x y v y = f y + v.
  Proof. intros H. unfold Entry_spec.moved, at_key. rewrite Z.eqb_refl. replace (y =? x) with false by lia. lia. Qed.
  Lemma moved_other f x y v a : x <> a -> 0 <= v -> f a <= Entry_spec.moved f x y v a.
  Proof.
    intros H Hv. destruct (Z.eq_dec a y) as [<-|N]; [rewrite moved_in by exact H; lia|]. rewrite moved_from by congruence. lia.
  Qed.
  Lemma wish_grows w b p c r : Good w -> agree w b -> is_address c -> c <> this -> wish_fits this coin r ->
    match ideal p c r b with Done _ b' => grows b b' | _ => True end.
  Proof.
    intros G A Ha Hc Hr. pose proof (due_bounds w b G A) as (B1 & B2 & B3 & B4 & B5 & B6). pose proof A as (A1 & A2 & A3 & A4 & A5 & A6).
    destruct r as [|t|a| |v|o|a v d]; cbn [EntryVesting_spec.ideal].
    - destruct (negb _); [exact I|]. unfold takes. destruct (Z.eqb_spec (v_owner b) this) as [|N]; [exact I|]. cbn [orb].
      destruct (if v_owner b =? coin then _ else _); [|exact I]. unfold grows, funds, coin_funds. cbn [with_ether v_paid v_coin_paid v_ether v_coins v_clock].
      rewrite moved_out by congruence. unfold due. lia.
    - destruct (negb _); [exact I|]. destruct (negb _); [exact I|]. destruct (refused _ _ _); [exact I|].
      unfold grows, funds, coin_funds. cbn [with_coins v_paid v_coin_paid v_ether v_coins v_clock order_effect with_balances l_balance].
      unfold coin_due. destruct (Z.eq_dec this (v_owner b)) as [<-|N].
      + rewrite moved_self. lia.
      + rewrite moved_out by exact N. lia.
    - destruct (negb _); [exact I|]. destruct (a =? 0); [exact I|]. unfold grows, funds, coin_funds. cbn [with_owner v_paid v_coin_paid v_ether v_coins v_clock]. lia.
    - destruct (negb _); [exact I|]. unfold grows, funds, coin_funds. cbn [with_owner v_paid v_coin_paid v_ether v_coins v_clock]. lia.
    - destruct (_ <? _); [exact I|]. unfold grows, funds, coin_funds. cbn [with_ether v_paid v_coin_paid v_ether v_coins v_clock].
      rewrite moved_in by exact Hc. cbn [wish_fits] in Hr. unfold is_u256 in Hr. lia.
    - assert (Al : forall sp, is_address sp -> l_allowance (v_coins b) this sp = 0).
      { intros sp Hs. destruct A6 as (_ & (_ & _ & K) & _). rewrite (K this sp up_this Hs). apply (Vesting_lemmas.i_appr _ _ _ _ _ (g_vi _ _ _ _ w G)). }
      destruct (decide _ _) as [[]|[|]] eqn:Ed; [|exact I..]. unfold grows, funds, coin_funds. cbn [with_coins v_paid v_coin_paid v_ether v_coins v_clock].
      enough (l_balance (v_coins b) this <= l_balance (order_effect c o (v_coins b)) this) by lia.
      destruct o as [x v|x v|x y v|x v]; cbn [order_fits wish_fits] in Hr; cbn [order_effect with_balances with_allowance l_balance].
      + destruct Hr as [_ Hv]. unfold is_u256 in Hv. apply moved_other; [exact Hc|apply Hv].
      + lia.
      + destruct Hr as (_ & _ & Hv). unfold is_u256 in Hv. destruct (Z.eq_dec x this) as [->|Nx].
        * cbn [order_checks] in Ed. unfold may_spend in Ed. rewrite (Al c Ha) in Ed. change (0 =? U256_MAX) with false in Ed. cbn [app decide] in Ed. destruct (Z.ltb_spec 0 v); [discriminate|]. destruct (Z.eq_dec this y) as [<-|Ny]; [rewrite moved_self; lia|rewrite moved_out by exact Ny; lia].
        * apply moved_other; [exact Nx|apply Hv].
      + destruct Hr as [_ Hv]. unfold is_u256 in Hv. unfold at_key. destruct (Z.eqb_spec this x); [subst x; lia|lia].
    - destruct Hr as (N1 & N2 & Hv). destruct (_ <? _); [exact I|]. destruct (p a); [|exact I]. unfold grows, funds, coin_funds.
      cbn [with_ether v_paid v_coin_paid v_ether v_coins v_clock]. rewrite moved_from by congruence. lia.
  Qed.
  Lemma run_grows h : List.Forall (sane_happening this) h -> forall w b, Good w -> agree w b ->
    exists b', agree (wallet_run this coin start duration h w) b' /\ grows b b'.
  Proof.
    induction 1 as [|e h He _ IH]; intros w b G A; [exists b; split; [exact A|unfold grows; lia]|].
    assert (K : exists b1, agree (wallet_step this coin start duration w e) b1 /\ grows b b1).
    { destruct e as [p to c v d|d].
      - destruct He as (Hc & Ht & Hv & Hb & Hsz). cbn [wallet_step].
        destruct (any_call p to c v d w Hv Hb Hsz) as [->|(r & -> & -> & -> & Hr)]; [exists b; split; [exact A|unfold grows; lia]|].
        pose proof (wish_ok w b p c r G A Hc Ht Hr) as D. pose proof (wish_grows w b p c r G A Hc Ht Hr) as Gr.
        destruct (ideal p c r b) as [out b'|why|q]; cbn [EntryVesting_lemmas.does] in D.
        + destruct D as (w' & -> & G' & A'). exists b'. split; assumption.
        + destruct D as (d & -> & _). exists b. split; [exact A|unfold grows; lia].
        + rewrite D. exists b. split; [exact A|unfold grows; lia].
      - cbn [sane_happening] in He. exists (later b d). split; [exact (proj2 (deed_step w b (Waiting d) G A He))|].
        unfold grows, funds, coin_funds. cbn [later v_paid v_coin_paid v_ether v_coins v_clock]. lia. }
    destruct K as (b1 & A1 & G1). destruct (IH _ b1 (step_good w e G He) A1) as (b2 & A2 & G2). exists b2. split; [exact A2|].
    unfold grows in *. lia.
  Qed.
  Lemma countable_small total t : 0 <= total < 2 ^ 192 -> countable total t = true.
  Proof.
    intros H. pose proof up_duration as Hd. unfold is_u64, two64 in Hd. unfold EntryVesting_spec.countable.
    replace (total <? two256) with true by (unfold two256; lia). cbn [andb].
    destruct (Z.ltb_spec t start); [reflexivity|]. destruct (Z.leb_spec (start + duration) t); [reflexivity|]. cbn [orb].
    assert (total * (t - start) < 2 ^ 192 * 2 ^ 64) by (apply Z.mul_lt_mono_nonneg; lia). unfold two256. lia.
  Qed.
End wallet.

(** ** C93 *)
Section theorems.
  Context (this coin start duration owner t : Z) (m : gmap Z Z).
  Local Notation call := (wallet_call this coin start duration).
  Local Notation after h := (wallet_run this coin start duration h (deployed owner t m)).
  Local Notation shows := (shows_purse this coin call ether clock).
  Local Notation sane h := (List.Forall (sane_happening this) h).

  (** After any history of raw calls, money and time, the wallet, the token and the chain show a
      purse; every wish is granted, refused or passed on as the ideal wallet does, and every
      question is answered from the purse. *)
  Theorem c93_wallet_is_the_ideal :
    forall h, set_up this coin start duration -> at_first this owner t m -> sane h ->
    (exists b, purse_fits b /\ shows (after h) b) /\
    (forall b, purse_fits b -> shows (after h) b ->
      (forall p c r, is_address c -> c <> this -> wish_fits this coin r ->
         obeys this coin call ether clock (after h) p (wish_to this coin r) c (wish_value r) (wish_data r) (ideal this coin start duration p c r b)) /\
      (forall p c q, query_fits q -> answers_query this call (after h) p c q (told this coin start duration q b))) /\
    shows (deployed owner t m) (new_purse owner t (fun a => mget m a)).
  Proof.
    intros h Hup H0 Hh. destruct (deployed_good this coin start duration owner t m H0) as [G0 A0].
    pose proof (run_good this coin start duration Hup h Hh _ G0) as G. split; [|split].
    - exists (purse_of coin (after h)). pose proof (purse_of_agree this coin start duration _ G) as A. pose proof (agree_fits _ _ _ _ _ _ G A) as F.
      split; [exact F|]. apply (shows_agree this coin start duration Hup); assumption.
    - intros b F S. apply (shows_agree this coin start duration Hup _ _ G F) in S. split.
      + intros p c r Ha Hc Hr. apply (does_obeys this coin start duration Hup). apply (wish_ok this coin start duration Hup); assumption.
      + intros p c q Hq. apply (query_does this coin start duration Hup); assumption.
    - apply (shows_agree this coin start duration Hup _ _ G0); [apply (agree_fits _ _ _ _ _ _ G0 A0)|exact A0].
  Qed.

  (** So the whole state after any well-formed history can be computed by hand. *)
  Theorem c93_computed_by_hand :
    forall l, set_up this coin start duration -> at_first this owner t m -> List.Forall (deed_fits this coin) l ->
    let b := fold_left (by_hand this coin start duration) l (new_purse owner t (fun a => mget m a)) in
    shows (after (map (happening_of this coin) l)) b /\ purse_fits b.
  Proof.
    intros l Hup H0 Hl b. destruct (deployed_good this coin start duration owner t m H0) as [G0 A0].
    destruct (deeds_run this coin start duration Hup l Hl _ _ G0 A0) as [G A]. fold b in A. pose proof (agree_fits _ _ _ _ _ _ G A) as F.
    split; [|exact F]. apply (shows_agree this coin start duration Hup); assumption.
  Qed.

  (** Anything else with data fails without a reason and without effect, and only wishes change
      anything. *)
  Theorem c93_nothing_else :
    forall p to c v d w, is_u256 v -> List.Forall is_byte d -> size d < two256 ->
    (d <> [] -> ~ proper_call vesting_interface v d -> call p this c v d w = (Reverted [], w)) /\
    (snd (call p to c v d w) <> w -> exists r, to = wish_to this coin r /\ v = wish_value r /\ d = wish_data r /\ wish_fits this coin r).
  Proof.
    intros p to c v d w Hv Hb Hsz. split.
    - intros Hd N. unfold wallet_call. rewrite Z.eqb_refl. destruct d as [|x d]; [contradiction|]. set (input := x :: d) in *.
      destruct (entry_cases (ExampleWallet this coin start duration p) c v input w (known_wallet this coin start duration p) Hb Hsz)
        as [K|(ty & f & args & Hin & Hv0 & Ht & Hdd & _)]; [exact K|]. exfalso. apply N.
      split; [exact Hv0|]. exists (fn_sig f), (arg_types f), args. split; [|split; assumption].
      rewrite (exposed_wallet_ok this coin start duration p) in Hin. clear - Hin. revert ty f Hin.
      assert (B : forallb (fun x => if in_dec EntryNft_props.same_entry (fn_sig (snd x), arg_types (snd x)) vesting_interface then true else false) exposed_wallet = true)
        by (vm_compute; reflexivity).
      rewrite forallb_forall in B. intros ty f Hin. specialize (B (ty, f) Hin). cbn [snd] in B.
      destruct (in_dec _ _ _) as [K|]; [exact K|discriminate].
    - intros Hs. destruct (any_call this coin start duration p to c v d w Hv Hb Hsz) as [K|K]; [contradiction (Hs K)|exact K].
  Qed.

  (** At every moment no more has been paid than has vested, and no more has vested than came in;
      so what is due is there. And paid, received and clock only ever grow. *)
  Theorem c93_schedule_holds :
    forall h1 h2, set_up this coin start duration -> at_first this owner t m -> sane h1 -> sane h2 ->
    forall b1 b2, purse_fits b1 -> purse_fits b2 -> shows (after h1) b1 -> shows (after (h1 ++ h2)) b2 ->
    (0 <= v_paid b1 /\ v_paid b1 <= vested_part start duration (funds this b1) (v_clock b1) <= funds this b1) /\
    (0 <= v_coin_paid b1 /\ v_coin_paid b1 <= vested_part start duration (coin_funds this b1) (v_clock b1) <= coin_funds this b1) /\
    0 <= due this start duration b1 <= v_ether b1 this /\ 0 <= coin_due this start duration b1 <= l_balance (v_coins b1) this /\
    v_paid b1 <= v_paid b2 /\ v_coin_paid b1 <= v_coin_paid b2 /\ funds this b1 <= funds this b2 /\ coin_funds this b1 <= coin_funds this b2 /\
    v_clock b1 <= v_clock b2.
  Proof.
    intros h1 h2 Hup H0 Hh1 Hh2 b1 b2 F1 F2 S1 S2. destruct (deployed_good this coin start duration owner t m H0) as [G0 A0].
    pose proof (run_good this coin start duration Hup h1 Hh1 _ G0) as G1.
    assert (Er : after (h1 ++ h2) = wallet_run this coin start duration h2 (after h1)) by apply fold_left_app.
    rewrite Er in S2. pose proof (run_good this coin start duration Hup h2 Hh2 _ G1) as G2.
    apply (shows_agree this coin start duration Hup _ _ G1 F1) in S1. apply (shows_agree this coin start duration Hup _ _ G2 F2) in S2.
    destruct (run_grows this coin start duration Hup h2 Hh2 _ b1 G1 S1) as (b2' & A2 & Gr).
    destruct (agree_same this coin start duration Hup _ _ _ S2 A2) as (E1 & E2 & E3 & E4 & E5).
    pose proof (due_bounds this coin start duration Hup _ b1 G1 S1) as (B1 & B2 & B3 & B4 & B5 & B6).
    unfold grows in Gr. rewrite <- E1, <- E2, <- E3, <- E4, <- E5 in Gr. unfold due, coin_due, funds, coin_funds in *. lia.
  Qed.

  (** A granted release by anyone pays the owner exactly what has vested and was not yet paid, and
      nobody else; after the end it empties the wallet. *)
  Theorem c93_what_release_does :
    forall h p c w' out, set_up this coin start duration -> at_first this owner t m -> sane h -> is_address c -> c <> this ->
    forall b, purse_fits b -> shows (after h) b ->
    call p this c 0 (calldata "release()" []) (after h) = (Returned out, w') ->
    exists b', shows w' b' /\ purse_fits b' /\ out = [] /\ v_owner b <> this /\
      v_paid b' = vested_part start duration (funds this b) (v_clock b) /\ funds this b' = funds this b /\
      v_ether b' (v_owner b) = v_ether b (v_owner b) + (v_paid b' - v_paid b) /\
      (forall a, a <> this -> a <> v_owner b -> v_ether b' a = v_ether b a) /\
      v_coins b' = v_coins b /\ v_coin_paid b' = v_coin_paid b /\ v_owner b' = v_owner b /\ v_clock b' = v_clock b /\
      (start + duration <= v_clock b -> v_ether b' this = 0).
  Proof.
    intros h p c w' out Hup H0 Hh Ha Hc b F S E. destruct (c93_wallet_is_the_ideal h Hup H0 Hh) as (_ & K & _). destruct (K b F S) as [O _].
    specialize (O p c Release Ha Hc I). cbn [wish_to wish_value wish_data] in O. unfold obeys in O. cbn [ideal] in O.
    destruct (negb _); [rewrite E in O; discriminate|]. unfold takes in O. destruct (Z.eqb_spec (v_owner b) this) as [|N]; cbn [orb] in O; [rewrite E in O; discriminate|].
    destruct (if v_owner b =? coin then _ else _); [|rewrite E in O; discriminate]. destruct O as (s' & E1 & S1 & F1). rewrite E in E1.
    apply pair_equal_spec in E1. destruct E1 as [E1 <-]. eexists. split; [exact S1|]. split; [exact F1|]. split; [congruence|]. split; [exact N|].
    unfold funds, due. cbn [with_ether v_paid v_coin_paid v_ether v_coins v_clock v_owner]. fold (funds this b).
    rewrite moved_out, moved_in by congruence. split; [lia|]. split; [unfold funds; lia|]. split; [lia|].
    split; [intros a H1 H2; apply moved_from; assumption|]. repeat (split; [reflexivity|]). intros L. unfold vested_part.
    assert (0 <= duration) by (destruct Hup as (_ & _ & _ & _ & _ & Hd); apply Hd).
    replace (v_clock b <? start) with false by lia. replace (start + duration <=? v_clock b) with true by lia. unfold funds. lia.
  Qed.
  (** The same for the token (an owner other than the wallet itself). *)
  Theorem c93_what_token_release_does :
    forall h p c w' out a, set_up this coin start duration -> at_first this owner t m -> sane h -> is_address c -> c <> this -> is_address a ->
    forall b, purse_fits b -> shows (after h) b -> v_owner b <> this ->
    call p this c 0 (calldata "release(address)" [Word a]) (after h) = (Returned out, w') ->
    exists b', shows w' b' /\ purse_fits b' /\ out = [] /\ a = coin /\
      v_coin_paid b' = vested_part start duration (coin_funds this b) (v_clock b) /\ coin_funds this b' = coin_funds this b /\
      l_balance (v_coins b') (v_owner b) = l_balance (v_coins b) (v_owner b) + (v_coin_paid b' - v_coin_paid b) /\
      (forall x, x <> this -> x <> v_owner b -> l_balance (v_coins b') x = l_balance (v_coins b) x) /\
      l_supply (v_coins b') = l_supply (v_coins b) /\ l_allowance (v_coins b') = l_allowance (v_coins b) /\
      v_ether b' = v_ether b /\ v_paid b' = v_paid b /\ v_owner b' = v_owner b /\ v_clock b' = v_clock b /\
      (start + duration <= v_clock b -> l_balance (v_coins b') this = 0).
  Proof.
    intros h p c w' out a Hup H0 Hh Ha Hc Hta b F S N E. destruct (c93_wallet_is_the_ideal h Hup H0 Hh) as (_ & K & _). destruct (K b F S) as [O _].
    specialize (O p c (ReleaseCoin a) Ha Hc Hta). cbn [wish_to wish_value wish_data] in O. unfold obeys in O. cbn [ideal] in O.
    destruct (Z.eqb_spec a coin) as [->|Na]; cbn [negb] in O; [|destruct O as (d & O & _); rewrite E in O; discriminate].
    destruct (negb _); [rewrite E in O; discriminate|]. destruct (refused _ _ _); [destruct O as (d & O & _); rewrite E in O; discriminate|].
    destruct O as (s' & E1 & S1 & F1). rewrite E in E1.
    apply pair_equal_spec in E1. destruct E1 as [E1 <-]. eexists. split; [exact S1|]. split; [exact F1|]. split; [congruence|]. split; [reflexivity|].
    unfold coin_funds, coin_due. cbn [with_coins v_paid v_coin_paid v_ether v_coins v_clock v_owner order_effect with_balances l_balance l_supply l_allowance]. fold (coin_funds this b).
    rewrite moved_out, moved_in by congruence. split; [lia|]. split; [unfold coin_funds; lia|]. split; [lia|].
    split; [intros x H1 H2; apply moved_from; assumption|]. repeat (split; [reflexivity|]). intros L. unfold vested_part.
    assert (0 <= duration) by (destruct Hup as (_ & _ & _ & _ & _ & Hd); apply Hd).
    replace (v_clock b <? start) with false by lia. replace (start + duration <=? v_clock b) with true by lia. unfold coin_funds. lia.
  Qed.

  (** What came in is what was sent in: no other call brings money in or takes it out of the count. *)
  Lemma funds_count l : List.Forall (deed_fits this coin) l -> forall b,
    funds this (fold_left (by_hand this coin start duration) l b) = funds this b + came_in this coin start duration l b.
  Proof.
    induction 1 as [|x l Hx _ IH]; intros b; cbn [fold_left came_in]; [lia|]. rewrite IH.
    enough (funds this (by_hand this coin start duration b x) = funds this b +
      match x with Wish p c (Fund v) => match ideal this coin start duration p c (Fund v) b with Done _ _ => v | _ => 0 end | _ => 0 end) by lia.
    destruct x as [p c r|d]; [|unfold funds; cbn [by_hand later v_ether v_paid]; lia]. destruct Hx as (Ha & Hc & Hr). cbn [by_hand].
    destruct r as [|a|a| |v|o|a v d]; cbn [ideal].
    - destruct (negb _); [lia|]. unfold takes. destruct (Z.eqb_spec (v_owner b) this) as [|N]; [cbn [orb]; lia|]. cbn [orb].
      destruct (if v_owner b =? coin then _ else _); [|lia]. unfold funds, due. cbn [with_ether v_paid v_ether]. rewrite moved_out by congruence. lia.
    - destruct (negb _); [lia|]. destruct (negb _); [lia|]. destruct (refused _ _ _); [lia|]. unfold funds; cbn [with_coins v_ether v_paid]; lia.
    - destruct (negb _); [lia|]. destruct (a =? 0); unfold funds; cbn [with_owner v_ether v_paid]; lia.
    - destruct (negb _); unfold funds; cbn [with_owner v_ether v_paid]; lia.
    - destruct (_ <? _); [lia|]. unfold funds; cbn [with_ether v_ether v_paid]. rewrite moved_in by exact Hc. lia.
    - destruct (decide _ _) as [[]|[|]]; unfold funds; cbn [with_coins v_ether v_paid]; lia.
    - destruct Hr as (N1 & N2 & Hv). destruct (_ <? _); [lia|]. destruct (p a); [|lia]. unfold funds; cbn [with_ether v_ether v_paid].
      rewrite moved_from by congruence. lia.
  Qed.
  Theorem c93_nothing_lost :
    forall l, set_up this coin start duration -> at_first this owner t m -> List.Forall (deed_fits this coin) l ->
    exists b, shows (after (map (happening_of this coin) l)) b /\ purse_fits b /\
      v_ether b this + v_paid b = came_in this coin start duration l (new_purse owner t (fun a => mget m a)).
  Proof.
    intros l Hup H0 Hl. destruct (c93_computed_by_hand l Hup H0 Hl) as [S F]. eexists. split; [exact S|]. split; [exact F|].
    pose proof (funds_count l Hl (new_purse owner t (fun a => mget m a))) as K. unfold funds in K at 1. rewrite K.
    destruct H0 as (_ & _ & _ & _ & H0). unfold funds. cbn [new_purse v_ether v_paid]. lia.
  Qed.

  (** The exit: with less than [2^192] received, anyone's release succeeds exactly when the owner,
      who is neither the wallet nor the token, takes the money; otherwise the answer is the owner's
      own bytes - the error [ReleaseEtherFailed()] the contract declares is never used. *)
  Theorem c93_release_is_up_to_the_owner :
    forall h p c, set_up this coin start duration -> at_first this owner t m -> sane h -> is_address c -> c <> this ->
    forall b, purse_fits b -> shows (after h) b -> funds this b < 2 ^ 192 ->
    (v_owner b = this \/ v_owner b = coin -> call p this c 0 (calldata "release()" []) (after h) = (Reverted [], after h)) /\
    (v_owner b <> this -> v_owner b <> coin -> forall d, p (v_owner b) = Reverted d ->
       call p this c 0 (calldata "release()" []) (after h) = (Reverted d, after h)) /\
    (v_owner b <> this -> v_owner b <> coin -> forall d, p (v_owner b) = Returned d ->
       exists w', call p this c 0 (calldata "release()" []) (after h) = (Returned [], w')).
  Proof.
    intros h p c Hup H0 Hh Ha Hc b F S L. destruct (c93_wallet_is_the_ideal h Hup H0 Hh) as (_ & K & _). destruct (K b F S) as [O _].
    destruct (c93_schedule_holds h [] Hup H0 Hh (List.Forall_nil _) b b F F S) as ((B1 & B2 & B3) & _); [rewrite app_nil_r; exact S|].
    specialize (O p c Release Ha Hc I). cbn [wish_to wish_value wish_data] in O. unfold obeys in O. cbn [ideal] in O.
    rewrite (countable_small this coin start duration Hup) in O by lia. cbn [negb] in O. unfold takes in O. split; [|split].
    - intros Ho. replace ((v_owner b =? this) || (v_owner b =? coin)) with true in O by lia. exact O.
    - intros N1 N2 d E. replace ((v_owner b =? this) || (v_owner b =? coin)) with false in O by lia. rewrite E in O. exact O.
    - intros N1 N2 d E. replace ((v_owner b =? this) || (v_owner b =? coin)) with false in O by lia. rewrite E in O.
      destruct O as (w' & O & _). exists w'. exact O.
  Qed.
End theorems.
Print Assumptions c93_wallet_is_the_ideal.
Print Assumptions c93_computed_by_hand.
Print Assumptions c93_nothing_else.
Print Assumptions c93_schedule_holds.
Print Assumptions c93_what_release_does.
Print Assumptions c93_what_token_release_does.
Print Assumptions c93_nothing_lost.
Print Assumptions c93_release_is_up_to_the_owner.

(** ** Non-vacuity: half of the time has passed, and an owner who does not want money *)
Definition glad : payees := fun _ => Returned [].
Definition rude : payees := fun _ => Reverted [1; 2; 3].
Definition wallet_story : list deed :=
  [Wish glad 10 (Fund 90); Waiting 150; Wish glad 20 Release; Wish glad 20 (OnToken (Issue 9 1000)); Wish rude 30 (ReleaseCoin 7);
   Wish glad 10 (Give 30 5 [4]); Wish glad 10 (Fund 20)].
Definition some_money : gmap Z Z := mset ∅ 10 1000.
Lemma wallet_story_fits : List.Forall (deed_fits 9 7) wallet_story.
Proof.
  assert (A10 : is_address 10) by (split; [discriminate|reflexivity]). assert (A20 : is_address 20) by (split; [discriminate|reflexivity]).
  assert (A30 : is_address 30) by (split; [discriminate|reflexivity]). assert (A9 : is_address 9) by (split; [discriminate|reflexivity]).
  assert (A7 : is_address 7) by (split; [discriminate|reflexivity]).
  unfold wallet_story. apply List.Forall_cons; [split; [exact A10|split; [discriminate|split; [discriminate|reflexivity]]]|].
  apply List.Forall_cons; [discriminate|].
  apply List.Forall_cons; [split; [exact A20|split; [discriminate|exact I]]|].
  apply List.Forall_cons; [split; [exact A20|split; [discriminate|split; [exact A9|split; [discriminate|reflexivity]]]]|].
  apply List.Forall_cons; [split; [exact A30|split; [discriminate|exact A7]]|].
  apply List.Forall_cons; [split; [exact A10|split; [discriminate|split; [discriminate|split; [discriminate|split; [discriminate|reflexivity]]]]]|].
  apply List.Forall_cons; [split; [exact A10|split; [discriminate|split; [discriminate|reflexivity]]]|]. apply List.Forall_nil.
Qed.
Lemma wallet_set_up : set_up 9 7 1000 100.
Proof. repeat (split; [split; [discriminate|reflexivity]||discriminate|]). reflexivity. Qed.
Lemma some_money_fits : at_first 9 50 900 some_money.
Proof.
  split; [split; [discriminate|reflexivity]|]. split; [discriminate|]. split; [|split; reflexivity].
  intros a. unfold some_money. rewrite mget_set, mget_empty. destruct (stdpp.base.decide (10 = a)); discriminate.
Qed.
Definition story_end : purse := fold_left (by_hand 9 7 1000 100) wallet_story (new_purse 50 900 (fun a => mget some_money a)).
Lemma story_numbers :
  (v_paid story_end, v_coin_paid story_end, v_ether story_end 9, v_ether story_end 50, v_ether story_end 30, l_balance (v_coins story_end) 50,
   told 9 7 1000 100 Releasable story_end, told 9 7 1000 100 (Vested 1100) story_end,
   match ideal 9 7 1000 100 rude 20 Release story_end with Quoted d => d | _ => [] end,
   match ideal 9 7 1000 100 glad 20 (HandOver 20) story_end with Refused why => Some why | _ => None end,
   came_in 9 7 1000 100 wallet_story (new_purse 50 900 (fun a => mget some_money a)), v_owner story_end) =
  (45, 500, 65, 45, 5, 500, inl 10, inl 110, [1; 2; 3], Some (OwnableUnauthorizedAccount 20), 110, 50).
Proof. vm_compute. reflexivity. Qed.
Definition story_world := wallet_run 9 7 1000 100 (map (happening_of 9 7) wallet_story) (deployed 50 900 some_money).
Lemma story_shows : shows_purse 9 7 (wallet_call 9 7 1000 100) ether clock story_world story_end.
Proof. exact (proj1 (c93_computed_by_hand 9 7 1000 100 50 900 some_money wallet_story wallet_set_up some_money_fits wallet_story_fits)). Qed.
Lemma story_good : Good 9 7 1000 100 story_world /\ agree 7 story_world story_end.
Proof.
  exact (deeds_run 9 7 1000 100 wallet_set_up wallet_story wallet_story_fits _ _
    (proj1 (deployed_good 9 7 1000 100 50 900 some_money some_money_fits)) (proj2 (deployed_good 9 7 1000 100 50 900 some_money some_money_fits))).
Qed.
Example c93_nonvacuous :
  let call := wallet_call 9 7 1000 100 in
  let w := story_world in
  set_up 9 7 1000 100 /\ at_first 9 50 900 some_money /\ List.Forall (deed_fits 9 7) wallet_story /\
  says (call glad) 9 w "released()" [] 45 /\ says (call glad) 9 w "released(address)" [Word 7] 500 /\
  says (call glad) 7 w "balanceOf(address)" [Word 50] 500 /\ ether w 9 = 65 /\ ether w 50 = 45 /\ ether w 30 = 5 /\
  call rude 9 20 0 (calldata "release()" []) w = (Reverted [1; 2; 3], w) /\
  (exists w', call glad 9 20 0 (calldata "release()" []) w = (Returned [], w') /\ ether w' 50 = 55).
Proof.
  intros call w. split; [exact wallet_set_up|]. split; [exact some_money_fits|]. split; [exact wallet_story_fits|].
  pose proof story_shows as S. pose proof story_good as [G A]. fold w in S, G, A. clearbody w. pose proof story_numbers as N.
  apply pair_equal_spec in N. destruct N as [N N12]. apply pair_equal_spec in N. destruct N as [N _].
  apply pair_equal_spec in N. destruct N as [N _]. apply pair_equal_spec in N. destruct N as [N _].
  apply pair_equal_spec in N. destruct N as [N _]. apply pair_equal_spec in N. destruct N as [N _].
  apply pair_equal_spec in N. destruct N as [N N6]. apply pair_equal_spec in N. destruct N as [N N5]. apply pair_equal_spec in N. destruct N as [N N4].
  apply pair_equal_spec in N. destruct N as [N N3]. apply pair_equal_spec in N. destruct N as [N1 N2].
  assert (A50 : is_address 50) by (split; [discriminate|reflexivity]). assert (A7 : is_address 7) by (split; [discriminate|reflexivity]).
  assert (A20 : is_address 20) by (split; [discriminate|reflexivity]).
  destruct S as (Sp & Se & Sc). destruct (Sp glad) as (_ & R1 & R2 & (_ & R3 & _)).
  rewrite N1 in R1. specialize (R2 7 A7). rewrite N2 in R2. specialize (R3 50 A50). rewrite N6 in R3.
  split; [exact R1|]. split; [exact R2|]. split; [exact R3|].
  split; [rewrite <- N3; apply Se|]. split; [rewrite <- N4; apply Se|]. split; [rewrite <- N5; apply Se|].
  pose proof (wish_ok 9 7 1000 100 wallet_set_up w story_end rude 20 Release G A A20 ltac:(discriminate) I) as D1.
  pose proof (wish_ok 9 7 1000 100 wallet_set_up w story_end glad 20 Release G A A20 ltac:(discriminate) I) as D2.
  assert (E1 : ideal 9 7 1000 100 rude 20 Release story_end = Quoted [1; 2; 3]) by (vm_compute; reflexivity). rewrite E1 in D1. split; [exact D1|].
  assert (E2 : match ideal 9 7 1000 100 glad 20 Release story_end with Done out b => Some (out, v_ether b 50) | _ => None end = Some ([], 55)) by (vm_compute; reflexivity).
  destruct (ideal 9 7 1000 100 glad 20 Release story_end) as [out b'|why|q]; [|discriminate..]. injection E2 as -> E2.
  destruct D2 as (w' & D2 & _ & (_ & _ & _ & _ & A5 & _)). exists w'. split; [exact D2|]. rewrite <- E2. symmetry. apply A5.
Qed.
