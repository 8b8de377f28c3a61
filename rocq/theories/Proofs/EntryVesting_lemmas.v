(** The vesting wallet on a chain: what each wish does. *)
From Verif.Base Require Import Prelude Bytes Keccak Maps.
From stdpp Require Import gmap.
From Coq Require Import String List.
From Verif.Model Require Import Introspection Router Entry EntryErc20 EntryVault EntryVesting.
From Verif.Model Require SolAbi Ownable Erc20 SafeErc20 Erc20World Vesting.
From Verif.Spec Require Import Router_spec SolAbi_spec LogMeaning_spec Entry_spec Ledger_spec EntryVault_spec EntryVesting_spec.
From Verif.Spec Require Erc20_spec Erc4626_spec World_spec Vesting_spec.
From Verif.Proofs Require Import Router_lemmas Entry_lemmas Ledger_lemmas EntryVault_lemmas.
From Verif.Proofs Require Erc20_inv World_lemmas Vesting_lemmas.
From Verif.Props Require Import SolAbi_props.
From Verif.Props Require Entry_props.
Import SolAbi Erc20World Vesting Vesting_spec.
#[global] Open Scope Z_scope.
Local Open Scope list_scope.
Local Open Scope Z_scope.
Opaque keccak256.

Section wallet.
  Context (this coin start duration : Z).
  Context (Hthis : is_address this) (Ht0 : this <> 0) (Hcoin : is_address coin) (Hne : this <> coin).
  Context (Hs : is_u64 start) (Hd : is_u64 duration).
  Local Notation W := (Vesting.world Erc20World.world).
  Local Notation VI := (Vesting_lemmas.VI this coin start duration).
  Local Notation xb := (bytes_ext this coin).
  Local Notation xh := (honest_ext this coin).
  Local Notation C := (ExampleWallet this coin start duration).
  Local Notation call := (wallet_call this coin start duration).
  Local Notation V := (vested_part start duration).
  Local Notation countable := (countable start duration).
  Local Notation ideal := (ideal this coin start duration).

  Record Good (w : W) : Prop := {
    g_vi : VI w;
    g_owner : is_address (owner w);
    g_other : forall t, t <> coin -> released_erc20 t w = 0;
    g_tok : Erc20_inv.Inv (tok (toks w))
  }.
  Definition agree (w : W) (b : purse) : Prop :=
    v_owner b = owner w /\ v_paid b = released_eth w /\ v_coin_paid b = released_erc20 coin w /\ v_clock b = now w /\
    (forall a, v_ether b a = Vesting.balance_of (nat_ w) a) /\ tfine (asset_st (toks w)) (v_coins b).

  (** *** The token by bytes is the honest token *)
  Lemma order_call_data c o u : order_fits o -> call_data c = order_data o ->
    entry Coin this 0 (call_data c) u = (answer_of revert_erc20 (fst (tx (Erc20.exec this (order_op o)) u)) (order_result o), Erc20.step u (this, order_op o)).
  Proof. intros Ho ->. apply coin_order, Ho. Qed.
  Lemma transfer_data o v : call_data (SafeErc20.CTransfer o v) = order_data (Pay o v).
  Proof.
    cbn [call_data]. rewrite Entry_props.call_data_sig.
    replace (signature "transfer" [Address; U256]) with "transfer(address,uint256)"%string by (vm_compute; reflexivity). reflexivity.
  Qed.
  Lemma balance_data a : call_data (SafeErc20.CBalanceOf a) = calldata "balanceOf(address)" [Word a].
  Proof.
    cbn [call_data]. rewrite Entry_props.call_data_sig.
    replace (signature "balanceOf" [Address]) with "balanceOf(address)"%string by (vm_compute; reflexivity). reflexivity.
  Qed.
  Lemma bytes_balance t s : SafeErc20.balance_of xb t this s = SafeErc20.balance_of xh t this s.
  Proof.
    unfold SafeErc20.balance_of. cbn [SafeErc20.raw_call bytes_ext honest_ext]. destruct (t =? coin); [|reflexivity].
    rewrite balance_data, coin_balance by exact Hthis. cbn [honest_call]. reflexivity.
  Qed.
  Lemma bytes_transfer t o v s : is_address o -> is_u256 v -> SafeErc20.safe_transfer xb t o v s = SafeErc20.safe_transfer xh t o v s.
  Proof.
    intros Ho Hv. unfold SafeErc20.safe_transfer, SafeErc20.call_optional_return, SafeErc20.limited_call.
    cbn [SafeErc20.has_code SafeErc20.raw_call bytes_ext honest_ext]. destruct (t =? coin); [|reflexivity]. cbn [negb].
    rewrite transfer_data, (coin_order this (Pay o v) (asset_st s) (conj Ho Hv)). cbn [order_op honest_call order_result].
    pose proof (transfer_true this o v (asset_st s)) as Tr. unfold Erc20.step, tx. cbn [fst snd Erc20.exec]. unfold Erc20.ignore, bind, ret.
    destruct (Erc20.transfer this o v (asset_st s)) as [[b|e|] u']; cbn [fst snd answer_of]; [|reflexivity..].
    rewrite (Tr b eq_refl). reflexivity.
  Qed.
  Lemma bytes_vested a t w : vested_amount_erc20 xb start duration a t w = vested_amount_erc20 xh start duration a t w.
  Proof. unfold vested_amount_erc20, bind. change (SafeErc20.self xb) with this. change (SafeErc20.self xh) with this. rewrite bytes_balance. reflexivity. Qed.
  Lemma bytes_releasable a w : releasable_erc20 xb start duration a w = releasable_erc20 xh start duration a w.
  Proof. unfold releasable_erc20, bind, gets. rewrite bytes_vested. reflexivity. Qed.
  Lemma releasable_state a w : match releasable_erc20 xh start duration a w with (Ok n, w') => w' = w /\ is_u256 n | _ => True end.
  Proof.
    unfold releasable_erc20, bind, gets. unfold vested_amount_erc20, bind, gets.
    destruct (SafeErc20.balance_of xh a (SafeErc20.self xh) (toks w)); [|exact I]. unfold cadd. destruct (_ <? two256); [|exact I].
    rewrite Vesting_lemmas.schedule_eq by assumption. destruct (Vesting_lemmas.fits _ _ _ _); [|exact I]. unfold ret. split; [reflexivity|].
    unfold wsub, is_u256. apply Z.mod_pos_bound. reflexivity.
  Qed.
  Lemma bytes_release a w : is_address (owner w) -> release_erc20 xb start duration a w = release_erc20 xh start duration a w.
  Proof.
    intros Ho. unfold release_erc20. unfold bind at 1. symmetry. unfold bind at 1. symmetry. rewrite bytes_releasable.
    pose proof (releasable_state a w) as K. destruct (releasable_erc20 xh start duration a w) as [[n|e|] w'] eqn:E; [|reflexivity..].
    destruct K as [-> Hn]. unfold bind, gets, modify, zoom, map_err, cadd. destruct (_ <? two256); [|reflexivity]. cbn [toks set_wal].
    change (Ownable.owner (own (wal w))) with (owner w). rewrite (bytes_transfer a (owner w) n (toks w) Ho Hn). reflexivity.
  Qed.

  (** *** The books *)
  Lemma V_same total t : Vesting_lemmas.V start duration total t = V total t.
  Proof. reflexivity. Qed.
  Lemma countable_same total t : (total <? two256) && Vesting_lemmas.fits start duration total t = countable total t.
  Proof. reflexivity. Qed.
  Lemma agree_funds w b : Good w -> agree w b -> total_in this w = funds this b.
  Proof.
    intros G (_ & A2 & _ & _ & A5 & _). unfold funds. rewrite A2, A5.
    exact (eq_sym (Vesting_lemmas.total_eq this coin start duration w (g_vi w G))).
  Qed.
  Lemma agree_coin_funds w b : agree w b -> token_balance this w + released_erc20 coin w = coin_funds this b.
  Proof. intros (_ & _ & A3 & _ & _ & _ & (_ & K & _) & _). unfold coin_funds. rewrite A3, (K this Hthis). reflexivity. Qed.
  Lemma agree_fits w b : Good w -> agree w b -> purse_fits b.
  Proof.
    intros G (A1 & A2 & A3 & _ & _ & _ & _ & F). split; [rewrite A1; apply g_owner, G|]. split; [rewrite A2; apply (Vesting_lemmas.i_range _ _ _ _ _ (g_vi w G))|].
    split; [rewrite A3; apply (Vesting_lemmas.i_trange _ _ _ _ _ (g_vi w G))|exact F].
  Qed.
  Definition purse_of (w : W) : purse :=
    mkPurse (owner w) (released_eth w) (released_erc20 coin w) (now w) (Vesting.balance_of (nat_ w)) (ledger_of (asset_st (toks w))).
  Lemma purse_of_agree w : Good w -> agree w (purse_of w).
  Proof.
    intros G. pose proof (Vesting_lemmas.i_asset _ _ _ _ _ (g_vi w G)) as HI. destruct (ledger_of_ok _ HI) as [F K].
    repeat (split; [reflexivity|]). split; [exact HI|]. split; assumption.
  Qed.

  (** *** What a call does *)
  Definition does (w : W) (p : payees) (to c value : Z) (data : list Z) (x : decision) : Prop :=
    match x with
    | Done out b' => exists w', call p to c value data w = (Returned out, w') /\ Good w' /\ agree w' b'
    | Refused why => exists d, call p to c value data w = (Reverted d, w) /\ decode_reason d = Some why
    | Quoted d => call p to c value data w = (Reverted d, w)
    end.
  Lemma known_wallet p : all_known (blocks (C p)) = true.
  Proof. vm_compute. reflexivity. Qed.
  Definition exposed_wallet := Eval vm_compute in exposed Pub.VestingWalletExample.
  Lemma exposed_wallet_ok p : exposed (blocks (C p)) = exposed_wallet.
  Proof. vm_compute. reflexivity. Qed.
  Lemma call_words p sig l c w t f :
    k_fits sig = true -> find_fn_k (blocks (C p)) (k sig) = Some (t, f) ->
    List.Forall2 has_type (arg_types f) (map Word l) -> size l < 10 ->
    call p this c 0 (calldata sig (map Word l)) w = finish (C p) (body_of (code (C p)) t (rust_name f) (map Word l) c w) w.
  Proof.
    intros H1 H2 H3 H4. unfold wallet_call. rewrite Z.eqb_refl.
    replace (match calldata sig (map Word l) with [] => paying c this 0 (Returned []) w | _ :: _ => entry (C p) c 0 (calldata sig (map Word l)) w end)
      with (entry (C p) c 0 (calldata sig (map Word l)) w) by reflexivity.
    apply words_request; auto.
  Qed.
  Lemma answer_nothing p (m : M W Vesting.error unit) w :
    finish (C p) (nothing m w) w =
      match m w with (Ok _, w') => (Returned [], w') | (Err e, _) => (Reverted (revert_vesting e), w) | (Panic, _) => (Reverted [], w) end.
  Proof. unfold nothing, bind. destruct (m w) as [[[]|e|] w']; reflexivity. Qed.
  Lemma answer_number p (m : M W Vesting.error Z) w :
    finish (C p) (number m w) w =
      match m w with (Ok n, w') => (Returned (word n), w') | (Err e, _) => (Reverted (revert_vesting e), w) | (Panic, _) => (Reverted [], w) end.
  Proof. unfold number, bind. destruct (m w) as [[n|e|] w']; [|reflexivity..]. cbn [ret finish]. rewrite one_word. reflexivity. Qed.

  (** Releasing the native currency. *)
  Lemma on_paid_ok p w : on_paid this coin p w = (match payee this coin p (owner w) with Returned _ => Ok tt | Reverted d => Err (CallbackReverted d) end, w).
  Proof. unfold on_paid, bind, gets. fold (owner w). destruct (payee this coin p (owner w)); reflexivity. Qed.
  Lemma on_paid_good p : Vesting_lemmas.good this coin start duration (on_paid this coin p).
  Proof. intros w H. rewrite on_paid_ok. destruct (payee _ _ _ _); [split; [exact H|apply Vesting_lemmas.R_refl]|exact I]. Qed.
  Lemma moved_send n f t v a : Entry_spec.moved (Vesting.balance_of n) f t v a = Vesting.balance_of (send f t v n) a.
  Proof.
    rewrite Vesting_lemmas.send_bal. unfold Entry_spec.moved, at_key. rewrite (Z.eqb_sym t f).
    destruct (Z.eqb_spec a t), (Z.eqb_spec a f), (Z.eqb_spec f t); subst; try congruence; lia.
  Qed.
  Lemma moved_ext (f g : Z -> Z) x y v : (forall a, f a = g a) -> forall a, Entry_spec.moved f x y v a = Entry_spec.moved g x y v a.
  Proof. intros H a. unfold Entry_spec.moved, at_key. rewrite !H. reflexivity. Qed.
  Lemma release_does w b p c : Good w -> agree w b -> does w p this c 0 (wish_data Release) (ideal p c Release b).
  Proof.
    intros G A. pose proof (agree_funds w b G A) as Ef. pose proof A as (A1 & A2 & A3 & A4 & A5 & A6).
    pose proof (Vesting_lemmas.good_release this coin start duration Hs Hd (on_paid this coin p) (on_paid_good p) w (g_vi w G)) as GV.
    pose proof (Vesting_lemmas.release_eq this coin start duration Hs Hd (on_paid this coin p) w (g_vi w G)) as Eq.
    assert (Ec : call p this c 0 (wish_data Release) w = finish (C p) (nothing (release_eth xh start duration (on_paid this coin p)) w) w).
    { cbn [wish_data]. change (@nil val) with (map Word []).
      refine (eq_trans (call_words p "release()"%string (@nil Z) c w "VestingWallet"%string (fn_as "release" "release_eth" []) _ _ _ _) _);
        [vm_compute; reflexivity|vm_compute; reflexivity|apply List.Forall2_nil|reflexivity|]. reflexivity. }
    rewrite answer_nothing in Ec. unfold EntryVesting_spec.ideal. rewrite Eq, on_paid_ok in Ec. rewrite Eq, on_paid_ok in GV. clear Eq.
    rewrite Ef, countable_same, <- A4 in Ec. rewrite Ef, countable_same, <- A4 in GV.
    change (takes this coin p (v_owner b)) with (payee this coin p (v_owner b)). rewrite A1.
    change (owner (Vesting_lemmas.paid this start duration w)) with (owner w) in *.
    destruct (countable (funds this b) (v_clock b)) eqn:Ek; cbn [negb]; [|exact Ec].
    destruct (payee this coin p (owner w)) as [d|d] eqn:Ep; cbn [does]; [|exact Ec].
    cbv beta iota in GV, Ec. destruct GV as [GV _]. eexists. split; [exact Ec|]. split.
    - split; [exact GV|exact (g_owner w G)| |exact (g_tok w G)]. intros t Ht. exact (g_other w G t Ht).
    - split; [exact A1|]. split; [cbn [with_ether v_paid]; change (released_eth ?x) with (Vesting_lemmas.V start duration (total_in this w) (now w))|].
      + rewrite Ef, V_same, <- A4. unfold due. lia.
      + split; [exact A3|]. split; [exact A4|]. split; [|exact A6]. intros a. cbn [with_ether v_ether].
        rewrite (moved_ext _ _ _ _ _ A5), moved_send. unfold due. rewrite <- Ef, A2, A4. reflexivity.
  Qed.

  (** Ownership. *)
  Lemma own_does w b p c r o : Good w -> agree w b -> is_address c ->
    (r = Renounce /\ o = Ownable.ORenounce) \/ (exists a, is_address a /\ r = HandOver a /\ o = Ownable.OTransferOwnership a) ->
    call p this c 0 (wish_data r) w = finish (C p) (nothing (ownership c o) w) w ->
    does w p this c 0 (wish_data r) (ideal p c r b).
  Proof.
    intros G A Hc Hr Ec. rewrite answer_nothing in Ec. pose proof A as (A1 & A2 & A3 & A4 & A5 & A6).
    pose proof (Vesting_lemmas.good_own this coin start duration c o w (g_vi w G)) as GV.
    assert (Nu : decode_reason (revert_vesting (ErrOwnable (Ownable.UnauthorizedAccount c))) = Some (OwnableUnauthorizedAccount c)).
    { apply (revert_vesting_ok (ErrOwnable (Ownable.UnauthorizedAccount c))); [reflexivity|]. apply F1, address_fits, Hc. }
    assert (Nz : decode_reason (revert_vesting (ErrOwnable (Ownable.InvalidOwner 0))) = Some (OwnableInvalidOwner 0)).
    { apply (revert_vesting_ok (ErrOwnable (Ownable.InvalidOwner 0))); [reflexivity|]. apply F1, zero_fits. }
    unfold ownership, zoom, map_err in Ec, GV.
    assert (St : forall s', is_address (Ownable.owner s') -> VI (set_wal (set_own s' (wal w)) w) ->
      Good (set_wal (set_own s' (wal w)) w) /\ agree (set_wal (set_own s' (wal w)) w) (with_owner b (Ownable.owner s'))).
    { intros s' Ho HV. split; [split; [exact HV|exact Ho|exact (g_other w G)|exact (g_tok w G)]|].
      split; [reflexivity|]. split; [exact A2|]. split; [exact A3|]. split; [exact A4|]. split; [exact A5|exact A6]. }
    destruct Hr as [[-> ->]|(a & Ha & -> & ->)]; unfold EntryVesting_spec.ideal; cbn [Ownable.exec] in *;
      unfold Ownable.renounce_ownership, Ownable.transfer_ownership, Ownable.only_owner, Ownable._transfer_ownership, fail_if, bind, gets, modify in Ec, GV;
      rewrite (Z.eqb_sym c (v_owner b)), A1; fold (owner w) in Ec, GV; destruct (owner w =? c); cbn [negb] in *; cbn [does].
    - eexists. split; [exact Ec|]. apply (St (Ownable.mk 0 _)); [unfold is_address; cbn [Ownable.owner]; lia|exact (proj1 GV)].
    - eexists. split; [exact Ec|exact Nu].
    - destruct (a =? 0); cbn [does].
      + eexists. split; [exact Ec|exact Nz].
      + eexists. split; [exact Ec|]. apply (St (Ownable.mk a _)); [exact Ha|exact (proj1 GV)].
    - eexists. split; [exact Ec|exact Nu].
  Qed.

  (** Money. *)
  Lemma paying_does w b p to c v data a : Good w -> agree w b -> c <> this -> 0 <= v ->
    call p to c v data w = paying c to v a w ->
    does w p to c v data
      (if v_ether b c <? v then Quoted [] else
       match a with Returned d => Done d (with_ether b (v_paid b) (Entry_spec.moved (v_ether b) c to v)) | Reverted d => Quoted d end).
  Proof.
    intros G A Hc Hv Ec. pose proof A as (A1 & A2 & A3 & A4 & A5 & A6). unfold paying in Ec. rewrite A5.
    destruct (Vesting.balance_of (nat_ w) c <? v) eqn:E; [exact Ec|]. destruct a as [d|d]; [|exact Ec]. cbn [does]. eexists. split; [exact Ec|].
    pose proof (Vesting_lemmas.good_send this coin start duration c to v Hc w (g_vi w G)) as GV. cbn [exec] in GV.
    replace (0 <=? v) with true in GV by lia. replace (v <=? Vesting.balance_of (nat_ w) c) with true in GV by lia. cbn [andb] in GV. split.
    - split; [exact (proj1 GV)|exact (g_owner w G)|exact (g_other w G)|exact (g_tok w G)].
    - split; [exact A1|]. split; [exact A2|]. split; [exact A3|]. split; [exact A4|]. split; [|exact A6].
      intros x. cbn [with_ether v_ether nat_ set_nat]. rewrite (moved_ext _ _ _ _ _ A5). apply moved_send.
  Qed.

  (** The token. *)
  Lemma order_public o : World_spec.third_party_op (order_op o).
  Proof. destruct o as [a v|a v|a b v|a v]; [left; exact I..|right; exists a, v; reflexivity]. Qed.
  Lemma coin_call_eq p c v d w : call p coin c v d w = (fst (entry Coin c v d (asset_st (toks w))), set_toks (set_asset (snd (entry Coin c v d (asset_st (toks w)))) (toks w)) w).
  Proof.
    unfold wallet_call. replace (coin =? this) with false by lia. rewrite Z.eqb_refl. destruct (entry Coin c v d (asset_st (toks w))); reflexivity.
  Qed.
  Lemma same_toks (w : W) : set_toks (set_asset (asset_st (toks w)) (toks w)) w = w.
  Proof. destruct w as [a n t [s1 s2 l]]. reflexivity. Qed.
  Lemma order_does w b p c o : Good w -> agree w b -> is_address c -> c <> this -> order_fits o ->
    does w p coin c 0 (order_data o) (ideal p c (OnToken o) b).
  Proof.
    intros G A Ha Hc Ho. pose proof A as (A1 & A2 & A3 & A4 & A5 & A6).
    pose proof (order_meets (asset_st (toks w)) (v_coins b) c o A6 Ha Ho) as K. unfold meets in K.
    pose proof (coin_call_eq p c 0 (order_data o) w) as Ec. rewrite (coin_order c o _ Ho) in Ec. unfold Erc20.step, tx in Ec. cbn [fst snd] in Ec.
    pose proof (Vesting_lemmas.good_token this coin start duration Ht0 c (order_op o) (conj Hc (conj (order_op_wf o Ho) (order_public o))) w (g_vi w G)) as GV.
    cbn [exec] in GV. unfold zoom, map_err, on_asset, zoom in GV.
    unfold EntryVesting_spec.ideal. destruct (decide (order_checks c o (v_coins b)) tt) as [[]|[why|]]; cbn [does].
    - destruct K as (t' & K & F). rewrite K in Ec, GV. cbn [fst snd answer_of] in Ec. eexists. split; [exact Ec|]. split.
      + split; [exact (proj1 GV)|exact (g_owner w G)|exact (g_other w G)|exact (g_tok w G)].
      + split; [exact A1|]. split; [exact A2|]. split; [exact A3|]. split; [exact A4|]. split; [exact A5|exact F].
    - destruct K as (e & t' & K & Hr & Hf). rewrite K in Ec. cbn [fst snd answer_of] in Ec. rewrite same_toks in Ec. eexists. split; [exact Ec|].
      subst why. apply revert_erc20_ok, Hf.
    - destruct K as (t' & K). rewrite K in Ec. cbn [fst snd answer_of] in Ec. rewrite same_toks in Ec. exact Ec.
  Qed.

  (** Releasing tokens. *)
  Lemma coin_release_eq w b : Good w -> agree w b ->
    release_erc20 xb start duration coin w =
      if countable (coin_funds this b) (now w) then
        let n := coin_due this start duration b in
        let a := set_erc20_released coin (released_erc20 coin w + n) (wal w) in
        match SafeErc20.safe_transfer xb coin (owner w) n (toks w) with
        | (Ok _, t') => (Ok tt, mkw (emit (ERC20Released coin n) a) (nat_ w) (now w) t')
        | (Err e, t') => (Err (ErrSafeErc20 e), mkw a (nat_ w) (now w) t')
        | (Panic, t') => (Panic, mkw a (nat_ w) (now w) t')
        end
      else (Panic, w).
  Proof.
    intros G A. pose proof (agree_coin_funds w b A) as Ef. pose proof A as (A1 & A2 & A3 & A4 & A5 & A6).
    pose proof (Vesting_lemmas.i_trange _ _ _ _ _ (g_vi w G)) as Tr.
    unfold release_erc20. unfold bind at 1. rewrite bytes_releasable, (Vesting_lemmas.treleasable_eq this coin start duration Hs Hd w (g_vi w G)).
    cbv zeta. rewrite Ef, countable_same. destruct (countable (coin_funds this b) (now w)) eqn:Ek; [|reflexivity].
    rewrite V_same. replace (V (coin_funds this b) (now w) - released_erc20 coin w) with (coin_due this start duration b) by (unfold coin_due; rewrite A3, A4; reflexivity).
    unfold bind, gets, cadd, modify. 
    assert (L : released_erc20 coin w + coin_due this start duration b < two256).
    { unfold coin_due. rewrite A3, A4. unfold EntryVesting_spec.countable in Ek. apply andb_prop in Ek. destruct Ek as [Ek _].
      pose proof (Vesting_lemmas.V_bounds start duration (coin_funds this b) (now w)) as B. rewrite V_same in B.
      assert (0 <= coin_funds this b); [|lia]. rewrite <- Ef. pose proof (Vesting_lemmas.i_asset _ _ _ _ _ (g_vi w G)) as HI.
      pose proof (balance_fits _ this HI) as Hb. unfold is_u256 in Hb. unfold token_balance, World_spec.asset_bal. lia. }
    replace (released_erc20 coin w + coin_due this start duration b <? two256) with true by lia.
    unfold zoom, map_err. cbn [toks set_wal wal]. change (Ownable.owner (own (wal w))) with (owner w).
    destruct (SafeErc20.safe_transfer xb coin (owner w) (coin_due this start duration b) (toks w)) as [[[]|e|] t']; reflexivity.
  Qed.
  Lemma coin_release_does w b p c t : Good w -> agree w b -> is_address t -> does w p this c 0 (wish_data (ReleaseCoin t)) (ideal p c (ReleaseCoin t) b).
  Proof.
    intros G A Ht.
    assert (Ec : call p this c 0 (wish_data (ReleaseCoin t)) w = finish (C p) (nothing (release_erc20 xb start duration t) w) w).
    { cbn [wish_data]. change [Word t] with (map Word [t]).
      refine (eq_trans (call_words p "release(address)"%string [t] c w "VestingWallet"%string (fn_as "release" "release_erc20" [Address]) _ _ _ _) _);
        [vm_compute; reflexivity|vm_compute; reflexivity|clear - Ht; types|reflexivity|]. reflexivity. }
    rewrite answer_nothing in Ec. unfold EntryVesting_spec.ideal. destruct (Z.eqb_spec t coin) as [->|Nt]; cbn [negb].
    2: { rewrite (bytes_release t w (g_owner w G)), (Vesting_lemmas.other_token this coin start duration w t Nt) in Ec. cbn [does].
         eexists. split; [exact Ec|]. apply (revert_vesting_ok (Vesting.InvalidToken t)); [reflexivity|]. apply F1, address_fits, Ht. }
    pose proof (Vesting_lemmas.good_trelease this coin start duration Hs Hd Ht0 coin w (g_vi w G)) as GV.
    rewrite <- (bytes_release coin w (g_owner w G)) in GV. rewrite (coin_release_eq w b G A) in Ec, GV. pose proof A as (A1 & A2 & A3 & A4 & A5 & A6).
    rewrite A4. destruct (countable (coin_funds this b) (now w)) eqn:Ek; cbn [negb]; [|exact Ec]. cbv zeta in Ec, GV. rewrite A1.
    assert (Hn : is_u256 (coin_due this start duration b)).
    { pose proof (Vesting_lemmas.i_tvest _ _ _ _ _ (g_vi w G)) as Tv. rewrite (agree_coin_funds w b A), V_same in Tv.
      pose proof (Vesting_lemmas.V_bounds start duration (coin_funds this b) (now w)) as B. rewrite V_same in B.
      pose proof (Vesting_lemmas.i_trange _ _ _ _ _ (g_vi w G)) as Tr. unfold EntryVesting_spec.countable in Ek. apply andb_prop in Ek. destruct Ek as [Ek _].
      assert (0 <= coin_funds this b).
      { rewrite <- (agree_coin_funds w b A). pose proof (balance_fits _ this (Vesting_lemmas.i_asset _ _ _ _ _ (g_vi w G))) as Hb. unfold is_u256 in Hb.
        unfold token_balance, World_spec.asset_bal. lia. }
      unfold is_u256, coin_due. rewrite A3, A4. lia. }
    assert (Fi : fine (toks w) (mkBooks (v_coins b) (ledger_of (tok (toks w))))).
    { split; [exact A6|]. destruct (ledger_of_ok _ (g_tok w G)) as [F K]. split; [exact (g_tok w G)|]. split; assumption. }
    pose proof (push_meets this coin Hthis reason_safe_erc20 (fun e => e) (owner w) (coin_due this start duration b) (toks w) _ eq_refl Hcoin Fi (g_owner w G) Hn) as M.
    unfold meets, map_err in M. cbn [decide coins] in M.
    destruct (refused this (Pay (owner w) (coin_due this start duration b)) (v_coins b)); cbn [does].
    - destruct M as (e & s' & M & Hr & Hf). destruct (SafeErc20.safe_transfer xb coin (owner w) (coin_due this start duration b) (toks w)) as [[[]|e'|] t']; try discriminate.
      eexists. split; [exact Ec|]. apply (revert_vesting_ok (ErrSafeErc20 e')); [|apply F1, address_fits, Hcoin].
      cbn [reason_vesting]. f_equal. rewrite <- Hr. f_equal. congruence.
    - destruct M as (s' & M & [F1' F2']). destruct (SafeErc20.safe_transfer xb coin (owner w) (coin_due this start duration b) (toks w)) as [[[]|e'|] t']; try discriminate.
      assert (t' = s') as -> by congruence. destruct GV as [GV _]. eexists. split; [exact Ec|]. split.
      + split; [exact GV|exact (g_owner w G)| |exact (proj1 F2')]. intros t Ht'. unfold released_erc20. cbn [wal emit set_erc20_released erc20_released].
        rewrite mget_set_ne by congruence. exact (g_other w G t Ht').
      + split; [exact A1|]. split; [exact A2|]. split; [|split; [exact A4|split; [exact A5|exact F1']]].
        cbn [with_coins v_coin_paid]. unfold released_erc20 at 1. cbn [wal emit set_erc20_released erc20_released]. rewrite mget_set_eq, A3. reflexivity.
  Qed.
  Lemma wish_does w b p c r : Good w -> agree w b -> is_address c -> c <> this -> wish_fits this coin r ->
    does w p (wish_to this coin r) c (wish_value r) (wish_data r) (ideal p c r b).
  Proof.
    intros G A Ha Hc Hr. destruct r as [|t|a| |v|o|a v d]; cbn [wish_to wish_value].
    - apply release_does; assumption.
    - apply coin_release_does; assumption.
    - apply (own_does w b p c _ (Ownable.OTransferOwnership a) G A Ha); [right; exists a; auto|].
      cbn [wish_data]. change [Word a] with (map Word [a]).
      refine (eq_trans (call_words p "transferOwnership(address)"%string [a] c w "VestingWallet"%string (fn "transfer_ownership" [Address]) _ _ _ _) _);
        [vm_compute; reflexivity|vm_compute; reflexivity|clear - Hr; cbn [wish_fits] in Hr; types|reflexivity|]. reflexivity.
    - apply (own_does w b p c _ Ownable.ORenounce G A Ha); [left; auto|].
      cbn [wish_data]. change (@nil val) with (map Word []).
      refine (eq_trans (call_words p "renounceOwnership()"%string (@nil Z) c w "VestingWallet"%string (fn "renounce_ownership" []) _ _ _ _) _);
        [vm_compute; reflexivity|vm_compute; reflexivity|apply List.Forall2_nil|reflexivity|]. reflexivity.
    - cbn [wish_fits] in Hr. apply (paying_does w b p this c v [] (Returned []) G A Hc (proj1 Hr)).
      unfold wallet_call. rewrite Z.eqb_refl. reflexivity.
    - apply order_does; assumption.
    - destruct Hr as (N1 & N2 & Hv). apply (paying_does w b p a c v d (p a) G A Hc (proj1 Hv)).
      unfold wallet_call. replace (a =? this) with false by lia. replace (a =? coin) with false by lia. reflexivity.
  Qed.
End wallet.
