(** Property theorems for flash loans (C09). *)
From Verif.Base Require Import Prelude Maps.
From Verif.Model Require Erc20 FlashMint.
From Verif.Spec Require Import Erc20_spec FlashMint_spec.
From Verif.Proofs Require Import Erc20_inv Erc20_api Erc20_hist.
From stdpp Require Import gmap.
Import FlashMint.
#[global] Open Scope Z_scope.

Scheme call_mind := Induction for call Sort Prop
with calls_mind := Induction for calls Sort Prop.
Combined Scheme call_calls_ind from call_mind, calls_mind.

Record env_wf (e : env) : Prop := {
  wf_fee : is_u256 (flash_fee_value e);
  wf_this : this e <> 0
}.

(** The state the borrower's callback starts from: [value] freshly minted. *)
Definition minted (s s1 : Erc20.state) (a v : Z) : Prop :=
  Erc20.balance_of s1 a = Erc20.balance_of s a + v /\
  (forall b, b <> a -> Erc20.balance_of s1 b = Erc20.balance_of s b) /\
  Erc20.total_supply s1 = Erc20.total_supply s + v /\ same_allowances s s1 /\
  Erc20.log s1 = Erc20.log s ++ [Erc20.Transfer 0 a v].

(** What settling the loan does to the state [s2] at the end of the callback. *)
Definition settled (e : env) (receiver value : Z) (s2 s' : Erc20.state) : Prop :=
  let fee := flash_fee_value e in
  let fr := flash_fee_receiver e in
  Erc20.allowance s' receiver (this e) =
    (if Erc20.allowance s2 receiver (this e) =? U256_MAX then U256_MAX
     else Erc20.allowance s2 receiver (this e) - (value + fee)) /\
  other_allowances_same s2 s' receiver (this e) /\
  if (fee =? 0) || (fr =? 0) then
    Erc20.balance_of s' receiver = Erc20.balance_of s2 receiver - (value + fee) /\
    (forall b, b <> receiver -> Erc20.balance_of s' b = Erc20.balance_of s2 b) /\
    Erc20.total_supply s' = Erc20.total_supply s2 - (value + fee) /\
    Erc20.log s' = Erc20.log s2 ++ [Erc20.Transfer receiver 0 (value + fee)]
  else
    (forall b, b <> 0 -> Erc20.balance_of s' b =
       Erc20.balance_of s2 b - delta b receiver (value + fee) + delta b fr fee) /\
    Erc20.total_supply s' = Erc20.total_supply s2 - value /\
    Erc20.log s' = Erc20.log s2 ++ [Erc20.Transfer receiver 0 value; Erc20.Transfer receiver fr fee].

Section proofs.
  Context (e : env) (He : env_wf e).

  Lemma cadd_u256 {S E} a b (s : S) : @cadd S E a b s = if a + b <? two256 then (Ok (a + b), s) else (Panic, s).
  Proof. reflexivity. Qed.

  Lemma mint_ok_inv a v s s1 : Inv s -> is_u256 v -> Erc20._mint a v s = (Ok tt, s1) -> Inv s1.
  Proof. intros HI Hv E. pose proof (inv_mint a v s HI Hv) as H. rewrite E in H. exact H. Qed.

  Lemma settle_inv receiver value s : Inv s -> is_u256 value -> Inv (snd (settle e receiver value s)).
  Proof.
    intros HI Hv. pose proof (wf_fee e He) as Hf. unfold settle. unfold is_u256 in *. cbv zeta.
    unfold bind, map_err. rewrite cadd_u256. destruct (Z.ltb_spec (value + flash_fee_value e) two256); [|exact HI].
    pose proof (inv_spend receiver (this e) (value + flash_fee_value e) s HI ltac:(unfold is_u256; lia)) as H1.
    destruct (Erc20._spend_allowance _ _ _ s) as [[[]|x|] s1]; cbn in H1 |- *; try exact H1.
    destruct (_ || _).
    - pose proof (inv_burn_ receiver (value + flash_fee_value e) s1 H1 ltac:(unfold is_u256; lia)) as H2.
      destruct (Erc20._burn _ _ s1) as [[[]|x|] s2]; exact H2.
    - pose proof (inv_burn_ receiver value s1 H1 ltac:(unfold is_u256; lia)) as H2.
      destruct (Erc20._burn _ _ s1) as [[[]|x|] s2]; cbn in H2 |- *; try exact H2.
      pose proof (inv_transfer_ receiver (flash_fee_receiver e) (flash_fee_value e) s2 H2 Hf) as H3.
      destruct (Erc20._transfer _ _ _ s2) as [[[]|x|] s3]; exact H3.
  Qed.

  Lemma settle_spec receiver value s : Inv s -> is_u256 value -> receiver <> 0 ->
    (fst (settle e receiver value s) = Ok tt <->
       allowed s receiver (this e) (value + flash_fee_value e) /\
       value + flash_fee_value e <= Erc20.balance_of s receiver) /\
    (forall s', settle e receiver value s = (Ok tt, s') -> settled e receiver value s s').
  Proof.
    intros HI Hv Hr. pose proof (wf_fee e He) as Hf. pose proof (wf_this e He) as Ht.
    unfold settle, settled, allowed. cbv zeta. set (fee := flash_fee_value e) in *. set (fr := flash_fee_receiver e).
    assert (Hbal : forall a, Erc20.balance_of s a < two256).
    { intros a. pose proof (bal_le_supply s HI a). pose proof (inv_max s HI). lia. }
    unfold bind, map_err. rewrite cadd_u256. unfold is_u256 in Hv, Hf.
    destruct (Z.ltb_spec (value + fee) two256) as [Hlt|Hge].
    2: { split; [|intros ? HH; inversion HH]. cbn. split; [discriminate|]. intros [_ H]. specialize (Hbal receiver). lia. }
    assert (Hvf : is_u256 (value + fee)) by (unfold is_u256; lia).
    (* spending *)
    assert (HS : (~ (Erc20.allowance s receiver (this e) = U256_MAX \/ value + fee <= Erc20.allowance s receiver (this e)) /\
                  exists x s1, Erc20._spend_allowance receiver (this e) (value + fee) s = (Err x, s1)) \/
                 (( Erc20.allowance s receiver (this e) = U256_MAX \/ value + fee <= Erc20.allowance s receiver (this e)) /\
                  exists s1, Erc20._spend_allowance receiver (this e) (value + fee) s = (Ok tt, s1) /\ Inv s1 /\
                    same_balances s s1 /\ Erc20.total_supply s1 = Erc20.total_supply s /\ Erc20.log s1 = Erc20.log s /\
                    Erc20.allowance s1 receiver (this e) =
                      (if Erc20.allowance s receiver (this e) =? U256_MAX then U256_MAX
                       else Erc20.allowance s receiver (this e) - (value + fee)) /\
                    other_allowances_same s s1 receiver (this e))).
    { pose proof (inv_spend receiver (this e) (value + fee) s HI Hvf) as HI1.
      destruct (spend_spec receiver (this e) (value + fee) s HI Hvf) as
        [(_ & _ & Hm & E)|[(_ & _ & Hm & Hle & E)|(Hbad & x & E & _)]]; rewrite E in *; cbn [snd] in HI1.
      - right. split; [left; exact Hm|]. exists s. split; [reflexivity|]. split; [exact HI|].
        split; [intros ?; reflexivity|]. split; [reflexivity|]. split; [reflexivity|].
        rewrite Hm, Z.eqb_refl. split; [reflexivity|]. intros ? ? _; reflexivity.
      - right. split; [right; exact Hle|]. eexists. split; [reflexivity|]. split; [exact HI1|].
        split; [intros ?; reflexivity|]. split; [reflexivity|]. split; [reflexivity|].
        replace (Erc20.allowance s receiver (this e) =? U256_MAX) with false by lia. split.
        + rewrite allowance_set. destruct (decide _) as [_|Hn]; [reflexivity|tauto].
        + intros o sp Hne. rewrite allowance_set. destruct (decide _) as [[E1 E2]|_]; [exfalso; apply Hne; rewrite E1, E2; reflexivity|reflexivity].
      - left. split; [|eauto]. destruct Hbad as [?|[?|[? ?]]]; [contradiction|contradiction|lia]. }
    destruct HS as [(Hno & x & s1 & E)|(Hyes & s1 & E & HI1 & Sb & Ss & Sl & Sa & So)]; rewrite E.
    { split; [|intros ? HH; inversion HH]. cbn. split; [discriminate|]. tauto. }
    destruct ((fee =? 0) || (fr =? 0)) eqn:Eb.
    - destruct (burn_spec s1 receiver (value + fee) HI1 Hvf) as (B1 & B2 & B3).
      destruct (Erc20._burn receiver (value + fee) s1) as [[[]|x|] s2] eqn:EB.
      + destruct (B2 s2 eq_refl) as (P1 & P2 & P3 & P4 & P5). split.
        * cbn. split; [intros _; split; [exact Hyes|]|reflexivity]. rewrite <- Sb. apply B1. reflexivity.
        * intros s' HH. injection HH as <-. split; [rewrite P4; exact Sa|]. split; [intros o sp Hne; rewrite P4; apply So, Hne|].
          split; [rewrite P1, Sb; reflexivity|]. split; [intros b Hb; rewrite P2, Sb by exact Hb; reflexivity|].
          split; [lia|rewrite P5, Sl; reflexivity].
      + split; [|intros ? HH; inversion HH]. cbn. split; [discriminate|]. intros [_ H]. exfalso.
        assert (fst (Err x : res Erc20.error unit, s2) = Ok tt) as Hc; [|discriminate Hc].
        apply B1. split; [exact Hr|]. rewrite Sb. exact H.
      + split; [|intros ? HH; inversion HH]. cbn. split; [discriminate|]. intros [_ H]. exfalso.
        assert (fst (@Panic Erc20.error unit, s2) = Ok tt) as Hc; [|discriminate Hc].
        apply B1. split; [exact Hr|]. rewrite Sb. exact H.
    - apply orb_false_iff in Eb. destruct Eb as [Ef Efr].
      destruct (burn_spec s1 receiver value HI1 ltac:(unfold is_u256; lia)) as (B1 & B2 & B3).
      pose proof (inv_burn_ receiver value s1 HI1 ltac:(unfold is_u256; lia)) as HI2.
      destruct (Erc20._burn receiver value s1) as [[[]|x|] s2] eqn:EB.
      + destruct (B2 s2 eq_refl) as (P1 & P2 & P3 & P4 & P5). cbn [snd] in HI2.
        destruct (transfer__spec receiver fr fee s2 HI2 ltac:(unfold is_u256; lia)) as
          [(_ & _ & Hle & s3 & ET & HI3 & M1 & M2 & M3 & M4)|(Hno & x & ET & _)]; rewrite ET.
        * split.
          -- cbn. split; [intros _; split; [exact Hyes|]|reflexivity]. rewrite P1, Sb in Hle. lia.
          -- intros s' HH. injection HH as <-. split; [rewrite M2, P4; exact Sa|].
             split; [intros o sp Hne; rewrite M2, P4; apply So, Hne|].
             split; [|split; [lia|rewrite M4, P5, Sl, <- app_assoc; reflexivity]].
             intros b Hb. rewrite M1 by exact Hb. unfold delta.
             destruct (Z.eqb_spec b receiver) as [->|Hne].
             ++ rewrite P1, Sb. lia.
             ++ rewrite P2, Sb by exact Hne. lia.
        * split; [|intros ? HH; inversion HH]. cbn. split; [discriminate|]. intros [_ H]. exfalso.
          apply Hno. split; [exact Hr|]. split; [lia|]. rewrite P1, Sb. lia.
      + split; [|intros ? HH; inversion HH]. cbn. split; [discriminate|]. intros [_ H]. exfalso.
        assert (fst (Err x : res Erc20.error unit, s2) = Ok tt) as Hc; [|discriminate Hc].
        apply B1. split; [exact Hr|]. rewrite Sb. lia.
      + split; [|intros ? HH; inversion HH]. cbn. split; [discriminate|]. intros [_ H]. exfalso.
        assert (fst (@Panic Erc20.error unit, s2) = Ok tt) as Hc; [|discriminate Hc].
        apply B1. split; [exact Hr|]. rewrite Sb. lia.
  Qed.

  (** The loan, step by step. *)
  Lemma flash_loan_eq cb receiver token value s : Inv s ->
    flash_loan_with e cb receiver token value s =
    let max := max_flash_loan e token s in
    if max <? value then (Err (ExceededMaxLoan max), s)
    else if negb (token =? this e) then (Err (UnsupportedToken token), s)
    else if negb (has_code e receiver) then (Err (InvalidReceiver receiver), s)
    else match Erc20._mint receiver value s with
         | (Ok _, s1) =>
             match cb s1 with
             | (Ok v, s2) =>
                 if negb (v =? callback_value e) then (Err (InvalidReceiver receiver), s2)
                 else match settle e receiver value s2 with
                      | (Ok _, s') => (Ok true, s')
                      | (Err x, s') => (Err x, s')
                      | (Panic, s') => (Panic, s')
                      end
             | (Err x, s2) => (Err x, s2)
             | (Panic, s2) => (Panic, s2)
             end
         | (Err x, s1) => (Err (ErrErc20 x), s1)
         | (Panic, s1) => (Panic, s1)
         end.
  Proof.
    intros HI. unfold flash_loan_with, flash_fee. unfold bind at 1. unfold gets. cbn [fst]. cbv zeta.
    unfold bind, fail_if, map_err, ret, fail.
    destruct (_ <? value); [reflexivity|]. destruct (token =? this e); [|reflexivity]. cbn [negb].
    destruct (negb (has_code e receiver)); [reflexivity|].
    destruct (Erc20._mint receiver value s) as [[[]|x|] s1]; try reflexivity.
    destruct (cb s1) as [[v|x|] s2]; try reflexivity.
    destruct (negb (v =? callback_value e)); reflexivity.
  Qed.

  Lemma exec_flash_eq caller receiver token value body fin s :
    tx (exec_call e (Flash caller receiver token value body fin)) s =
    match flash_loan_with e
            (fun s => match fin with
                      | Reverts => (Err (InvalidReceiver receiver), s)
                      | Returns v => (Ok v, run_calls e body s)
                      end) receiver token value s with
    | (Ok _, s') => (Ok tt, s')
    | (Err x, _) => (Err x, s)
    | (Panic, _) => (Panic, s)
    end.
  Proof.
    unfold tx. cbn [exec_call]. unfold Erc20.ignore, bind, ret.
    destruct (flash_loan_with _ _ _ _ _ s) as [[[]|x|] s'] eqn:E; reflexivity.
  Qed.

  Lemma inv_calls :
    (forall c, call_wf c -> forall s, Inv s -> Inv (snd (tx (exec_call e c) s))) /\
    (forall cs, calls_wf cs -> forall s, Inv s -> Inv (run_calls e cs s)).
  Proof.
    apply call_calls_ind.
    - intros caller o Hw s HI. cbn [exec_call]. unfold tx, map_err. cbn [call_wf] in Hw.
      pose proof (inv_exec caller o s HI Hw) as H. destruct (Erc20.exec caller o s) as [[[]|x|] s']; cbn in *; assumption.
    - intros caller receiver token value body IH fin [Hv Hb] s HI. rewrite exec_flash_eq.
      rewrite (flash_loan_eq _ _ _ _ _ HI). cbv zeta.
      destruct (_ <? value); [exact HI|]. destruct (negb (token =? this e)); [exact HI|].
      destruct (negb (has_code e receiver)); [exact HI|].
      destruct (Erc20._mint receiver value s) as [[[]|x|] s1] eqn:EM; try exact HI.
      pose proof (mint_ok_inv _ _ _ _ HI Hv EM) as HI1.
      destruct fin as [|v]; [exact HI|]. specialize (IH Hb s1 HI1).
      destruct (negb (v =? callback_value e)); [exact HI|].
      pose proof (settle_inv receiver value _ IH Hv) as HI3.
      destruct (settle e receiver value _) as [[[]|x|] s3]; [exact HI3|exact HI|exact HI].
    - intros _ s HI. exact HI.
    - intros c IHc cs IHcs [Hc Hcs] s HI. cbn [run_calls]. apply IHcs; [exact Hcs|]. apply IHc; assumption.
  Qed.

  Lemma reachable_inv' s : reachable e s -> Inv s.
  Proof.
    intros (l & Hl & ->). assert (H : forall s, Inv s -> Inv (run e l s)); [|apply H, inv_init].
    induction Hl as [|c l Hc Hl IH]; intros s HI; [exact HI|]. apply IH. apply (proj1 inv_calls c Hc s HI).
  Qed.

  (** ** C09 *)

  (** Whatever the borrower does, the ledger stays consistent: in every state reachable by
      calls containing arbitrarily nested flash loans, the total supply is the sum of all
      balances and fits 256 bits. *)
  Theorem c09_ledger_consistent :
    forall s, reachable e s ->
    (exists l, covers s l) /\
    (forall l, covers s l -> Erc20.total_supply s = sum_balances s l) /\
    0 <= Erc20.total_supply s < two256 /\ Erc20.balance_of s 0 = 0.
  Proof.
    intros s Hr. pose proof (reachable_inv' s Hr) as HI.
    split; [apply covers_exists|]. split; [intros l Hl; apply conservation_inv; assumption|].
    split; [split; [apply (supply_nonneg s HI)|apply (inv_max s HI)]|apply (inv_zero s HI)].
  Qed.

  (** A flash loan succeeds exactly when the token is this contract, the amount is within
      the announced maximum, the receiver has code, the callback returns the magic value,
      and at the end of the callback ([s2]) the receiver holds amount + fee and has
      allowed this contract to take it.  The settlement then does exactly what [settled]
      says to [s2]; in every other case the whole call leaves no trace. *)
  Theorem c09_flash_loan_repaid_or_reverted :
    forall s caller receiver token value body fin,
    reachable e s -> is_u256 value -> calls_wf body ->
    let loan := Flash caller receiver token value body fin in
    let fee := flash_fee_value e in
    (is_ok (fst (tx (exec_call e loan) s)) = true <->
       token = this e /\ value <= U256_MAX - Erc20.total_supply s /\ receiver <> 0 /\
       has_code e receiver = true /\ fin = Returns (callback_value e) /\
       exists s1, minted s s1 receiver value /\ Erc20._mint receiver value s = (Ok tt, s1) /\
       let s2 := run_calls e body s1 in
       allowed s2 receiver (this e) (value + fee) /\ value + fee <= Erc20.balance_of s2 receiver) /\
    (is_ok (fst (tx (exec_call e loan) s)) = true ->
       exists s1, minted s s1 receiver value /\ Erc20._mint receiver value s = (Ok tt, s1) /\
       settled e receiver value (run_calls e body s1) (snd (tx (exec_call e loan) s))) /\
    (is_ok (fst (tx (exec_call e loan) s)) = false -> snd (tx (exec_call e loan) s) = s).
  Proof.
    intros s caller receiver token value body fin Hr Hv Hb loan fee. pose proof (reachable_inv' s Hr) as HI.
    pose proof (supply_nonneg s HI) as Hs0. pose proof (inv_max s HI) as Hs1.
    split; [|split].
    3: { intros H. destruct (tx (exec_call e loan) s) as [r s'] eqn:E. cbn in *. exact (tx_not_ok _ _ _ _ E H). }
    all: unfold loan; rewrite exec_flash_eq; rewrite (flash_loan_eq _ _ _ _ _ HI); cbv zeta;
      unfold max_flash_loan; unfold is_u256 in Hv.
    all: destruct (Z.eqb_spec token (this e)) as [Et|Et].
    - rewrite wsub_small by (unfold U256_MAX, Erc20.total_supply; lia).
      destruct (Z.ltb_spec (U256_MAX - Erc20.total_supply s) value) as [Hm|Hm].
      { cbn. split; [discriminate|]. intros (_ & H & _). lia. }
      cbn [negb]. destruct (has_code e receiver) eqn:Ec; cbn [negb].
      2: { cbn. split; [discriminate|]. intros (_ & _ & _ & H & _). discriminate. }
      destruct (mint_spec s receiver value HI Hv) as (M1 & M2 & M3).
      destruct (Erc20._mint receiver value s) as [[[]|x|] s1] eqn:EM.
      2: { cbn. split; [discriminate|]. intros (_ & _ & _ & _ & _ & s1' & _ & H & _). discriminate. }
      2: { cbn. split; [discriminate|]. intros (_ & _ & _ & _ & _ & s1' & _ & H & _). discriminate. }
      destruct (proj1 M1 eq_refl) as [Hr0 _]. destruct fin as [|v].
      { cbn. split; [discriminate|]. intros (_ & _ & _ & _ & H & _). discriminate. }
      destruct (Z.eqb_spec v (callback_value e)) as [Ev|Ev]; cbn [negb].
      2: { cbn. split; [discriminate|]. intros (_ & _ & _ & _ & H & _). congruence. }
      pose proof (mint_ok_inv _ _ _ _ HI Hv EM) as HI1.
      pose proof (proj2 inv_calls body Hb s1 HI1) as HI2.
      destruct (settle_spec receiver value _ HI2 Hv Hr0) as [S1 S2].
      destruct (settle e receiver value (run_calls e body s1)) as [[[]|x|] s3] eqn:ES.
      + cbn. split; [intros _|reflexivity]. split; [exact Et|]. split; [exact Hm|]. split; [exact Hr0|].
        split; [reflexivity|]. split; [congruence|]. exists s1. split; [apply (M2 s1 eq_refl)|]. split; [reflexivity|].
        apply S1. reflexivity.
      + cbn. split; [discriminate|]. intros (_ & _ & _ & _ & _ & s1' & _ & H & H2). injection H as <-.
        exfalso. apply S1 in H2. discriminate.
      + cbn. split; [discriminate|]. intros (_ & _ & _ & _ & _ & s1' & _ & H & H2). injection H as <-.
        exfalso. apply S1 in H2. discriminate.
    - destruct (0 <? value); cbn; (split; [discriminate|]); intros [H _]; contradiction.
    - rewrite wsub_small by (unfold U256_MAX, Erc20.total_supply; lia).
      destruct (Z.ltb_spec (U256_MAX - Erc20.total_supply s) value) as [Hm|Hm]; [discriminate|].
      cbn [negb]. destruct (has_code e receiver) eqn:Ec; cbn [negb]; [|discriminate].
      destruct (mint_spec s receiver value HI Hv) as (M1 & M2 & M3).
      destruct (Erc20._mint receiver value s) as [[[]|x|] s1] eqn:EM; [|discriminate|discriminate].
      destruct (proj1 M1 eq_refl) as [Hr0 _]. destruct fin as [|v]; [discriminate|].
      destruct (Z.eqb_spec v (callback_value e)) as [Ev|Ev]; cbn [negb]; [|discriminate].
      pose proof (mint_ok_inv _ _ _ _ HI Hv EM) as HI1.
      pose proof (proj2 inv_calls body Hb s1 HI1) as HI2.
      destruct (settle_spec receiver value _ HI2 Hv Hr0) as [S1 S2].
      destruct (settle e receiver value (run_calls e body s1)) as [[[]|x|] s3] eqn:ES; [|discriminate|discriminate].
      intros _. exists s1. split; [apply (M2 s1 eq_refl)|]. split; [reflexivity|]. cbn. apply S2. reflexivity.
    - destruct (0 <? value); discriminate.
  Qed.

  (** No sequence of public calls, however it nests flash loans, can increase the total
      supply: everything a loan mints is burnt again. *)
  Lemma public_supply o c s : public_op o -> Inv s -> Erc20.op_wf o ->
    Erc20.total_supply (snd (tx (Erc20.exec c o) s)) <= Erc20.total_supply s.
  Proof.
    intros Hp HI Hw. unfold tx. destruct (Erc20.exec c o s) as [[[]|x|] s'] eqn:E; cbn [snd]; try lia.
    destruct o; cbn in Hp; try contradiction; unfold Erc20.op_wf in Hw; cbn [Erc20.op_value] in Hw; unfold Erc20.exec in E.
    - apply ignore_ok in E. destruct E as [b E]. pose proof (transfer_ret _ _ _ _ _ _ E) as ->.
      destruct (transfer_spec s c to value HI Hw) as (_ & H & _). destruct (H s' E) as (_ & _ & H' & _). lia.
    - apply ignore_ok in E. destruct E as [b E]. pose proof (approve_ret _ _ _ _ _ _ E) as ->.
      destruct (approve_spec s c spender value) as (_ & H & _).
      destruct (H s' E) as (_ & H' & _). lia.
    - apply ignore_ok in E. destruct E as [b E]. pose proof (transfer_from_ret _ _ _ _ _ _ _ E) as ->.
      destruct (transfer_from_spec s c from to value HI Hw) as (_ & H & _). destruct (H s' E) as (_ & _ & _ & H' & _). lia.
    - destruct (burn_spec s c value HI Hw) as (_ & H & _). destruct (H s' E) as (_ & _ & H' & _). unfold is_u256 in Hw. lia.
    - destruct (burn_from_spec s c account value HI Hw) as (_ & H).
      destruct (H s' E) as (_ & _ & H' & _). unfold is_u256 in Hw. lia.
  Qed.

  Theorem c09_no_supply_inflation :
    forall s c, reachable e s -> call_wf c -> call_public c ->
    Erc20.total_supply (snd (tx (exec_call e c) s)) <= Erc20.total_supply s.
  Proof.
    intros s c Hr. apply reachable_inv' in Hr. revert s Hr.
    enough (G : (forall c, call_wf c -> call_public c -> forall s, Inv s -> Erc20.total_supply (snd (tx (exec_call e c) s)) <= Erc20.total_supply s) /\
                (forall cs, calls_wf cs -> calls_public cs -> forall s, Inv s -> Erc20.total_supply (run_calls e cs s) <= Erc20.total_supply s)).
    { intros s HI Hw Hp. apply (proj1 G); assumption. }
    apply call_calls_ind.
    - intros caller o Hw Hp s HI. cbn [exec_call]. pose proof (public_supply o caller s Hp HI Hw) as H.
      unfold tx, map_err in *. destruct (Erc20.exec caller o s) as [[[]|x|] s']; cbn in *; lia.
    - intros caller receiver token value body IH fin [Hv Hb] Hp s HI. rewrite exec_flash_eq.
      cbn [call_public] in Hp.
      rewrite (flash_loan_eq _ _ _ _ _ HI). cbv zeta.
      destruct (_ <? value); [cbn; lia|]. destruct (negb (token =? this e)); [cbn; lia|].
      destruct (negb (has_code e receiver)); [cbn; lia|].
      destruct (mint_spec s receiver value HI Hv) as (M1 & M2 & M3).
      destruct (Erc20._mint receiver value s) as [[[]|x|] s1] eqn:EM; try (cbn; lia).
      destruct (proj1 M1 eq_refl) as [Hr0 _]. destruct (M2 s1 eq_refl) as (_ & _ & M4 & _).
      pose proof (mint_ok_inv _ _ _ _ HI Hv EM) as HI1.
      destruct fin as [|v]; [cbn; lia|]. specialize (IH Hb Hp s1 HI1).
      destruct (negb (v =? callback_value e)); [cbn; lia|].
      pose proof (proj2 inv_calls body Hb s1 HI1) as HI2.
      destruct (settle_spec receiver value _ HI2 Hv Hr0) as [_ S2].
      destruct (settle e receiver value _) as [[[]|x|] s3]; [|cbn; lia|cbn; lia].
      destruct (S2 s3 eq_refl) as (_ & _ & S3). cbn [snd]. pose proof (wf_fee e He) as Hf. unfold is_u256 in Hf.
      destruct (_ || _); [destruct S3 as (_ & _ & S3 & _)|destruct S3 as (_ & S3 & _)]; lia.
    - intros _ _ s HI. cbn. lia.
    - intros c0 IHc cs IHcs [Hc Hcs] [Hp Hps] s HI. cbn [run_calls].
      specialize (IHc Hc Hp s HI). specialize (IHcs Hcs Hps _ (proj1 inv_calls c0 Hc s HI)).
      exact (Z.le_trans _ _ _ IHcs IHc).
  Qed.

  (** The announced maximum and fee. *)
  Theorem c09_quotes :
    forall s token value, reachable e s ->
    max_flash_loan e token s = (if token =? this e then U256_MAX - Erc20.total_supply s else 0) /\
    flash_fee e token value s = (if token =? this e then Ok (flash_fee_value e) else Err (UnsupportedToken token), s).
  Proof.
    intros s token value Hr. pose proof (reachable_inv' s Hr) as HI. pose proof (supply_nonneg s HI). pose proof (inv_max s HI).
    unfold max_flash_loan, flash_fee. destruct (token =? this e); [|split; reflexivity].
    split; [|reflexivity]. apply wsub_small. unfold U256_MAX, Erc20.total_supply. lia.
  Qed.
End proofs.
Print Assumptions c09_ledger_consistent.
Print Assumptions c09_flash_loan_repaid_or_reverted.
Print Assumptions c09_no_supply_inflation.
Print Assumptions c09_quotes.

(** Witness: token 100, fee 5 to account 50; borrower 7 (with code) takes 1000, inside the
    callback spends some, nests a second loan, and approves the token. *)
Definition demo_env : env := mkenv 100 (fun a => a =? 7) 0xcafe 5 50.
Definition demo_body : calls :=
  CCons (Plain 7 (Erc20.OTransfer 8 300)) (CCons (Plain 8 (Erc20.OTransfer 7 300))
  (CCons (Plain 7 (Erc20.OApprove 100 2010))
  (CCons (Flash 9 7 100 1000 CNil (Returns 0xcafe)) CNil))).
Definition demo_init : Erc20.state := snd (tx (exec_call demo_env (Plain 1 (Erc20.OMint 7 10))) Erc20.init).
Example c09_nonvacuous :
  env_wf demo_env /\ reachable demo_env demo_init /\ calls_wf demo_body /\ calls_public demo_body /\
  let r := tx (exec_call demo_env (Flash 1 7 100 1000 demo_body (Returns 0xcafe))) demo_init in
  is_ok (fst r) = true /\ Erc20.total_supply (snd r) = 10 /\
  Erc20.balance_of (snd r) 50 = 10 /\ Erc20.balance_of (snd r) 7 = 0 /\
  (* not repaid: reverted *)
  fst (tx (exec_call demo_env (Flash 1 7 100 1000 (CCons (Plain 7 (Erc20.OTransfer 8 300)) demo_body) (Returns 0xcafe))) demo_init)
    <> Ok tt /\
  fst (tx (exec_call demo_env (Flash 1 7 100 1000 demo_body Reverts)) demo_init) = Err (InvalidReceiver 7).
Proof.
  split; [split; [split; [discriminate|reflexivity]|discriminate]|].
  split; [exists [Plain 1 (Erc20.OMint 7 10)]; split; [repeat constructor; cbn; discriminate|reflexivity]|].
  split; [repeat split; cbn; discriminate|]. split; [cbn; tauto|].
  repeat split; try (vm_compute; reflexivity). vm_compute. discriminate.
Qed.
