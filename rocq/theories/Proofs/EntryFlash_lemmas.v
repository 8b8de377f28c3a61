(** The library's token keeps an ideal ledger modulo [2^256], whatever the supply says; and the
    two halves of a flash loan. *)
From Verif.Base Require Import Prelude Bytes Keccak Maps.
From Coq Require Import String List.
From Verif.Model Require Import Introspection Router Entry EntryErc20 EntryErc721 FlashCache EntryFlash.
From Verif.Model Require SolAbi Erc20 FlashMint.
From Verif.Spec Require Import Router_spec SolAbi_spec LogMeaning_spec Errors_spec Entry_spec Ledger_spec EntryAccess_spec EntryFlash_spec.
From Verif.Proofs Require Import Router_lemmas Entry_lemmas Ledger_lemmas EntryVault_lemmas EntryAccess_lemmas.
From Verif.Proofs Require SolAbi_lemmas Erc20_inv.
Import SolAbi.
#[global] Open Scope Z_scope.
Local Open Scope list_scope.
Local Open Scope Z_scope.
Opaque keccak256.

Definition mfine (t : Erc20.state) (b : ledger) : Prop := keeps t b /\ ledger_fits b.
Lemma mod_fits x : is_u256 (x mod two256).
Proof. unfold is_u256. apply Z.mod_pos_bound. reflexivity. Qed.
Lemma fits_mod x : is_u256 x -> x mod two256 = x.
Proof. intros H. apply Z.mod_small, H. Qed.
Lemma reduced_fits b : (forall o sp, is_u256 (l_allowance b o sp)) -> ledger_fits (reduced b).
Proof. intros H. split; [apply mod_fits|]. split; [intros a; apply mod_fits|exact H]. Qed.
Lemma words_set (m : gmap.gmap Z Z) a v x : mget (mset m a v) x = if x =? a then v else mget m x.
Proof.
  rewrite mget_set. destruct (stdpp.base.decide (a = x)) as [->|D]; [rewrite Z.eqb_refl; reflexivity|].
  replace (x =? a) with false by lia. reflexivity.
Qed.
Lemma balance_set m al su lg a v x :
  Erc20.balance_of (Erc20.mk (mset m a v) al su lg) x = if x =? a then v else mget m x.
Proof. apply words_set. Qed.
Lemma allowance_set bs m su lg o sp v x y :
  Erc20.allowance (Erc20.mk bs (mset m (o, sp) v) su lg) x y = if (x =? o) && (y =? sp) then v else mget m (x, y).
Proof.
  unfold Erc20.allowance. cbn [Erc20.allowances]. rewrite mget_set. destruct (stdpp.base.decide ((o, sp) = (x, y))) as [D|D].
  - injection D as -> ->. rewrite !Z.eqb_refl. reflexivity.
  - destruct ((x =? o) && (y =? sp)) eqn:X; [|reflexivity]. exfalso. apply D. f_equal; lia.
Qed.

Lemma move_meets t b f d v : mfine t b -> is_address f -> is_address d -> is_u256 v ->
  meets mfine reason_erc20 (Erc20._transfer f d v) t (may_move b f d v) tt
    (reduced (with_balances b (l_supply b) (moved (l_balance b) f d v))).
Proof.
  intros ((K1 & K2 & K3) & F1' & F2' & F3') Hf Hd Hv. unfold meets, may_move. rewrite (K2 f Hf). cbn [decide].
  unfold Erc20._transfer, Erc20._update. mred. destruct (f =? 0) eqn:E0.
  { eexists _, _. split; [reflexivity|]. split; [reflexivity|]. apply F1, zero_fits. }
  destruct (d =? 0) eqn:E1.
  { eexists _, _. split; [reflexivity|]. split; [reflexivity|]. apply F1, zero_fits. }
  destruct (Erc20.balance_of t f <? v) eqn:E2.
  { eexists _, _. split; [reflexivity|]. split; [reflexivity|]. apply F3; [apply address_fits, Hf| |exact Hv].
    rewrite <- (K2 f Hf). apply F2'. }
  eexists. split; [reflexivity|]. split; [|apply reduced_fits, F3']. destruct t as [bs al su lg].
  split; [cbn; rewrite (fits_mod _ F1'); exact K1|]. split; [|exact K3].
  intros x Hx. unfold Erc20.emit, Erc20.set_balance. cbn [Erc20.balances Erc20.allowances Erc20.supply Erc20.log].
  rewrite !balance_set, !words_set.
  cbn [reduced with_balances l_balance]. unfold moved, at_key. unfold wadd, wsub.
  destruct (x =? d) eqn:X1.
  - destruct (d =? f) eqn:X2; [|rewrite (K2 d Hd); reflexivity]. rewrite (K2 f Hf). rewrite Z.add_mod_idemp_l by discriminate. reflexivity.
  - destruct (x =? f); [rewrite (K2 f Hf); reflexivity|]. rewrite fits_mod by apply F2'. apply (K2 x Hx).
Qed.
Lemma issue_meets t b c a v : mfine t b -> is_address a -> is_u256 v ->
  meets mfine reason_erc20 (Erc20._mint a v) t (order_checks c (Issue a v) b) tt (order_done c (Issue a v) b).
Proof.
  intros ((K1 & K2 & K3) & F1' & F2' & F3') Ha Hv. unfold meets, order_checks. rewrite K1. cbn [decide].
  unfold Erc20._mint, Erc20._update. mred. destruct (a =? 0) eqn:E0.
  { eexists _, _. split; [reflexivity|]. split; [reflexivity|]. apply F1, zero_fits. }
  cbn [Z.eqb]. fold (Erc20.total_supply t). destruct (two256 <=? Erc20.total_supply t + v) eqn:E1.
  { replace (Erc20.total_supply t + v <? two256) with false by lia. eauto. }
  replace (Erc20.total_supply t + v <? two256) with true by lia. 
  eexists. split; [reflexivity|]. split; [|apply reduced_fits, F3']. destruct t as [bs al su lg].
  split; [|split; [|exact K3]].
  - cbn in *. rewrite K1, fits_mod; [reflexivity|]. rewrite K1 in F1'. unfold is_u256 in *. lia.
  - intros x Hx. unfold Erc20.emit, Erc20.set_balance, Erc20.set_supply. cbn [Erc20.balances Erc20.allowances Erc20.supply Erc20.log].
    rewrite !balance_set. cbn [order_done order_effect reduced with_balances l_balance]. unfold at_key, wadd.
    destruct (x =? a) eqn:X1.
    + rewrite (K2 a Ha). reflexivity.
    + rewrite fits_mod by apply F2'. apply (K2 x Hx).
Qed.
Lemma burn_meets t b a v : mfine t b -> is_address a -> is_u256 v ->
  meets mfine reason_erc20 (Erc20._burn a v) t (may_burn b a v) tt (burnt b a v).
Proof.
  intros ((K1 & K2 & K3) & F1' & F2' & F3') Ha Hv. unfold meets, may_burn. rewrite (K2 a Ha). cbn [decide].
  unfold Erc20._burn, Erc20._update. mred. destruct (a =? 0) eqn:E0.
  { eexists _, _. split; [reflexivity|]. split; [reflexivity|]. apply F1, zero_fits. }
  destruct (Erc20.balance_of t a <? v) eqn:E2.
  { eexists _, _. split; [reflexivity|]. split; [reflexivity|]. apply F3; [apply address_fits, Ha| |exact Hv].
    rewrite <- (K2 a Ha). apply F2'. }
  cbn [Z.eqb]. eexists. split; [reflexivity|]. split; [|apply reduced_fits, F3']. destruct t as [bs al su lg].
  split; [|split; [|exact K3]].
  - cbn in *. rewrite K1. reflexivity.
  - intros x Hx. unfold Erc20.emit, Erc20.set_balance, Erc20.set_supply. cbn [Erc20.balances Erc20.allowances Erc20.supply Erc20.log].
    rewrite !balance_set. cbn [burnt reduced with_balances l_balance]. unfold at_key, wsub.
    destruct (x =? a) eqn:X1.
    + rewrite (K2 a Ha). reflexivity.
    + rewrite fits_mod by apply F2'. apply (K2 x Hx).
Qed.
Lemma allowed_fine t b o sp v : mfine t b -> is_u256 v -> mfine (Erc20.set_allowance o sp v t) (with_allowance b o sp v).
Proof.
  intros ((K1 & K2 & K3) & F1' & F2' & F3') Hv. destruct t as [bs al su lg]. split.
  - split; [exact K1|]. split; [exact K2|]. intros x y Hx Hy. unfold Erc20.set_allowance. cbn [Erc20.balances Erc20.allowances Erc20.supply Erc20.log].
    rewrite allowance_set. cbn [with_allowance l_allowance]. destruct ((x =? o) && (y =? sp)); [reflexivity|]. apply (K3 x y Hx Hy).
  - split; [exact F1'|]. split; [exact F2'|]. intros x y. cbn [with_allowance l_allowance]. destruct ((x =? o) && (y =? sp)); [exact Hv|apply F3'].
Qed.
Lemma allow_meets t b c sp v : mfine t b -> is_address c -> is_address sp -> is_u256 v ->
  meets mfine reason_erc20 (Erc20._approve c sp v true) t (may_approve c sp) true (with_allowance b c sp v).
Proof.
  intros F Hc Hs Hv. unfold meets, may_approve, Erc20._approve. mred. cbn [decide]. destruct (c =? 0) eqn:E0.
  { eexists _, _. split; [reflexivity|]. split; [reflexivity|]. apply F1, zero_fits. }
  destruct (sp =? 0) eqn:E1.
  { eexists _, _. split; [reflexivity|]. split; [reflexivity|]. apply F1, zero_fits. }
  eexists. split; [reflexivity|]. exact (allowed_fine t b c sp v F Hv).
Qed.
Lemma spend_meets t b o c v : mfine t b -> is_address o -> is_address c -> is_u256 v ->
  meets mfine reason_erc20 (Erc20._spend_allowance o c v) t (may_spend b o c v) tt (after_spending b o c v).
Proof.
  intros F Ho Hc Hv. pose proof F as ((K1 & K2 & K3) & F1' & F2' & F3'). unfold meets, may_spend, after_spending. cbv zeta.
  unfold Erc20._spend_allowance. rewrite (K3 o c Ho Hc). mred.
  pose proof (F3' o c) as Ha. rewrite (K3 o c Ho Hc) in Ha. set (al := Erc20.allowance t o c) in *.
  destruct (al =? U256_MAX); cbn [decide].
  { exists t. split; [reflexivity|exact F]. }
  destruct (al <? v) eqn:Ev.
  { eexists _, _. split; [reflexivity|]. split; [reflexivity|]. apply F3; [apply address_fits, Hc|exact Ha|exact Hv]. }
  unfold Erc20._approve. mred. destruct (o =? 0).
  { eexists _, _. split; [reflexivity|]. split; [reflexivity|]. apply F1, zero_fits. }
  destruct (c =? 0).
  { eexists _, _. split; [reflexivity|]. split; [reflexivity|]. apply F1, zero_fits. }
  eexists. split; [reflexivity|]. unfold wsub. rewrite Z.mod_small by (unfold is_u256 in *; lia).
  apply allowed_fine; [exact F|]. unfold is_u256 in *. lia.
Qed.

(** ** Orders *)
Local Notation meets20 := (meets mfine reason_erc20).
Local Notation meetsF := (meets mfine reason_flash_mint).
Lemma draw_meets t b c f d v : mfine t b -> is_address c -> is_address f -> is_address d -> is_u256 v ->
  meets20 (Erc20._spend_allowance f c v ;;; Erc20._transfer f d v) t (order_checks c (Draw f d v) b) tt (order_done c (Draw f d v) b).
Proof.
  intros F Hc Hf Hd Hv. cbn [order_checks]. refine (meets_bind _ _ _ _ _ _ _ _ _ _ _ (spend_meets t b f c v F Hf Hc Hv) _).
  intros s' _ F'. pose proof (move_meets s' _ f d v F' Hf Hd Hv) as K. unfold order_done, order_effect.
  unfold after_spending in *. cbv zeta in *. destruct (l_allowance b f c =? U256_MAX); exact K.
Qed.
Lemma done_allowance t b : mfine t b -> mfine t (reduced b).
Proof.
  intros ((K1 & K2 & K3) & F1' & F2' & F3'). split; [|apply reduced_fits, F3'].
  split; [cbn; rewrite (fits_mod _ F1'); exact K1|]. split; [|exact K3]. intros x Hx. cbn [reduced l_balance]. rewrite (fits_mod _ (F2' x)). apply (K2 x Hx).
Qed.
Lemma meets_more {S E B A} (fine : S -> B -> Prop) (R : E -> reason) (m : M S E A) s l v b b' :
  (forall s', fine s' b -> fine s' b') -> meets fine R m s l v b -> meets fine R m s l v b'.
Proof. intros H. unfold meets. destruct (decide l tt) as [[]|[why|]]; [|auto..]. intros (s' & E1 & K). eauto. Qed.
Lemma flag_meets {S E B} (fine : S -> B -> Prop) (R : E -> reason) (m : M S E bool) s l b : meets fine R m s l true b -> meets fine R (flag m) s l [Word 1] b.
Proof.
  unfold meets, flag. mred. destruct (decide l tt) as [[]|[why|]].
  - intros (s' & -> & K). eauto.
  - intros (e & s' & -> & K). eauto.
  - intros (s' & ->). eauto.
Qed.
Lemma true_meets {S E B} (fine : S -> B -> Prop) (R : E -> reason) (m : M S E unit) s l b : meets fine R m s l tt b -> meets fine R (m ;;; ret true) s l true b.
Proof.
  unfold meets. mred. destruct (decide l tt) as [[]|[why|]].
  - intros (s' & -> & K). eauto.
  - intros (e & s' & -> & K). eauto.
  - intros (s' & ->). eauto.
Qed.
Lemma err_meets {A} (m : M Erc20.state Erc20.error A) s l v b : meets20 m s l v b -> meetsF (map_err FlashMint.ErrErc20 m) s l v b.
Proof.
  unfold meets. mred. destruct (decide l tt) as [[]|[why|]].
  - intros (s' & -> & K). eauto.
  - intros (e & s' & -> & K). eexists _, _. split; [reflexivity|exact K].
  - intros (s' & ->). eauto.
Qed.

(** ** A loan *)
Section loan.
  Context (T : terms) (code : Z -> bool) (HT : terms_fit T).
  Local Notation e := (env_of T code).
  Definition lend (receiver token value : Z) : FlashMint.M20 unit :=
    max_loan <~ gets (FlashMint.max_flash_loan e token) ;;
    fail_if (max_loan <? value) (FlashMint.ExceededMaxLoan max_loan) ;;;
    FlashMint.flash_fee e token value ;;;
    fail_if (negb (code receiver)) (FlashMint.InvalidReceiver receiver) ;;;
    map_err FlashMint.ErrErc20 (Erc20._mint receiver value).
  Definition collect (receiver value supply : Z) (a : answer) : FlashMint.M20 bool :=
    fun s => match (match a with
                    | Returned out => match decode_params [B256] out with Some [Word w] => Some w | _ => None end
                    | Reverted _ => None
                    end) with
             | Some w => (modify (Erc20.set_supply supply) ;;; fail_if (negb (w =? BORROWER_CALLBACK_VALUE)) (FlashMint.InvalidReceiver receiver) ;;;
                          FlashMint.settle e receiver value ;;; ret true) s
             | None => (Err (FlashMint.InvalidReceiver receiver), s)
             end.
  Lemma loan_split A reply r d t v s :
    flash_loan_cached e (borrow A reply r d) r t v s =
    match lend r t v s with
    | (Ok _, s1) => collect r v (Erc20.total_supply s1) (reply r d) (match reply r d with Returned _ => A r d s1 | Reverted _ => s1 end)
    | (Err x, s1) => (Err x, s1)
    | (Panic, s1) => (Panic, s1)
    end.
  Proof.
    unfold flash_loan_cached, lend, FlashMint.flash_fee. change (FlashMint.has_code e r) with (code r). mred.
    generalize (FlashMint.max_flash_loan e t s). intros m. destruct (m <? v); [reflexivity|].
    destruct (t =? FlashMint.this e); [|reflexivity]. destruct (negb (code r)); [reflexivity|].
    destruct (Erc20._mint r v s) as [[[]|x|] s1]; [|reflexivity..].
    unfold borrow, collect. destruct (reply r d) as [out|out]; [|reflexivity].
    destruct (decode_params [B256] out) as [[|[w|?|?] [|? ?]]|]; reflexivity.
  Qed.
  Lemma most_max s b t : mfine s b -> FlashMint.max_flash_loan e t s = most T b t.
  Proof.
    intros ((K1 & _) & F1' & _). unfold FlashMint.max_flash_loan, most. change (FlashMint.this e) with (lender T). rewrite <- K1.
    destruct (t =? lender T); [|reflexivity]. unfold wsub. apply Z.mod_small. unfold is_u256, U256_MAX in *. lia.
  Qed.
  Lemma most_fits b t : ledger_fits b -> is_u256 (most T b t).
  Proof. intros (F1' & _). unfold most. destruct (t =? lender T); [|exact zero_fits]. unfold is_u256, U256_MAX in *. lia. Qed.
  Lemma lend_meets s b r t v : mfine s b -> is_address r -> is_address t -> is_u256 v ->
    meetsF (lend r t v) s (loan_checks T code b r t v) tt (lent b r v).
  Proof.
    intros F Hr Ht Hv. unfold lend, loan_checks.
    apply (meets_ext mfine reason_flash_mint (fail_if (most T b t <? v) (FlashMint.ExceededMaxLoan (most T b t)) ;;;
      fail_if (negb (t =? lender T)) (FlashMint.UnsupportedToken t) ;;; fail_if (negb (code r)) (FlashMint.InvalidReceiver r) ;;;
      map_err FlashMint.ErrErc20 (Erc20._mint r v))).
    { unfold FlashMint.flash_fee. mred. rewrite (most_max s b t F). destruct (most T b t <? v); [reflexivity|].
      change (FlashMint.this e) with (lender T). destruct (t =? lender T); reflexivity. }
    refine (meets_bind mfine reason_flash_mint _ _ _ [_] _ b _ _ _ (meets_fail_if mfine reason_flash_mint _ (FlashMint.ExceededMaxLoan (most T b t)) s b F _) _).
    { apply F1, most_fits, F. }
    intros s1 _ F1''. refine (meets_bind mfine reason_flash_mint _ _ _ [_] _ b _ _ _ (meets_fail_if mfine reason_flash_mint _ (FlashMint.UnsupportedToken t) s1 b F1'' _) _).
    { apply F1, address_fits, Ht. }
    intros s2 _ F2''. refine (meets_bind mfine reason_flash_mint _ _ _ [_] _ b _ _ _ (meets_fail_if mfine reason_flash_mint _ (FlashMint.InvalidReceiver r) s2 b F2'' _) _).
    { apply F1, address_fits, Hr. }
    intros s3 _ F3''. apply err_meets, issue_meets; assumption.
  Qed.
  Lemma balance_after b o sp v : l_balance (after_spending b o sp v) = l_balance b /\ l_supply (after_spending b o sp v) = l_supply b.
  Proof. unfold after_spending. cbv zeta. destruct (_ =? _); split; reflexivity. Qed.
  Lemma panic_meets s b v v' : mfine s b -> is_u256 v -> is_u256 v' -> meetsF (cadd v v') s [(two256 <=? v + v', None)] (v + v') b.
  Proof.
    intros F Hv Hv'. unfold meets. mred. cbn [decide]. destruct (two256 <=? v + v') eqn:E.
    - replace (v + v' <? two256) with false by lia. eauto.
    - replace (v + v' <? two256) with true by lia. eauto.
  Qed.
  Lemma settle_meets s b r v : mfine s b -> is_address r -> is_u256 v ->
    meetsF (FlashMint.settle e r v) s
      ([(two256 <=? v + loan_fee T, None)] ++ may_spend b r (lender T) (v + loan_fee T) ++
       (if pays_nobody T then may_burn b r (v + loan_fee T)
        else may_burn b r v ++ may_move (burnt b r v) r (fee_to T) (loan_fee T))) tt (repaid T b r v).
  Proof.
    intros F Hr Hv. destruct HT as (H1 & H2 & H3). unfold FlashMint.settle.
    change (FlashMint.flash_fee_value e) with (loan_fee T). change (FlashMint.flash_fee_receiver e) with (fee_to T). change (FlashMint.this e) with (lender T).
    cbv zeta. fold (pays_nobody T).
    refine (meets_bind mfine reason_flash_mint _ _ _ [_] _ b _ _ _ (panic_meets s b v (loan_fee T) F Hv H2) _).
    intros s1 D F'. cbn [decide] in D.
    assert (Hs : is_u256 (v + loan_fee T)).
    { destruct (two256 <=? v + loan_fee T) eqn:E; [discriminate D|]. clear - E Hv H2. unfold is_u256 in *. lia. }
    refine (meets_bind mfine reason_flash_mint _ _ _ _ _ _ _ _ _ (err_meets _ _ _ _ _ (spend_meets s1 b r (lender T) _ F' Hr H1 Hs)) _).
    intros s2 _ F2''. unfold repaid. cbv zeta.
    destruct (balance_after b r (lender T) (v + loan_fee T)) as [Eb Es].
    set (b' := after_spending b r (lender T) (v + loan_fee T)) in *.
    assert (Mb : forall x, may_burn b r x = may_burn b' r x) by (intros x; unfold may_burn; rewrite Eb; reflexivity).
    assert (Mm : may_move (burnt b r v) r (fee_to T) (loan_fee T) = may_move (burnt b' r v) r (fee_to T) (loan_fee T)).
    { unfold may_move, burnt. cbn [reduced with_balances l_balance]. rewrite Eb. reflexivity. }
    rewrite !Mb, Mm. clearbody b'. destruct (pays_nobody T).
    - apply err_meets, burn_meets; assumption.
    - refine (meets_bind mfine reason_flash_mint _ _ _ _ _ _ _ _ _ (err_meets _ _ _ _ _ (burn_meets s2 b' r v F2'' Hr Hv)) _).
      intros s3 _ F3''. apply err_meets. exact (move_meets s3 _ r (fee_to T) (loan_fee T) F3'' Hr H3 H2).
  Qed.
  Lemma magic_ok : BORROWER_CALLBACK_VALUE = magic.
  Proof. vm_compute. reflexivity. Qed.
  Lemma decode_b256 d w : decode_params [B256] d = Some [Word w] -> d = word w.
  Proof.
    unfold decode_params. destruct (read_params [B256] d 0) as [l|]; [|discriminate]. destruct (type_checks [B256] l && _) eqn:E; [|discriminate].
    intros H. injection H as ->. apply andb_true_iff in E. destruct E as [_ E]. rewrite one_word in E.
    destruct (list_eq_dec Z.eq_dec (word w) d) as [<-|]; [reflexivity|discriminate E].
  Qed.
  Lemma decode_magic : decode_params [B256] (word magic) = Some [Word magic].
  Proof. vm_compute. reflexivity. Qed.
  Lemma believed_fine s b1 b2 : mfine s b2 -> ledger_fits b1 -> mfine (Erc20.set_supply (l_supply b1) s) (believed b1 b2).
  Proof.
    intros ((K1 & K2 & K3) & F1' & F2' & F3') (G1 & _). split.
    - split; [reflexivity|]. split; [exact K2|exact K3].
    - split; [exact G1|]. split; [exact F2'|exact F3'].
  Qed.
  Lemma collect_meets s b1 b2 r v a : mfine s b2 -> ledger_fits b1 -> is_address r -> is_u256 v ->
    meetsF (collect r v (l_supply b1) a) s (repay_checks T (believed b1 b2) r v a) true (repaid T (believed b1 b2) r v).
  Proof.
    intros F Fb Hr Hv. unfold repay_checks. cbv zeta.
    assert (No' : answers a = false -> collect r v (l_supply b1) a s = (Err (FlashMint.InvalidReceiver r), s) \/
              collect r v (l_supply b1) a s = (Err (FlashMint.InvalidReceiver r), Erc20.set_supply (l_supply b1) s)).
    { unfold answers, collect. destruct a as [d|d]; [|auto]. intros H.
      destruct (decode_params [B256] d) as [[|[w|?|?] [|? ?]]|] eqn:E; auto. apply decode_b256 in E. right. mred.
      replace (w =? BORROWER_CALLBACK_VALUE) with false; [reflexivity|]. symmetry. apply Z.eqb_neq. rewrite magic_ok. intros ->.
      destruct (list_eq_dec Z.eq_dec d (word magic)) as [|N]; [discriminate H|]. apply N, E. }
    destruct (answers a) eqn:Ea.
    - unfold meets at 1. cbn [negb app decide]. fold (@decide unit).
      assert (Ec : collect r v (l_supply b1) a s = (FlashMint.settle e r v ;;; ret true) (Erc20.set_supply (l_supply b1) s)).
      { unfold answers in Ea. destruct a as [d|d]; [|discriminate Ea]. destruct (list_eq_dec Z.eq_dec d (word magic)) as [->|]; [|discriminate Ea].
        unfold collect. rewrite decode_magic, magic_ok. mred. rewrite Z.eqb_refl. reflexivity. }
      pose proof (true_meets _ _ _ _ _ _ (settle_meets _ _ r v (believed_fine s b1 b2 F Fb) Hr Hv)) as K.
      unfold meets in K. rewrite <- Ec in K. exact K.
    - unfold meets. cbn [negb app decide]. destruct (No' eq_refl) as [->| ->]; (eexists _, _; split; [reflexivity|]; split; [reflexivity|]; apply F1, address_fits, Hr).
  Qed.
End loan.
