(** C78: what a failing call returns is the standard encoding of the reason. *)
From Verif.Base Require Import Prelude Maps Bytes Keccak.
From Verif.Model Require Erc20 Erc721 Erc1155 AccessControl Introspection SafeErc20.
From Verif.Model Require Import SolAbi.
From Verif.Spec Require Erc20_spec Erc721_spec Erc1155_spec.
From Verif.Spec Require Import SolAbi_spec LogMeaning_spec.
From Verif.Proofs Require Import SolAbi_lemmas.
From Verif.Proofs Require Erc20_inv Erc721_lemmas Erc1155_lemmas.
From Verif.Props Require Import SolAbi_props Indexer_props.
From stdpp Require Import gmap.
From Coq Require Import String List.
#[global] Open Scope Z_scope.
Local Open Scope string_scope.
Local Open Scope list_scope.
Local Open Scope Z_scope.
Opaque keccak256.

(** Every error type of the library: the revert data decodes, by the published selectors and
    layouts, to the reason with its arguments. *)
Theorem c78_errors_are_readable :
  (forall e, reason_fits (reason_erc20 e) -> decode_reason (revert_erc20 e) = Some (reason_erc20 e)) /\
  (forall e r, reason_erc721 e = Some r -> reason_fits r -> decode_reason (revert_erc721 e) = Some r) /\
  (forall e r, reason_erc1155 e = Some r -> reason_fits r -> decode_reason (revert_erc1155 e) = Some r) /\
  (forall e, reason_fits (reason_ownable e) -> decode_reason (revert_ownable e) = Some (reason_ownable e)) /\
  (forall e, reason_fits (reason_access e) -> decode_reason (revert_access e) = Some (reason_access e)) /\
  (forall e, decode_reason (revert_pausable e) = Some (reason_pausable e)) /\
  (forall e, reason_fits (reason_nonces e) -> decode_reason (revert_nonces e) = Some (reason_nonces e)) /\
  (forall e, decode_reason (revert_checkpoints e) = Some (reason_checkpoints e)) /\
  (forall e, reason_fits (reason_ecdsa e) -> decode_reason (revert_ecdsa e) = Some (reason_ecdsa e)) /\
  (forall e, reason_fits (reason_permit e) -> decode_reason (revert_permit e) = Some (reason_permit e)) /\
  (forall e, reason_fits (reason_flash_mint e) -> decode_reason (revert_flash_mint e) = Some (reason_flash_mint e)) /\
  (forall e, reason_fits (reason_safe_erc20 e) -> decode_reason (revert_safe_erc20 e) = Some (reason_safe_erc20 e)) /\
  (forall e, reason_fits (reason_wrapper e) -> decode_reason (revert_wrapper e) = Some (reason_wrapper e)) /\
  (forall e, reason_fits (reason_erc4626 e) -> decode_reason (revert_erc4626 e) = Some (reason_erc4626 e)) /\
  (forall e, reason_fits (reason_erc2981 e) -> decode_reason (revert_erc2981 e) = Some (reason_erc2981 e)) /\
  (forall e r, reason_consecutive e = Some r -> reason_fits r -> decode_reason (revert_consecutive e) = Some r) /\
  (forall e, reason_fits (reason_enumerable e) -> decode_reason (revert_enumerable e) = Some (reason_enumerable e)) /\
  (forall e, reason_fits (reason_erc20_example e) -> decode_reason (revert_erc20_example e) = Some (reason_erc20_example e)) /\
  (forall e r, reason_vesting e = Some r -> reason_fits r -> decode_reason (revert_vesting e) = Some r).
Proof.
  split; [exact revert_erc20_ok|]. split; [exact revert_erc721_ok|]. split; [exact revert_erc1155_ok|]. split; [exact revert_ownable_ok|].
  split; [exact revert_access_ok|]. split; [exact revert_pausable_ok|]. split; [exact revert_nonces_ok|]. split; [exact revert_checkpoints_ok|].
  split; [exact revert_ecdsa_ok|]. split; [exact revert_permit_ok|]. split; [exact revert_flash_mint_ok|]. split; [exact revert_safe_erc20_ok|].
  split; [exact revert_wrapper_ok|]. split; [exact revert_erc4626_ok|]. split; [exact revert_erc2981_ok|]. split; [exact revert_consecutive_ok|].
  split; [exact revert_enumerable_ok|]. split; [exact revert_erc20_example_ok|exact revert_vesting_ok].
Qed.
Print Assumptions c78_errors_are_readable.

(** Errors a computation may return. *)
Definition errs {S E A} (P : E -> Prop) (m : M S E A) (s : S) : Prop := forall e s', m s = (Err e, s') -> P e.
Lemma errs_bind {S E A B} (P : E -> Prop) (m : M S E A) (k : A -> M S E B) s :
  errs P m s -> (forall a s1, m s = (Ok a, s1) -> errs P (k a) s1) -> errs P (bind m k) s.
Proof.
  intros Hm Hk e s'. unfold bind. destruct (m s) as [[a|e1|] s1] eqn:E1; intros H; try discriminate.
  - eapply Hk; eauto.
  - inversion H; subst. eapply Hm; eauto.
Qed.
Lemma errs_guard {S E A} (P : E -> Prop) b e (m : M S E A) s : P e -> (b = false -> errs P m s) -> errs P (fail_if b e ;;; m) s.
Proof. intros He Hm e1 s'. mred. destruct b; [intros [= <- <-]; exact He|apply Hm; reflexivity]. Qed.
Lemma errs_fail_if {S E} (P : E -> Prop) b e (s : S) : P e -> errs P (fail_if b e) s.
Proof. intros He e1 s'. mred. destruct b; [intros [= <- <-]; exact He|discriminate]. Qed.
Lemma errs_gets {S E A B} (P : E -> Prop) (f : S -> A) (k : A -> M S E B) s : errs P (k (f s)) s -> errs P (bind (gets f) k) s.
Proof. intros H e s'. apply H. Qed.
Lemma errs_modify {S E B} (P : E -> Prop) (f : S -> S) (k : unit -> M S E B) s : errs P (k tt) (f s) -> errs P (bind (modify f) k) s.
Proof. intros H e s'. apply H. Qed.
Lemma errs_ret {S E A} (P : E -> Prop) (a : A) (s : S) : errs P (ret a) s. Proof. intros e s'. discriminate. Qed.
(** ** ERC-20 *)
Definition fine20 (e : Erc20.error) : Prop := reason_fits (reason_erc20 e).
Ltac nums := unfold fine20, reason_fits; cbn [numbers reason_erc20 reason_erc721 reason_erc1155 reason_access]; repeat (apply List.Forall_cons || apply List.Forall_nil); auto using u256_0.

Lemma balance_u256 s a : Erc20_inv.Inv s -> is_u256 (Erc20.balance_of s a).
Proof.
  intros HI. pose proof (Erc20_inv.inv_nonneg s HI a) as H0. pose proof (Erc20_inv.inv_sum s HI). pose proof (Erc20_inv.inv_max s HI).
  pose proof (mget_le_msum (Erc20.balances s) a (Erc20_inv.inv_nonneg s HI)). unfold Erc20.balance_of, is_u256 in *. lia.
Qed.
Lemma errs_update20 f t v s : is_u256 f -> is_u256 v -> Erc20_inv.Inv s -> errs fine20 (Erc20._update f t v) s.
Proof.
  intros Hf Hv HI e s'. unfold Erc20._update. mred. intros H. pose proof (balance_u256 s f HI).
  repeat match type of H with context [if ?b then _ else _] => destruct b end; inversion H; subst; nums.
Qed.
Lemma errs_spend20 o sp v s : is_u256 sp -> is_u256 v -> Erc20_inv.Inv s -> errs fine20 (Erc20._spend_allowance o sp v) s.
Proof.
  intros Hs Hv HI e s'. unfold Erc20._spend_allowance, Erc20._approve. mred. intros H. pose proof (Erc20_inv.inv_allow s HI o sp).
  repeat match type of H with context [if ?b then _ else _] => destruct b end; inversion H; subst; nums.
Qed.
Lemma errs_exec20 c o s : calldata_erc20 c o -> Erc20_inv.Inv s -> errs fine20 (Erc20.exec c o) s.
Proof.
  pose proof u256_0 as U0. intros [Hc Ho] HI.
  assert (Hinv : forall ow sp v s1, is_u256 v -> Erc20._spend_allowance ow sp v s = (Ok tt, s1) -> Erc20_inv.Inv s1).
  { intros ow sp v s1 Hv H. pose proof (Erc20_inv.inv_spend ow sp v s HI Hv) as HI1. rewrite H in HI1. exact HI1. }
  destruct o; cbn [Erc20.exec];
    unfold Erc20.ignore, Erc20.transfer, Erc20.transfer_from, Erc20.burn, Erc20.burn_from, Erc20._transfer, Erc20._mint, Erc20._burn.
  - apply errs_bind; [|intros; apply errs_ret]. apply errs_bind; [|intros; apply errs_ret].
    apply errs_guard; [nums|intros _]. apply errs_guard; [nums|intros _]. apply errs_update20; tauto.
  - apply errs_bind; [|intros; apply errs_ret]. unfold Erc20.approve, Erc20._approve.
    apply errs_guard; [nums|intros _]. apply errs_guard; [nums|intros _]. intros e s'. discriminate.
  - apply errs_bind; [|intros; apply errs_ret]. apply errs_bind; [apply errs_spend20; tauto|]. intros [] s1 H1.
    apply errs_bind; [|intros; apply errs_ret].
    apply errs_guard; [nums|intros _]. apply errs_guard; [nums|intros _]. apply errs_update20; try tauto. eapply (Hinv _ _ value); [tauto|exact H1].
  - apply errs_guard; [nums|intros _]. apply errs_update20; tauto.
  - apply errs_bind; [apply errs_spend20; tauto|]. intros [] s1 H1. apply errs_guard; [nums|intros _].
    apply errs_update20; try tauto. eapply (Hinv _ _ value); [tauto|exact H1].
  - apply errs_guard; [nums|intros _]. apply errs_update20; tauto.
  - apply errs_guard; [nums|intros _]. apply errs_update20; tauto.
  - apply errs_update20; tauto.
  - apply errs_spend20; tauto.
Qed.

(** In particular every failing call on a token with any past, whatever the arguments. *)
Theorem c78_erc20_failures_are_readable :
  forall h c o e s', List.Forall (fun co => calldata_erc20 (fst co) (snd co)) h -> calldata_erc20 c o ->
  Erc20.exec c o (Erc20.run h Erc20.init) = (Err e, s') ->
  decode_reason (revert_erc20 e) = Some (reason_erc20 e).
Proof.
  intros h c o e s' Hh Ho H. apply revert_erc20_ok. eapply errs_exec20; [exact Ho| |exact H].
  apply Erc20_inv.inv_run; [apply calldata_erc20_wf, Hh|apply Erc20_inv.inv_init].
Qed.
Print Assumptions c78_erc20_failures_are_readable.

(** ** ERC-721 *)
Definition fine721 (e : Erc721.error) : Prop := match reason_erc721 e with Some r => reason_fits r | None => True end.
Definition owners_fit (s : Erc721.state) : Prop := forall i, is_u256 (Erc721._owner_of i s).
Lemma errs_update721 t i a s : is_u256 i -> is_u256 a -> errs fine721 (Erc721._update t i a) s.
Proof.
  intros Hi Ha e s'. rewrite Erc721_lemmas.update_eq. destruct ((a =? 0) || _); [discriminate|]. intros [= <- <-].
  destruct (_ =? 0); unfold fine721; cbn; nums.
Qed.
Lemma update721_prev t i a s p s1 : Erc721._update t i a s = (Ok p, s1) -> p = Erc721._owner_of i s.
Proof. rewrite Erc721_lemmas.update_eq. destruct ((a =? 0) || _); [intros [= <- <-]; reflexivity|discriminate]. Qed.
Ltac nums7 := unfold fine721; cbn [reason_erc721]; nums.
Lemma errs_front721 c o s : calldata_erc721 c o -> owners_fit s -> errs fine721 (Erc721_lemmas.front c o) s.
Proof.
  pose proof u256_0 as U0. intros (Hc & Hcu & Ho) Hs.
  assert (T : forall f t i a, is_u256 f -> is_u256 i -> is_u256 a ->
    errs fine721 (Erc721._update t i a) s).
  { intros. apply errs_update721; assumption. }
  assert (M : forall t i, is_u256 i -> errs fine721 (Erc721._mint t i) s).
  { intros t i Hi. unfold Erc721._mint. apply errs_guard; [nums7|intros _]. apply errs_bind; [apply errs_update721; auto|].
    intros p s1 _. apply errs_fail_if. nums7. }
  assert (F : forall f t i, is_u256 f -> is_u256 i -> errs fine721 (Erc721.transfer_from c f t i) s).
  { intros f t i Hf Hi. unfold Erc721.transfer_from. apply errs_guard; [nums7|intros _]. apply errs_bind; [apply errs_update721; auto|].
    intros p s1 Hp. apply update721_prev in Hp. subst p. apply errs_fail_if. specialize (Hs i). nums7. }
  assert (X : forall f t i, is_u256 f -> is_u256 i -> errs fine721 (Erc721._transfer f t i) s).
  { intros f t i Hf Hi. unfold Erc721._transfer. apply errs_guard; [nums7|intros _]. apply errs_bind; [apply errs_update721; auto|].
    intros p s1 Hp. apply update721_prev in Hp. subst p. destruct (_ =? 0); [intros e s' [= <- <-]; nums7|].
    apply errs_fail_if. specialize (Hs i). nums7. }
  destruct o; cbn [Erc721_lemmas.front]; try (apply F; tauto); try (apply M; tauto); try (apply X; tauto).
  - intros e s'. unfold Erc721.approve, Erc721._approve, Erc721._require_owned, Erc721.emit. mred. intros H.
    cbn [orb] in H. repeat match type of H with context [if ?b then _ else _] => destruct b end; inversion H; subst; unfold fine721; cbn [reason_erc721]; nums; tauto.
  - intros e s'. unfold Erc721.set_approval_for_all, Erc721._set_approval_for_all, Erc721.emit. mred. intros H.
    destruct (operator =? 0); inversion H; subst. nums7.
  - unfold Erc721.burn. apply errs_bind; [apply errs_update721; tauto|]. intros; apply errs_ret.
  - unfold Erc721._burn. apply errs_bind; [apply errs_update721; tauto|]. intros p s1 _. apply errs_fail_if. nums7.
Qed.
Lemma errs_received {S} hc (hd : Erc721.handler_on S) op f t i d (s : S) :
  is_u256 t -> errs fine721 (Erc721._check_on_erc721_received hc hd op f t i d) s.
Proof.
  intros Ht e s'. unfold Erc721._check_on_erc721_received. destruct (hc t); cbn [negb]; [|discriminate]. mred.
  destruct (hd t op f i d s) as [[v|[|x r]] s1].
  - destruct (negb _); [intros [= <- <-]; nums7|discriminate].
  - intros [= <- <-]. nums7.
  - intros [= <- <-]. exact I.
Qed.
Lemma errs_exec721 hc c o s : calldata_erc721 c o -> owners_fit s -> errs fine721 (Erc721.exec hc c o) s.
Proof.
  intros Ho Hs. pose proof (errs_front721 c o s Ho Hs) as HF. destruct Ho as (_ & _ & Ho).
  destruct o; cbn [Erc721.exec Erc721_lemmas.front] in *; try exact HF;
    unfold Erc721.safe_transfer_from_with_data, Erc721._safe_mint, Erc721._safe_transfer;
    (apply errs_bind; [exact HF|intros [] s1 _; apply errs_received; tauto]).
Qed.
Theorem c78_erc721_failures_are_readable :
  forall has_code h c o e s', Erc721_spec.nodes calldata_erc721 h -> calldata_erc721 c o ->
  Erc721.exec has_code c o (Erc721.run has_code h Erc721.init) = (Err e, s') ->
  (exists r, reason_erc721 e = Some r /\ decode_reason (revert_erc721 e) = Some r) \/
  (exists r, e = Erc721.InvalidReceiverWithReason r /\ revert_erc721 e = r).
Proof.
  intros hc h c o e s' Hh Ho H.
  assert (HF : fine721 e).
  { eapply errs_exec721; [exact Ho| |exact H].
    assert (Hs : fit721 (Erc721.run hc h Erc721.init)); [|destruct Hs as [_ Hs]; exact Hs].
    apply (Erc721_lemmas.run_P fit721 calldata_erc721); [|exact Hh|].
    - intros c1 o1 t t1 Hco HF1 H1. eapply fit721_front; eauto.
    - split; [constructor|]. intros i. unfold Erc721._owner_of. cbn. rewrite mget_empty. apply u256_0. }
  unfold fine721 in HF. destruct (reason_erc721 e) as [r|] eqn:Er.
  - left. exists r. split; [reflexivity|]. apply revert_erc721_ok; assumption.
  - right. destruct e; try discriminate. eexists. split; reflexivity.
Qed.
Print Assumptions c78_erc721_failures_are_readable.

(** ** ERC-1155 *)
Definition fine1155 (e : Erc1155.error) : Prop := match reason_erc1155 e with Some r => reason_fits r | None => True end.
Ltac nums5 := unfold fine1155; cbn [reason_erc1155]; nums.
Lemma errs_do_updates f t l s :
  is_u256 f -> List.Forall (fun iv => is_u256 (fst iv) /\ is_u256 (snd iv)) l -> Erc1155_lemmas.ranged s ->
  errs fine1155 (Erc1155.do_updates f t l) s.
Proof.
  intros Hf Hl. revert s. induction Hl as [|[i v] l [Hi Hv] Hl IH]; intros s HR; [apply errs_ret|]. cbn [Erc1155.do_updates fst snd] in *.
  apply errs_bind.
  - intros e s'. unfold Erc1155.do_update. mred. intros H. pose proof (HR f i).
    destruct (f =? 0); cbn [negb] in H; mred_in H;
      repeat match type of H with context [if ?b then _ else _] => destruct b end; inversion H; subst; nums5.
  - intros [] s1 H1. apply IH. apply Erc1155_lemmas.do_update_ok in H1; [|assumption|exact HR].
    destruct H1 as [(_ & H1 & _) _]. exact H1.
Qed.
Lemma combine_fit is vs :
  List.Forall is_u256 is -> List.Forall is_u256 vs -> List.Forall (fun iv => is_u256 (fst iv) /\ is_u256 (snd iv)) (combine is vs).
Proof.
  intros Hi. revert vs. induction Hi as [|i is Hi _ IH]; intros vs Hv; [constructor|].
  destruct Hv as [|v vs Hv Hvs]; [constructor|]. cbn [combine]. constructor; [auto|apply IH, Hvs].
Qed.
Lemma errs_update1155 c f t is vs s :
  is_u256 f -> calldata_batch is vs -> Erc1155_lemmas.ranged s -> errs fine1155 (Erc1155._update c f t is vs) s.
Proof.
  intros Hf (Hi & Hv & Si & Sv) HR. unfold Erc1155._update, Erc1155.require_equal_arrays_length.
  apply errs_guard; [pose proof (short_u256 _ Si); pose proof (short_u256 _ Sv); nums5|intros _].
  apply errs_bind; [apply errs_do_updates; auto using combine_fit|]. intros [] s1 _ e s'.
  destruct is as [|i [|]]; destruct vs; discriminate.
Qed.
Lemma errs_authorize c f s : is_u256 c -> is_u256 f -> errs fine1155 (Erc1155.authorize_transfer c f) s.
Proof. intros Hc Hf. unfold Erc1155.authorize_transfer. apply errs_gets, errs_fail_if. nums5. Qed.
Lemma errs_accept hc hd c f t is vs d s :
  is_u256 f -> is_u256 t -> calldata_batch is vs -> Erc1155_lemmas.ranged s ->
  errs fine1155 (Erc1155._update_with_acceptance_check Erc1155.base hc hd c f t is vs d) s.
Proof.
  intros Hf Ht Hb HR. unfold Erc1155._update_with_acceptance_check. apply errs_bind; [apply errs_update1155; assumption|].
  intros [] s1 _. destruct (negb (t =? 0)); [|apply errs_ret].
  unfold Erc1155._check_on_erc1155_received. destruct (hc t); cbn [negb]; [|apply errs_ret]. intros e s'. mred.
  destruct (hd t c f _ d s1) as [[v|[|x r]] s2].
  - destruct (negb _); [intros [= <- <-]; nums5|discriminate].
  - intros [= <- <-]. nums5.
  - intros [= <- <-]. exact I.
Qed.
Lemma errs_exec1155 hc c o s :
  calldata_erc1155 c o -> Erc1155_lemmas.ranged s -> errs fine1155 (Erc1155.exec Erc1155.base hc c o) s.
Proof.
  pose proof u256_0 as U0. intros Ho HR. pose proof (calldata_move c o Ho) as Hm. destruct Ho as (_ & Hc & Ho).
  assert (A : forall f s1, Erc1155.authorize_transfer c f s = (Ok tt, s1) -> s1 = s).
  { intros f s1 H. apply Erc1155_lemmas.authorize_ok in H. apply H. }
  destruct o; cbn [Erc1155.exec Erc1155_spec.op_move] in *;
    unfold Erc1155.safe_transfer_from, Erc1155.safe_batch_transfer_from, Erc1155.do_safe_transfer_from, Erc1155.burn, Erc1155.burn_batch,
      Erc1155.inner_burn, Erc1155._mint, Erc1155._mint_batch, Erc1155._do_mint, Erc1155._burn, Erc1155._burn_batch, Erc1155._do_burn;
    cbn [Erc1155.base Erc1155.sys_authorize Erc1155.sys_inner_update Erc1155.sys_set_approval_for_all].
  - destruct Hm as (Hf & Ht & Hb). apply errs_bind; [apply errs_authorize; assumption|]. intros [] s1 H1. apply A in H1. subst s1.
    apply errs_guard; [nums5|intros _]. apply errs_guard; [nums5|intros _]. apply errs_accept; assumption.
  - destruct Hm as (Hf & Ht & Hb). apply errs_bind; [apply errs_authorize; assumption|]. intros [] s1 H1. apply A in H1. subst s1.
    apply errs_guard; [nums5|intros _]. apply errs_guard; [nums5|intros _]. apply errs_accept; assumption.
  - intros e s'. unfold Erc1155.set_approval_for_all, Erc1155._set_approval_for_all, Erc1155.emit. mred. intros H.
    destruct (operator =? 0); inversion H; subst. nums5.
  - destruct Hm as (Hf & Ht & Hb). apply errs_bind; [apply errs_authorize; assumption|]. intros [] s1 H1. apply A in H1. subst s1.
    apply errs_guard; [nums5|intros _]. apply errs_update1155; assumption.
  - destruct Hm as (Hf & Ht & Hb). apply errs_bind; [apply errs_authorize; assumption|]. intros [] s1 H1. apply A in H1. subst s1.
    apply errs_guard; [nums5|intros _]. apply errs_update1155; assumption.
  - destruct Hm as (Hf & Ht & Hb). apply errs_guard; [nums5|intros _]. apply errs_accept; assumption.
  - destruct Hm as (Hf & Ht & Hb). apply errs_guard; [nums5|intros _]. apply errs_accept; assumption.
  - destruct Hm as (Hf & Ht & Hb). apply errs_guard; [nums5|intros _]. apply errs_accept; assumption.
  - destruct Hm as (Hf & Ht & Hb). apply errs_guard; [nums5|intros _]. apply errs_accept; assumption.
Qed.
Theorem c78_erc1155_failures_are_readable :
  forall has_code h c o e s', Erc1155_spec.nodes calldata_erc1155 h -> calldata_erc1155 c o ->
  Erc1155.exec Erc1155.base has_code c o (Erc1155.run Erc1155.base has_code h Erc1155.init) = (Err e, s') ->
  (exists r, reason_erc1155 e = Some r /\ decode_reason (revert_erc1155 e) = Some r) \/
  (exists r, e = Erc1155.InvalidReceiverWithReason r /\ revert_erc1155 e = r).
Proof.
  intros hc h c o e s' Hh Ho H.
  assert (HF : fine1155 e).
  { eapply errs_exec1155; [exact Ho| |exact H].
    apply Erc1155_lemmas.inv_range. apply (Erc1155_lemmas.run_P Erc1155.base Erc1155_lemmas.Inv calldata_erc1155); [|exact Hh|apply Erc1155_lemmas.inv_init].
    intros c1 o1 t t1 Hco HI1 H1. eapply Erc1155_lemmas.inv_front; eauto using calldata_node1155. }
  unfold fine1155 in HF. destruct (reason_erc1155 e) as [r|] eqn:Er.
  - left. exists r. split; [reflexivity|]. apply revert_erc1155_ok; assumption.
  - right. destruct e; try discriminate. eexists. split; reflexivity.
Qed.
Print Assumptions c78_erc1155_failures_are_readable.

(** ** Roles *)
Theorem c78_access_failures_are_readable :
  forall h c o e s', List.Forall (fun co => calldata_access (fst co) (snd co)) h -> calldata_access c o ->
  AccessControl.exec c o (AccessControl.run h AccessControl.init) = (Err e, s') ->
  decode_reason (revert_access e) = Some (reason_access e).
Proof.
  intros h c o e s' Hh [Hc Ho] H. apply revert_access_ok.
  assert (HF : fit_access (AccessControl.run h AccessControl.init)).
  { assert (G : forall s, fit_access s -> fit_access (AccessControl.run h s)).
    { clear H. induction Hh as [|[c1 o1] h Ho1 _ IH]; intros s Hs; [exact Hs|]. cbn. apply IH, fit_access_step; assumption. }
    apply G. split; [constructor|]. intros r. unfold AccessControl.get_role_admin. cbn. rewrite mget_empty. apply u256_0. }
  destruct HF as [_ HA]. set (s := AccessControl.run h AccessControl.init) in *. clearbody s.
  destruct o; cbn [AccessControl.exec] in H;
    unfold AccessControl.grant_role, AccessControl.revoke_role, AccessControl.renounce_role, AccessControl.only_role,
      AccessControl._check_role, AccessControl._grant_role, AccessControl._revoke_role, AccessControl._set_role_admin in H; mred_in H;
    repeat match type of H with context [if ?b then _ else _] => destruct b end; inversion H; subst; nums.
Qed.
Print Assumptions c78_access_failures_are_readable.

(** ** What revert data does not tell: a receiver chooses it and may imitate the token. *)
Theorem c78_reasons_are_the_tokens_own_refuted :
  exists has_code c o e s',
    Erc721_spec.node_wf c o /\
    Erc721.exec has_code c o Erc721.init = (Err e, s') /\
    decode_reason (revert_erc721 e) = Some (ERC721NonexistentToken 5) /\
    reason_erc721 e = None.
Proof.
  exists (fun a => a =? 9), 1, (Erc721.ISafeMint 9 7 [] Erc721.CNil (Erc721.Failed (revert_erc721 (Erc721.NonexistentToken 5)))).
  exists (Erc721.InvalidReceiverWithReason (revert_erc721 (Erc721.NonexistentToken 5))).
  eexists. split; [split; [lia|cbn; split; [lia|reflexivity]]|]. split; [|split; [|reflexivity]].
  - cbn [Erc721.exec]. unfold Erc721._safe_mint.
    assert (N : exists x l, revert_erc721 (Erc721.NonexistentToken 5) = x :: l) by (vm_compute; eauto).
    destruct N as (x & l & ->). reflexivity.
  - cbn [revert_erc721]. apply (revert_erc721_ok (Erc721.NonexistentToken 5)); [reflexivity|nums]. split; [lia|reflexivity].
Qed.
Print Assumptions c78_reasons_are_the_tokens_own_refuted.

(** The names of the SafeErc20 errors are not those of OpenZeppelin's SafeERC20, so tools that know
    its selectors (0x5274afe7 and 0xe570110f) recognise neither. *)
Theorem c78_safe_erc20_selectors_refuted :
  exists e, of_be (firstn 4 (revert_safe_erc20 e)) <> 0x5274afe7 /\ of_be (firstn 4 (revert_safe_erc20 e)) <> 0xe570110f.
Proof.
  exists (SafeErc20.SafeErc20FailedOperation 7).
  assert (E : of_be (firstn 4 (revert_safe_erc20 (SafeErc20.SafeErc20FailedOperation 7))) = 0x3d26bc04)
    by (vm_cast_no_check (eq_refl 0x3d26bc04)).
  rewrite E. split; discriminate.
Qed.
Print Assumptions c78_safe_erc20_selectors_refuted.
Lemma openzeppelin_safe_erc20_selector :
  Introspection.function_selector "SafeERC20FailedOperation" [Introspection.Address] = 0x5274afe7.
Proof. vm_cast_no_check (eq_refl 0x5274afe7). Qed.

(** Non-vacuity: a failing transfer and its data. *)
Example c78_demo :
  let s := Erc20.run [(1, Erc20.OMint 1 100)] Erc20.init in
  calldata_erc20 1 (Erc20.OTransfer 2 250) /\
  fst (Erc20.exec 1 (Erc20.OTransfer 2 250) s) = Err (Erc20.InsufficientBalance 1 100 250) /\
  decode_reason (revert_erc20 (Erc20.InsufficientBalance 1 100 250)) = Some (ERC20InsufficientBalance 1 100 250) /\
  reason_fits (ERC20InsufficientBalance 1 100 250).
Proof.
  cbv zeta. assert (U : forall x, (0 <=? x) && (x <? 1000) = true -> is_u256 x).
  { intros x H. assert (1000 < two256) by reflexivity. unfold is_u256. lia. }
  assert (F : reason_fits (ERC20InsufficientBalance 1 100 250)) by (nums; apply U; reflexivity).
  split; [|split; [|split]].
  - split; [apply U; reflexivity|]. split; apply U; reflexivity.
  - vm_compute. reflexivity.
  - apply (revert_erc20_ok (Erc20.InsufficientBalance 1 100 250)). exact F.
  - exact F.
Qed.
