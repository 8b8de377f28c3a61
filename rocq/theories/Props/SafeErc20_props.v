(** Property theorems for SafeErc20 (C17). *)
From Verif.Base Require Import Prelude Maps Bytes.
From Verif.Model Require Erc20 SafeErc20 Erc20World.
From Verif.Spec Require Import Erc20_spec World_spec.
From Verif.Proofs Require Import Erc20_inv Erc20_api World_lemmas.
From stdpp Require Import gmap.
Import SafeErc20 Erc20World.
#[global] Open Scope Z_scope.

(** Zero bytes followed by a single 1: the big-endian encodings of the number one. *)
Definition true_bytes (d : list Z) : Prop := exists k, d = repeat 0 k ++ [1].
(** What SafeErc20 takes for success: no data, or at most one word of data that encodes 1
    (anything after the first 32 bytes is not looked at). *)
Definition success (data : list Z) : Prop := data = [] \/ true_bytes (firstn 32 data).

Lemma encodes_true_iff d : encodes_true d = true <-> true_bytes d.
Proof.
  unfold true_bytes. induction d as [|b d IH]; [split; [discriminate|intros [[|k] H]; discriminate]|].
  destruct d as [|c d].
  - cbn. split; [intros H; exists O; cbn; f_equal; lia|]. intros [[|k] H]; [injection H as ->; reflexivity|].
    cbn in H. injection H as _ H. destruct k; discriminate.
  - change (encodes_true (b :: c :: d)) with ((b =? 0) && encodes_true (c :: d)). rewrite andb_true_iff, IH. split.
    + intros [H [k E]]. exists (S k). rewrite E. cbn. f_equal. lia.
    + intros [[|k] E]; [discriminate|]. cbn in E. injection E as -> E. split; [reflexivity|]. exists k. exact E.
Qed.

Lemma success_iff data : ((match firstn 32 data with [] => true | _ => false end) || encodes_true (firstn 32 data)) = true <-> success data.
Proof.
  unfold success. rewrite orb_true_iff, encodes_true_iff. destruct data as [|b d]; [cbn; tauto|].
  change (firstn 32 (b :: d)) with (b :: firstn 31 d). split; intros [H|H]; try discriminate; tauto.
Qed.

(** A safe transfer (and every other guarded call) reports success exactly when the token
    has code, the call did not revert, and returned nothing or bytes encoding one; then
    the resulting state is the token's.  In all other cases the result is the documented
    error, whatever the token does; it never panics. *)
Theorem c17_success_iff_call_succeeded :
  forall S (x : ext S) token c s,
  (fst (call_optional_return x token c s) = Ok tt <->
     has_code x token = true /\ exists data s', raw_call x token c s = Some (data, s') /\ success data) /\
  (forall data s', has_code x token = true -> raw_call x token c s = Some (data, s') ->
     snd (call_optional_return x token c s) = s') /\
  (fst (call_optional_return x token c s) <> Ok tt ->
     fst (call_optional_return x token c s) = Err (SafeErc20FailedOperation token)).
Proof.
  intros S x token c s. unfold call_optional_return, limited_call.
  destruct (has_code x token); cbn [negb].
  2: { cbn. split; [split; [discriminate|intros [? _]; discriminate]|]. split; [discriminate|reflexivity]. }
  destruct (raw_call x token c s) as [[data s']|].
  2: { cbn. split; [split; [discriminate|intros [_ (? & ? & ? & _)]; discriminate]|]. split; [discriminate|reflexivity]. }
  destruct (_ || _) eqn:E.
  - apply success_iff in E. cbn. split; [split; [intros _; split; [reflexivity|eauto]|reflexivity]|].
    split; [intros d t _ H; injection H as _ <-; reflexivity|]. intros H; contradiction H; reflexivity.
  - cbn. split; [split; [discriminate|intros [_ (d & t & H & H2)]]|].
    + injection H as <- <-. apply success_iff in H2. congruence.
    + split; [intros d t _ H; injection H as _ <-; reflexivity|reflexivity].
Qed.
Print Assumptions c17_success_iff_call_succeeded.

Theorem c17_transfers_are_guarded_calls :
  forall S (x : ext S) token from to v s,
  safe_transfer x token to v s = call_optional_return x token (CTransfer to v) s /\
  safe_transfer_from x token from to v s = call_optional_return x token (CTransferFrom from to v) s.
Proof. intros. split; reflexivity. Qed.
Print Assumptions c17_transfers_are_guarded_calls.

(** For tokens whose return data has ABI size (none, or at least one word) success means
    exactly: no data, or the first word is the number one. *)
Theorem c17_abi_conforming_tokens_partial :
  forall data, Forall is_byte data -> (length data = 0 \/ 32 <= length data)%nat ->
  (success data <-> data = [] \/ of_be (firstn 32 data) = 1).
Proof.
  intros data Hb [Hl|Hl].
  - destruct data; [|discriminate]. split; intros _; left; reflexivity.
  - assert (Hn : data <> []) by (intros ->; cbn in Hl; lia).
    assert (HL : length (firstn 32 data) = 32%nat) by (rewrite firstn_length_le by exact Hl; reflexivity).
    assert (HB : Forall is_byte (firstn 32 data)).
    { rewrite <- (firstn_skipn 32 data) in Hb. apply Forall_app in Hb. apply Hb. }
    unfold success, true_bytes. split; (intros [H|H]; [contradiction|right]).
    + destruct H as [k E]. rewrite E. clear. induction k as [|k IH]; [reflexivity|]. cbn. exact IH.
    + exists 31%nat. rewrite <- (be_bytes_of_be _ HB), HL, H. reflexivity.
Qed.
Print Assumptions c17_abi_conforming_tokens_partial.

(** The property as listed is not quite true: also data SHORTER than one word is taken for
    [true] when its last byte is 1 (Solidity's SafeERC20 rejects it, since there the
    returned bytes are the high-order bytes of the word). *)
Theorem c17_short_data_rejected_refuted :
  exists (S : Type) (x : ext S) token to v s data s',
    raw_call x token (CTransfer to v) s = Some (data, s') /\
    data <> [] /\ (length data < 32)%nat /\
    fst (safe_transfer x token to v s) = Ok tt.
Proof.
  exists unit, (mkext unit 1 (fun _ => true) (fun _ _ s => Some ([1], s))), 2, 3, 4, tt, [1], tt.
  split; [reflexivity|]. split; [discriminate|]. split; [cbn; lia|reflexivity].
Qed.
Print Assumptions c17_short_data_rejected_refuted.

(** ** Allowance helpers *)

(** Tokens on which approvals work in the widest sense: in states satisfying the token's
    own invariant [P], an accepted approval sets the allowance; resetting to zero and
    approving from zero are always accepted. Nothing is assumed about approving from a
    non-zero allowance. *)
Record approvable {S} (x : ext S) (token spender : Z) (P : S -> Prop) (al : S -> Z) : Prop := {
  ap_code : has_code x token = true;
  ap_range : forall s, P s -> is_u256 (al s);
  ap_read : forall s, P s -> raw_call x token (CAllowance (self x) spender) s = Some (word (al s), s);
  ap_inv : forall v s d s', P s -> is_u256 v ->
    raw_call x token (CApprove spender v) s = Some (d, s') -> P s';
  ap_set : forall v s d s', P s -> is_u256 v ->
    raw_call x token (CApprove spender v) s = Some (d, s') -> success d -> al s' = v;
  ap_zero : forall s, P s -> exists d s', raw_call x token (CApprove spender 0) s = Some (d, s') /\ success d;
  ap_fresh : forall v s, P s -> is_u256 v -> al s = 0 ->
    exists d s', raw_call x token (CApprove spender v) s = Some (d, s') /\ success d
}.

Section allowances.
  Context {S : Type} (x : ext S) (token spender : Z) (P : S -> Prop) (al : S -> Z).
  Context (H : approvable x token spender P al).

  Lemma guarded_approve v s : P s -> is_u256 v ->
    exists s', P s' /\
    (call_optional_return x token (CApprove spender v) s = (Ok tt, s') /\ al s' = v \/
     call_optional_return x token (CApprove spender v) s = (Err (SafeErc20FailedOperation token), s') /\
     v <> 0 /\ al s <> 0).
  Proof.
    intros HP Hv. destruct (c17_success_iff_call_succeeded S x token (CApprove spender v) s) as (A & B & C).
    pose proof (ap_code _ _ _ _ _ H) as Hc.
    destruct (call_optional_return x token (CApprove spender v) s) as [r s'] eqn:E. cbn [fst snd] in *.
    exists s'. split.
    { unfold call_optional_return, limited_call in E. rewrite Hc in E. cbn [negb] in E.
      destruct (raw_call x token (CApprove spender v) s) as [[d t]|] eqn:R.
      - rewrite <- (B d t Hc eq_refl) in R. eapply (ap_inv _ _ _ _ _ H); eassumption.
      - injection E as _ <-. exact HP. }
    assert (Hr : r = Ok tt \/ r <> Ok tt) by (destruct r as [[]|e|]; [left; reflexivity|right; discriminate|right; discriminate]).
    destruct Hr as [->|Hr].
    - left. split; [reflexivity|]. destruct (proj1 A eq_refl) as (_ & d & t & R & D).
      rewrite (B d t Hc R). eapply (ap_set _ _ _ _ _ H); eassumption.
    - right. rewrite (C Hr). split; [reflexivity|]. split.
      + intros ->. apply Hr, A. split; [exact Hc|]. apply (ap_zero _ _ _ _ _ H). exact HP.
      + intros H0. apply Hr, A. split; [exact Hc|]. apply (ap_fresh _ _ _ _ _ H); assumption.
  Qed.

  (** force_approve ends with allowance exactly [v], also when changing a non-zero
      allowance directly is refused. *)
  Theorem c17_force_approve_exact :
    forall v s, P s -> is_u256 v -> exists s', force_approve x token spender v s = (Ok tt, s') /\ P s' /\ al s' = v.
  Proof.
    intros v s HP Hv. unfold force_approve, bind.
    destruct (guarded_approve v s HP Hv) as (s1 & P1 & [[E A]|[E A]]); rewrite E; [eauto|].
    destruct (guarded_approve 0 s1 P1 ltac:(split; [lia|reflexivity])) as (s2 & P2 & [[E2 A2]|[E2 A2]]); [|lia]. rewrite E2.
    destruct (guarded_approve v s2 P2 Hv) as (s3 & P3 & [[E3 A3]|[E3 A3]]); [|lia]. rewrite E3. eauto.
  Qed.

  Lemma allowance_read s : P s -> SafeErc20.allowance x token spender s = (Ok (al s), s).
  Proof.
    intros HP. unfold SafeErc20.allowance, limited_call. rewrite (ap_code _ _ _ _ _ H). cbn [negb].
    rewrite (ap_read _ _ _ _ _ H s HP), firstn_word, of_be_word by (apply (ap_range _ _ _ _ _ H), HP). reflexivity.
  Qed.

  Theorem c17_increase_exact :
    forall v s, P s -> is_u256 v ->
    if al s + v <? two256
    then exists s', safe_increase_allowance x token spender v s = (Ok tt, s') /\ P s' /\ al s' = al s + v
    else safe_increase_allowance x token spender v s = (Panic, s).
  Proof.
    intros v s HP Hv. unfold safe_increase_allowance, bind, cadd. rewrite (allowance_read s HP).
    destruct (Z.ltb_spec (al s + v) two256); [|reflexivity].
    apply c17_force_approve_exact; [exact HP|]. pose proof (ap_range _ _ _ _ _ H s HP). unfold is_u256 in *. lia.
  Qed.

  Theorem c17_decrease_exact :
    forall v s, P s -> is_u256 v ->
    if v <=? al s
    then exists s', safe_decrease_allowance x token spender v s = (Ok tt, s') /\ P s' /\ al s' = al s - v
    else safe_decrease_allowance x token spender v s
           = (Err (SafeErc20FailedDecreaseAllowance spender (al s) v), s).
  Proof.
    intros v s HP Hv. unfold safe_decrease_allowance, bind, fail_if. rewrite (allowance_read s HP).
    destruct (Z.leb_spec v (al s)).
    - replace (al s <? v) with false by lia. pose proof (ap_range _ _ _ _ _ H s HP). unfold is_u256 in *.
      rewrite wsub_small by lia. apply c17_force_approve_exact; [exact HP|]. unfold is_u256. lia.
    - replace (al s <? v) with true by lia. reflexivity.
  Qed.
End allowances.
Print Assumptions c17_force_approve_exact.
Print Assumptions c17_increase_exact.
Print Assumptions c17_decrease_exact.

(** Instances: the library's own token, ... *)
Theorem c17_own_token_approvable :
  forall this asset spender, this <> 0 -> spender <> 0 ->
  approvable (honest_ext this asset) asset spender (fun w => Inv (asset_st w))
    (fun w => Erc20.allowance (asset_st w) this spender).
Proof.
  intros this asset spender Ht Hs.
  assert (Hok : forall v w, is_u256 v -> Inv (asset_st w) -> exists w',
     raw_call (honest_ext this asset) asset (CApprove spender v) w = Some (word 1, w') /\
     Inv (asset_st w') /\ Erc20.allowance (asset_st w') this spender = v).
  { intros v w Hv HI. destruct (approve_spec (asset_st w) this spender v) as (A & B & _).
    pose proof (inv_approve this spender v true (asset_st w) HI Hv) as HI'. fold (Erc20.approve this spender v) in HI'.
    cbn [raw_call honest_ext honest_call]. rewrite Z.eqb_refl.
    destruct (Erc20.approve this spender v (asset_st w)) as [r u'] eqn:E. cbn [fst snd] in *.
    rewrite (proj2 A (conj Ht Hs)) in *. exists (set_asset u' w). split; [reflexivity|]. split; [exact HI'|].
    cbn. destruct (B u' eq_refl) as (_ & _ & B3 & _). exact B3. }
  assert (Hsucc : success (word 1)) by (right; exists 31%nat; reflexivity).
  split.
  - cbn. apply Z.eqb_refl.
  - intros w HI. apply (inv_allow _ HI).
  - intros w HI. cbn [raw_call honest_ext honest_call self]. rewrite Z.eqb_refl, set_asset_same. reflexivity.
  - intros v w d w' HI Hv E. destruct (Hok v w Hv HI) as (w1 & E1 & HI1 & _). rewrite E1 in E. injection E as _ <-. exact HI1.
  - intros v w d w' HI Hv E _. destruct (Hok v w Hv HI) as (w1 & E1 & _ & A). rewrite E1 in E. injection E as _ <-. exact A.
  - intros w HI. destruct (Hok 0 w ltac:(split; [lia|reflexivity]) HI) as (w1 & E1 & _). eauto.
  - intros v w HI Hv _. destruct (Hok v w Hv HI) as (w1 & E1 & _). eauto.
Qed.
Print Assumptions c17_own_token_approvable.

(** ... and a token in the style of USDT: returns no data and refuses to change a non-zero
    allowance to another non-zero value. State: the allowance. *)
Definition usdt_ext (asset : Z) : ext Z := mkext Z 7 (fun a => a =? asset)
  (fun _ c al => match c with
     | CApprove _ v => if negb (v =? 0) && negb (al =? 0) then None else Some ([], v)
     | CAllowance _ _ => Some (word al, al)
     | _ => None
     end).

Theorem c17_usdt_style_approvable :
  forall asset spender, approvable (usdt_ext asset) asset spender is_u256 (fun al => al).
Proof.
  intros asset spender. split.
  - cbn. apply Z.eqb_refl.
  - auto.
  - reflexivity.
  - intros v s d s' _ Hv E. cbn in E. destruct (_ && _); [discriminate|]. injection E as _ <-. exact Hv.
  - intros v s d s' _ Hv E _. cbn in E. destruct (_ && _); [discriminate|]. injection E as _ <-. reflexivity.
  - intros s _. cbn. eexists _, _. split; [reflexivity|left; reflexivity].
  - intros v s _ Hv H0. cbn in *. subst s. rewrite andb_false_r. eexists _, _. split; [reflexivity|left; reflexivity].
Qed.
Print Assumptions c17_usdt_style_approvable.

Example c17_nonvacuous :
  raw_call (usdt_ext 5) 5 (CApprove 9 3) 4 = None /\
  force_approve (usdt_ext 5) 5 9 3 4 = (Ok tt, 3) /\
  safe_increase_allowance (usdt_ext 5) 5 9 3 4 = (Ok tt, 7) /\
  safe_decrease_allowance (usdt_ext 5) 5 9 5 4 = (Err (SafeErc20FailedDecreaseAllowance 9 4 5), 4) /\
  fst (safe_transfer (usdt_ext 5) 5 9 1 4) = Err (SafeErc20FailedOperation 5) /\
  fst (safe_transfer (mkext unit 7 (fun _ => true) (fun _ _ s => Some (word 1, s))) 5 9 1 tt) = Ok tt /\
  fst (safe_transfer (mkext unit 7 (fun _ => true) (fun _ _ s => Some (word 0, s))) 5 9 1 tt)
    = Err (SafeErc20FailedOperation 5).
Proof. repeat split; vm_compute; reflexivity. Qed.
