(** C77 (logs) and C78 (revert data). *)
From Verif.Base Require Import Prelude Bytes Keccak.
From Coq Require Import String List.
From Verif.Model Require Introspection Erc20 Erc721 Erc1155 Ownable Ownable2Step AccessControl Pausable Nonces Ecdsa Permit FlashMint
  SafeErc20 Wrapper Erc20World Erc4626 Erc2981 Checkpoints Consecutive Enumerable Vesting Erc20Example Erc721Uri.
From Verif.Model Require Import SolAbi.
From Verif.Spec Require Import SolAbi_spec LogMeaning_spec.
From Verif.Proofs Require Import SolAbi_lemmas.
Import Introspection.
#[global] Open Scope Z_scope.
Local Open Scope list_scope.
Local Open Scope Z_scope.
Opaque keccak256.

Lemma size0 : size_ok (words []) 0 = true. Proof. reflexivity. Qed.
Lemma size1 a : size_ok (words [a]) 1 = true. Proof. exact (size_ok_words [a] 1). Qed.
Lemma size2 a b : size_ok (words [a; b]) 2 = true. Proof. exact (size_ok_words [a; b] 2). Qed.
Lemma size3 a b c : size_ok (words [a; b; c]) 3 = true. Proof. exact (size_ok_words [a; b; c] 3). Qed.
Lemma size4 a b c d : size_ok (words [a; b; c; d]) 4 = true. Proof. exact (size_ok_words [a; b; c; d] 4). Qed.
Lemma at0 x l : Forall is_u256 (x :: l) -> word_at (words (x :: l)) (32 * 0) = x.
Proof. intros H. apply (word_at_words (x :: l) 0 H). cbn; lia. Qed.
Lemma at1 x y l : Forall is_u256 (x :: y :: l) -> word_at (words (x :: y :: l)) (32 * 1) = y.
Proof. intros H. apply (word_at_words (x :: y :: l) 1 H). cbn; lia. Qed.
Lemma at2 x y z l : Forall is_u256 (x :: y :: z :: l) -> word_at (words (x :: y :: z :: l)) (32 * 2) = z.
Proof. intros H. apply (word_at_words (x :: y :: z :: l) 2 H). cbn; lia. Qed.
Lemma at3 x y z t l : Forall is_u256 (x :: y :: z :: t :: l) -> word_at (words (x :: y :: z :: t :: l)) (32 * 3) = t.
Proof. intros H. apply (word_at_words (x :: y :: z :: t :: l) 3 H). cbn; lia. Qed.

Ltac u256s := repeat (apply Forall_cons || apply Forall_nil); try assumption.
Ltac sizes := rewrite ?size0, ?size1, ?size2, ?size3, ?size4.
Ltac ats := rewrite ?at0, ?at1, ?at2, ?at3 by u256s.
Ltac log_one :=
  match goal with |- read_log (evm_log ?n ?ps) = _ =>
    let z := eval vm_compute in (find (signature n (map param_type ps)) known) in
    match z with Some ?z' =>
      unfold read_log; rewrite (decode_evm_log n ps z') by (vm_compute; reflexivity);
      let r := eval vm_compute in (z' mod 2 ^ 256) in change (z' mod 2 ^ 256) with r
    end
  end;
  cbn [flat_map addr uint app data evm_log];
  repeat match goal with H : is_u256 ?v |- context [?v mod 2 ^ 256] => rewrite (Z.mod_small v (2 ^ 256)) by exact H end;
  lazy beta iota zeta delta [decode_topics Z.eqb Pos.eqb].
Ltac static l := change (abi_params _) with (abi_params (map Word l)); rewrite abi_static.

(** ** C77 *)
Lemma log_erc20_ok e : fits (means_erc20 e) -> read_log (log_erc20 e) = Some (means_erc20 e).
Proof.
  destruct e; cbn [means_erc20 fits log_erc20]; intros (? & ? & ?); log_one; static [value]; sizes; ats; reflexivity.
Qed.
Lemma of_bool_u256 b : is_u256 (of_bool b).
Proof. destruct b; split; vm_compute; congruence. Qed.
Lemma log_erc721_ok e : fits (means_erc721 e) -> read_log (log_erc721 e) = Some (means_erc721 e).
Proof.
  destruct e; cbn [means_erc721 fits log_erc721].
  - intros (? & ? & ?). log_one. static (@nil Z). sizes. reflexivity.
  - intros (? & ? & ?). log_one. static (@nil Z). sizes. reflexivity.
  - intros (? & ?). pose proof (of_bool_u256 approved). log_one. static [of_bool approved]. sizes. ats. destruct approved; reflexivity.
Qed.
Lemma short_u256 {A} (l : list A) : short l -> is_u256 (Z.of_nat (length l)).
Proof. unfold short, is_u256. intros H. split; [lia|]. eapply Z.lt_trans; [exact H|reflexivity]. Qed.
Lemma log_erc1155_ok e : fits (means_erc1155 e) -> read_log (log_erc1155 e) = Some (means_erc1155 e).
Proof.
  destruct e; cbn [means_erc1155 fits log_erc1155].
  - intros (? & ? & ? & Hi & Hv & _). inversion Hi; inversion Hv; subst. log_one. static [id; value]. sizes. ats. reflexivity.
  - intros (? & ? & ? & Hi & Hv & Si & Sv). log_one. rewrite abi_two_arrays.
    pose proof (short_u256 _ Si) as Ui. pose proof (short_u256 _ Sv) as Uv.
    set (ws := 64 :: _).
    assert (Hw : Forall is_u256 ws).
    { unfold ws. repeat apply Forall_cons.
      - split; [lia|reflexivity].
      - unfold short in Si. split; [lia|]. assert (96 + 32 * 2 ^ 64 < two256) by reflexivity. lia.
      - exact Ui.
      - apply Forall_app. split; [exact Hi|]. apply Forall_cons; [exact Uv|exact Hv]. }
    pose proof (at0 _ _ Hw) as E0. pose proof (at1 _ _ _ Hw) as E1. fold ws in E0, E1. rewrite E0, E1.
    change 64 with (32 * Z.of_nat 2).
    rewrite (array_at_words ws 2 ids (Z.of_nat (length values) :: values) [64; 96 + 32 * Z.of_nat (length ids)]) by (reflexivity || exact Hw).
    replace (96 + 32 * Z.of_nat (length ids)) with (32 * Z.of_nat (3 + length ids)) by lia.
    rewrite (array_at_words ws (3 + length ids) values [] (64 :: (96 + 32 * Z.of_nat (length ids)) :: Z.of_nat (length ids) :: ids));
      [reflexivity| |cbn [length]; lia|exact Hw].
    unfold ws. rewrite app_nil_r. reflexivity.
  - intros (? & ?). pose proof (of_bool_u256 approved). log_one. static [of_bool approved]. sizes. ats. destruct approved; reflexivity.
Qed.
Lemma log_ownable_ok e : fits (means_ownable e) -> read_log (log_ownable e) = Some (means_ownable e).
Proof. destruct e; cbn [means_ownable fits log_ownable]; intros (? & ?); log_one; static (@nil Z); sizes; reflexivity. Qed.
Lemma log_ownable_two_step_ok e :
  fits (means_ownable_two_step e) -> read_log (log_ownable_two_step e) = Some (means_ownable_two_step e).
Proof.
  destruct e; cbn [means_ownable_two_step fits log_ownable_two_step]; intros (? & ?); log_one; static (@nil Z); sizes; reflexivity.
Qed.
Lemma log_access_ok e : fits (means_access e) -> read_log (log_access e) = Some (means_access e).
Proof. destruct e; cbn [means_access fits log_access]; intros (? & ? & ?); log_one; static (@nil Z); sizes; reflexivity. Qed.
Lemma log_pausable_ok e : fits (means_pausable e) -> read_log (log_pausable e) = Some (means_pausable e).
Proof. destruct e; cbn [means_pausable fits log_pausable]; intros ?; log_one; static [account]; sizes; ats; reflexivity. Qed.
Lemma log_vault_ok e : fits (means_vault e) -> read_log (log_vault e) = Some (means_vault e).
Proof.
  destruct e; cbn [means_vault fits log_vault]; [intros (? & ? & ? & ?)|intros (? & ? & ? & ? & ?)]; log_one; static [assets; shares]; sizes; ats; reflexivity.
Qed.
Lemma log_vesting_ok e : fits (means_vesting e) -> read_log (log_vesting e) = Some (means_vesting e).
Proof.
  destruct e; cbn [means_vesting fits log_vesting].
  - intros ?. log_one. static [amount]. sizes. ats. reflexivity.
  - intros [? ?]. log_one. static [amount]. sizes. ats. reflexivity.
Qed.
Lemma log_consecutive_ok e : fits (means_consecutive e) -> read_log (log_consecutive e) = Some (means_consecutive e).
Proof.
  destruct e; cbn [means_consecutive fits log_consecutive]; intros (? & ? & ? & ?); log_one; static [to_token_id]; sizes; ats; reflexivity.
Qed.
Lemma log_metadata_update_ok i : is_u256 i -> read_log (log_metadata_update i) = Some (MetadataChanged i).
Proof. intros ?. unfold log_metadata_update. log_one. static [i]. sizes. ats. reflexivity. Qed.
Lemma log_uri_ok v i : is_u256 i -> short v -> read_log (log_uri v i) = Some (UriChanged i v).
Proof.
  intros ? Hv. unfold log_uri. log_one. rewrite octets_string by (apply short_u256; exact Hv). reflexivity.
Qed.

(** Every event is read back as what it means. *)
Theorem c77_logs_are_readable :
  (forall e, fits (means_erc20 e) -> read_log (log_erc20 e) = Some (means_erc20 e)) /\
  (forall e, fits (means_erc721 e) -> read_log (log_erc721 e) = Some (means_erc721 e)) /\
  (forall e, fits (means_erc1155 e) -> read_log (log_erc1155 e) = Some (means_erc1155 e)) /\
  (forall e, fits (means_ownable e) -> read_log (log_ownable e) = Some (means_ownable e)) /\
  (forall e, fits (means_ownable_two_step e) -> read_log (log_ownable_two_step e) = Some (means_ownable_two_step e)) /\
  (forall e, fits (means_access e) -> read_log (log_access e) = Some (means_access e)) /\
  (forall e, fits (means_pausable e) -> read_log (log_pausable e) = Some (means_pausable e)) /\
  (forall e, fits (means_vault e) -> read_log (log_vault e) = Some (means_vault e)) /\
  (forall e, fits (means_vesting e) -> read_log (log_vesting e) = Some (means_vesting e)) /\
  (forall e, fits (means_consecutive e) -> read_log (log_consecutive e) = Some (means_consecutive e)) /\
  (forall i, is_u256 i -> read_log (log_metadata_update i) = Some (MetadataChanged i)) /\
  (forall v i, is_u256 i -> short v -> read_log (log_uri v i) = Some (UriChanged i v)).
Proof.
  split; [exact log_erc20_ok|]. split; [exact log_erc721_ok|]. split; [exact log_erc1155_ok|]. split; [exact log_ownable_ok|].
  split; [exact log_ownable_two_step_ok|]. split; [exact log_access_ok|]. split; [exact log_pausable_ok|]. split; [exact log_vault_ok|].
  split; [exact log_vesting_ok|]. split; [exact log_consecutive_ok|]. split; [exact log_metadata_update_ok|exact log_uri_ok].
Qed.
Print Assumptions c77_logs_are_readable.

(** ** C78 *)
Ltac err_one :=
  match goal with |- decode_reason (sol_error ?n ?args) = _ =>
    let z := eval vm_compute in (option_map (fun h => h / 2 ^ 224) (find (signature n (map fst args)) known)) in
    match z with Some ?z' =>
      rewrite (decode_sol_error n args z') by (vm_compute; reflexivity);
      let r := eval vm_compute in (z' mod 2 ^ 32) in change (z' mod 2 ^ 32) with r
    end
  end;
  cbn [map snd a_ u_];
  lazy beta iota zeta delta [decode_selector Z.eqb Pos.eqb]; sizes; ats; try reflexivity.
Ltac fit := repeat match goal with H : Forall is_u256 (_ :: _) |- _ => inversion H; clear H; subst end.
Ltac errs d := intros H; d; unfold reason_fits in H; cbn [numbers] in H; fit; err_one.
Lemma revert_erc20_ok e : reason_fits (reason_erc20 e) -> decode_reason (revert_erc20 e) = Some (reason_erc20 e).
Proof. destruct e; cbn [reason_erc20 revert_erc20]; errs idtac. Qed.
Lemma revert_erc721_ok e r :
  reason_erc721 e = Some r -> reason_fits r -> decode_reason (revert_erc721 e) = Some r.
Proof. destruct e; cbn [reason_erc721 revert_erc721]; intros [= <-]; errs idtac. Qed.
Lemma revert_erc1155_ok e r :
  reason_erc1155 e = Some r -> reason_fits r -> decode_reason (revert_erc1155 e) = Some r.
Proof. destruct e; cbn [reason_erc1155 revert_erc1155]; intros [= <-]; errs idtac. Qed.
Lemma revert_ownable_ok e : reason_fits (reason_ownable e) -> decode_reason (revert_ownable e) = Some (reason_ownable e).
Proof. destruct e; cbn [reason_ownable revert_ownable]; errs idtac. Qed.
Lemma revert_access_ok e : reason_fits (reason_access e) -> decode_reason (revert_access e) = Some (reason_access e).
Proof. destruct e; cbn [reason_access revert_access]; errs idtac. Qed.
Lemma revert_pausable_ok e : decode_reason (revert_pausable e) = Some (reason_pausable e).
Proof. destruct e; cbn [reason_pausable revert_pausable]; err_one. Qed.
Lemma revert_nonces_ok e : reason_fits (reason_nonces e) -> decode_reason (revert_nonces e) = Some (reason_nonces e).
Proof. destruct e; cbn [reason_nonces revert_nonces]; errs idtac. Qed.
Lemma revert_checkpoints_ok e : decode_reason (revert_checkpoints e) = Some (reason_checkpoints e).
Proof. destruct e; cbn [reason_checkpoints revert_checkpoints]; err_one. Qed.
Lemma revert_ecdsa_ok e : reason_fits (reason_ecdsa e) -> decode_reason (revert_ecdsa e) = Some (reason_ecdsa e).
Proof. destruct e; cbn [reason_ecdsa revert_ecdsa]; errs idtac. Qed.
Lemma revert_permit_ok e : reason_fits (reason_permit e) -> decode_reason (revert_permit e) = Some (reason_permit e).
Proof.
  destruct e; cbn [reason_permit revert_permit]; 
    [errs idtac|errs idtac|apply revert_erc20_ok|apply revert_ecdsa_ok|apply revert_nonces_ok].
Qed.
Lemma revert_flash_mint_ok e : reason_fits (reason_flash_mint e) -> decode_reason (revert_flash_mint e) = Some (reason_flash_mint e).
Proof.
  destruct e; cbn [reason_flash_mint revert_flash_mint]; [errs idtac|errs idtac|errs idtac|apply revert_erc20_ok].
Qed.
Lemma revert_safe_erc20_ok e : reason_fits (reason_safe_erc20 e) -> decode_reason (revert_safe_erc20 e) = Some (reason_safe_erc20 e).
Proof. destruct e; cbn [reason_safe_erc20 revert_safe_erc20]; errs idtac. Qed.
Lemma revert_wrapper_ok e : reason_fits (reason_wrapper e) -> decode_reason (revert_wrapper e) = Some (reason_wrapper e).
Proof.
  destruct e; cbn [reason_wrapper revert_wrapper];
    [apply revert_erc20_ok|apply revert_safe_erc20_ok|errs idtac|errs idtac|errs idtac].
Qed.
Lemma revert_erc4626_ok e : reason_fits (reason_erc4626 e) -> decode_reason (revert_erc4626 e) = Some (reason_erc4626 e).
Proof.
  destruct e; cbn [reason_erc4626 revert_erc4626];
    [errs idtac|errs idtac|errs idtac|errs idtac|errs idtac|apply revert_safe_erc20_ok|apply revert_erc20_ok].
Qed.
Lemma revert_vesting_ok e r :
  reason_vesting e = Some r -> reason_fits r -> decode_reason (revert_vesting e) = Some r.
Proof.
  destruct e; cbn [reason_vesting revert_vesting]; intros [= <-]; [apply revert_ownable_ok|apply revert_safe_erc20_ok|errs idtac].
Qed.
Lemma revert_erc2981_ok e : reason_fits (reason_erc2981 e) -> decode_reason (revert_erc2981 e) = Some (reason_erc2981 e).
Proof. destruct e; cbn [reason_erc2981 revert_erc2981]; errs idtac. Qed.
Lemma revert_consecutive_ok e r :
  reason_consecutive e = Some r -> reason_fits r -> decode_reason (revert_consecutive e) = Some r.
Proof.
  destruct e; cbn [reason_consecutive revert_consecutive]; [apply revert_erc721_ok|intros [= <-] _; apply revert_checkpoints_ok|].
  intros [= <-]; errs idtac.
Qed.
Lemma revert_enumerable_ok e : reason_fits (reason_enumerable e) -> decode_reason (revert_enumerable e) = Some (reason_enumerable e).
Proof. destruct e; cbn [reason_enumerable revert_enumerable]; errs idtac. Qed.
Lemma revert_erc20_example_ok e :
  reason_fits (reason_erc20_example e) -> decode_reason (revert_erc20_example e) = Some (reason_erc20_example e).
Proof.
  destruct e; cbn [reason_erc20_example revert_erc20_example]; [errs idtac|apply revert_erc20_ok|intros _; apply revert_pausable_ok].
Qed.
