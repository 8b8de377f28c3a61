(** Property theorems for C86: wallets and contracts agree on what is signed. *)
From Verif.Base Require Import Prelude Maps Bytes Keccak.
From Verif.Model Require Erc20 Nonces Ecdsa Eip712 Permit.
From Verif.Spec Require Import Permit_spec TypedData_spec.
From Verif.Proofs Require Import TypedData_lemmas.
From Verif.Props Require Crypto_props.
From Coq Require Import String List Lia.
Import ListNotations.
#[global] Open Scope Z_scope.
#[global] Open Scope list_scope.

(** ** C86 *)
(** The answer of eip712Domain() makes every wallet compute the separator the contract uses:
    type string, members and their order included. *)
Theorem c86_wallet_computes_the_separator :
  forall keccak d, exists w,
  wallet_domain (Eip712.eip712_domain d) = Some w /\
  hash_struct keccak w = Eip712.domain_separator_v4 keccak d /\
  (domain_wf d -> typed_wf w).
Proof.
  intros keccak d. eexists. split; [reflexivity|]. split.
  - unfold hash_struct, struct_string, encode_data, Eip712.domain_separator_v4, Eip712.domain_separator_preimage.
    match goal with |- context [encode_type ?t] => 
      replace (encode_type t) with (bytes_of_string
        "EIP712Domain(string name,string version,uint256 chainId,address verifyingContract)") by (vm_compute; reflexivity) end.
    cbn [filter Z.testbit Pos.testbit map snd fst concat t_members mem m_content encode_content].
    reflexivity.
  - intros [Hc Ha]. split; [apply identifier_ok; reflexivity|].
    cbn [t_name t_members filter Z.testbit Pos.testbit map snd fst].
    repeat (apply List.Forall_cons); try apply List.Forall_nil.
    1-2: apply text_wf; auto.
    1-2: apply one_wf; auto; discriminate.
Qed.
Print Assumptions c86_wallet_computes_the_separator.

(** What a wallet signs when shown a message of any type is what the contract computes from
    the message's hash. *)
Theorem c86_wallet_computes_the_digest :
  forall keccak d w msg, wallet_domain (Eip712.eip712_domain d) = Some w ->
  signed_digest keccak w msg = Eip712.hash_typed_data_v4 keccak d (hash_struct keccak msg).
Proof.
  intros keccak d w msg Hw. destruct (c86_wallet_computes_the_separator keccak d) as (w' & E & Es & _).
  rewrite Hw in E. inversion E; subst.
  unfold signed_digest, signed_string, Eip712.hash_typed_data_v4, Eip712.to_typed_data_hash. rewrite <- Es. reflexivity.
Qed.
Print Assumptions c86_wallet_computes_the_digest.

(** Requests that differ - in the domain, its set of fields, the type of the message, a
    member's type or name, or a value - never have the same digest, unless two of the strings
    hashed for them collide. *)
Theorem c86_requests_unambiguous :
  forall keccak d1 m1 d2 m2, hash_range keccak ->
  typed_wf d1 -> typed_wf m1 -> typed_wf d2 -> typed_wf m2 ->
  signed_digest keccak d1 m1 = signed_digest keccak d2 m2 ->
  (d1 = d2 /\ m1 = m2) \/ collides keccak (signed_inputs keccak d1 m1 ++ signed_inputs keccak d2 m2).
Proof.
  intros keccak d1 m1 d2 m2 Hr W1 V1 W2 V2 E.
  assert (Hin : forall x y,
    (x = signed_string keccak d1 m1 /\ y = signed_string keccak d2 m2 \/
     In x (struct_inputs keccak d1) /\ In y (struct_inputs keccak d2) \/
     In x (struct_inputs keccak m1) /\ In y (struct_inputs keccak m2)) ->
    x <> y -> keccak x = keccak y ->
    collides keccak (signed_inputs keccak d1 m1 ++ signed_inputs keccak d2 m2)).
  { intros x y H Hn Hk. exists x, y. unfold signed_inputs. cbn [app In]. rewrite !in_app_iff. cbn [In].
    rewrite !in_app_iff. intuition (subst; auto 10). }
  destruct (list_eq_dec Z.eq_dec (signed_string keccak d1 m1) (signed_string keccak d2 m2)) as [Es|Es].
  2: { right. apply (Hin _ _ (or_introl (conj eq_refl eq_refl)) Es E). }
  unfold signed_string in Es. apply app_eq_len in Es; [|reflexivity]. destruct Es as [_ Es].
  apply app_eq_len in Es; [|rewrite !word_length; reflexivity]. destruct Es as [Ed Em].
  apply word_inj in Ed; try apply Hr. apply word_inj in Em; try apply Hr.
  destruct (struct_inj keccak Hr d1 d2 W1 W2 Ed) as [->|(x & y & I1 & I2 & Hn & Hk)].
  2: { right. eapply Hin; eauto. }
  destruct (struct_inj keccak Hr m1 m2 V1 V2 Em) as [->|(x & y & I1 & I2 & Hn & Hk)].
  2: { right. eapply Hin; eauto. }
  left. auto.
Qed.
Print Assumptions c86_requests_unambiguous.

Lemma half_bound (s m : Z) : s <= m / 2 <-> 2 * s <= m.
Proof. split; intros H; [pose proof (Z.mul_div_le m 2); lia|apply Z.div_le_lower_bound; lia]. Qed.

Lemma permit_struct keccak owner spender value n deadline :
  hash_struct keccak (permit_message_data owner spender value n deadline) =
  keccak (permit_string keccak owner (Msg spender value n deadline)).
Proof.
  unfold hash_struct, struct_string, permit_string.
  replace (encode_type (permit_message_data owner spender value n deadline)) with (bytes_of_string
    "Permit(address owner,address spender,uint256 value,uint256 nonce,uint256 deadline)") by (vm_compute; reflexivity).
  reflexivity.
Qed.
Lemma permit_digest_eq keccak d owner spender value n deadline :
  Crypto_props.permit_digest keccak d owner spender value n deadline =
  Eip712.hash_typed_data_v4 keccak d (keccak (permit_string keccak owner (Msg spender value n deadline))).
Proof. reflexivity. Qed.
Lemma recover_iff ecrecover h v r s a :
  Ecdsa.recover ecrecover h v r s = Ok a <-> v <> 0 /\ v <> 1 /\ recovers ecrecover h v r s a.
Proof.
  rewrite Crypto_props.c52_recover_accepts_exactly. rewrite half_bound. unfold recovers, Crypto_props.secp256k1_n.
  split.
  - intros (H1 & H2 & H3 & H4 & out & Ho & Hl & He). repeat split; auto. exists out. auto.
  - intros (H1 & H2 & H3 & H4 & out & Ho & Hl & He). repeat split; auto. exists out. auto.
Qed.

(** A permit goes through exactly if it is in time and the signature recovers to the owner
    for what a wallet signs when it shows the EIP-2612 message, with the owner's current
    nonce, under the domain that eip712Domain() reports. *)
Theorem c86_permit_accepts_wallet_signatures :
  forall keccak ecrecover d w st t owner spender value deadline v r s,
  wallet_domain (Eip712.eip712_domain d) = Some w ->
  let n := Nonces.nonces (Permit.nonces st) owner in
  fst (Permit.permit keccak ecrecover d t owner spender value deadline v r s st) = Ok tt <->
  t <= deadline /\ n < two256 - 1 /\ spender <> 0 /\ v <> 0 /\ v <> 1 /\
  recovers ecrecover (signed_digest keccak w (permit_message_data owner spender value n deadline)) v r s owner.
Proof.
  intros keccak ecrecover d w st t owner spender value deadline v r s Hw n.
  rewrite (c86_wallet_computes_the_digest keccak d w _ Hw), permit_struct, <- permit_digest_eq.
  rewrite (proj1 (Crypto_props.c08_permit_exact keccak ecrecover d st t owner spender value deadline v r s)).
  fold n. rewrite recover_iff. split; [tauto|].
  intros (H1 & H2 & H3 & H4 & H5 & H6). pose proof H6 as (_ & H7 & _). auto 10.
Qed.
Print Assumptions c86_permit_accepts_wallet_signatures.

(** So a signature made for anything else is of no use: if the digest of what a wallet showed,
    a message of any type for any domain, is the one a permit is checked against, then that was
    this contract's domain and this very permit, unless two of the strings hashed collide. *)
Theorem c86_signature_for_anything_else_is_useless :
  forall keccak d w st owner spender value deadline d' m',
  hash_range keccak -> domain_wf d ->
  wallet_domain (Eip712.eip712_domain d) = Some w ->
  is_u256 owner -> is_u256 spender -> is_u256 value -> is_u256 deadline ->
  typed_wf d' -> typed_wf m' ->
  let n := Nonces.nonces (Permit.nonces st) owner in
  is_u256 n ->
  let m := permit_message_data owner spender value n deadline in
  signed_digest keccak d' m' = Permit_spec.permit_request keccak d owner (Msg spender value n deadline) ->
  (d' = w /\ m' = m) \/ collides keccak (signed_inputs keccak d' m' ++ signed_inputs keccak w m).
Proof.
  intros keccak d w st owner spender value deadline d' m' Hr Hd Hw Ho Hsp Hv Hdl W' V' n Hn m E.
  apply c86_requests_unambiguous; auto.
  - destruct (c86_wallet_computes_the_separator keccak d) as (w' & Ew & _ & Hwf).
    rewrite Hw in Ew. inversion Ew; subst. auto.
  - split; [apply identifier_ok; reflexivity|]. unfold m, permit_message_data. cbn [t_members].
    repeat (apply List.Forall_cons; [apply one_wf; auto; discriminate|]). apply List.Forall_nil.
  - rewrite E. rewrite (c86_wallet_computes_the_digest keccak d w _ Hw).
    unfold m. rewrite permit_struct. reflexivity.
Qed.
Print Assumptions c86_signature_for_anything_else_is_useless.

(** The constants, with the real hash function: EIP-712's domain type hash and EIP-2612's
    permit type hash, as published. *)
Theorem c86_type_hashes :
  Eip712.TYPE_HASH keccak256 = 0x8b73c3c69bb8fe3d512ecc4cf759cc79239f7b179b0ffacaa9a75d522b39400f /\
  Permit.PERMIT_TYPEHASH keccak256 = 0x6e71edae12b1b97f4d1f60370fef10105fa2faae0126114a169c64845d6126c9.
Proof. split; vm_compute; reflexivity. Qed.
Print Assumptions c86_type_hashes.

(** A wallet that got other fields computes something else: the digest of the domain without
    the contract's address, under a toy hash. And a request the theorems speak about. *)
Example c86_nonvacuous :
  let k := fun l : list Z => fold_left (fun a b => (a * 257 + b + 1) mod two256) l 7 in
  let d := Eip712.mk (ascii "A Name") (ascii "1") 42161 0xdead in
  (exists w, wallet_domain (Eip712.eip712_domain d) = Some w /\
     encode_type w = ascii "EIP712Domain(string name,string version,uint256 chainId,address verifyingContract)" /\
     fst (Permit.permit k (fun _ => Some (word 5)) d 10 5 6 100 20 27 1 1 Permit.init) = Ok tt) /\
  (exists w, wallet_domain (0x07, ascii "A Name", ascii "1", 42161, 0xdead, 0, []) = Some w /\
     encode_type w = ascii "EIP712Domain(string name,string version,uint256 chainId)" /\
     hash_struct k w <> Eip712.domain_separator_v4 k d) /\
  wallet_domain (0x0f, ascii "A Name", ascii "1", 42161, 0xdead, 0, [1]) = None.
Proof.
  intros k d. split; [|split; [|reflexivity]]; eexists; split; try reflexivity; split; vm_compute; congruence.
Qed.
