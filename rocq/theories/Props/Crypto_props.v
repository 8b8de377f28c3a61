(** Property theorems for ECDSA (C52), EIP-712 (C53) and ERC-20 Permit (C08). *)
From Verif.Base Require Import Prelude Maps Bytes Keccak.
From Verif.Model Require Erc20 Nonces Ecdsa Eip712 Permit.
From Verif.Spec Require Erc20_spec.
From Verif.Spec Require Import Permit_spec.
From Verif.Proofs Require Erc20_inv Erc20_api.
From Verif.Props Require Utils_props.
From Coq Require String.
Import String.StringSyntax.
#[global] Open Scope Z_scope.

(** Order of the secp256k1 group. *)
Definition secp256k1_n : Z := 0xFFFFFFFFFFFFFFFFFFFFFFFFFFFFFFFEBAAEDCE6AF48A03BBFD25E8CD0364141.

(** ** C52 *)
(** Exact success condition, for every behaviour of the precompile. *)
Theorem c52_recover_accepts_exactly :
  forall ecrecover hash v r s a,
  Ecdsa.recover ecrecover hash v r s = Ok a <->
  (s <= (secp256k1_n - 1) / 2 /\ v <> 0 /\ v <> 1 /\ a <> 0 /\
   exists out, ecrecover (word hash ++ word v ++ word r ++ word s) = Some out /\
     length out = 32%nat /\ a = of_be (skipn 12 out)).
Proof.
  intros ec hash v r s a. unfold Ecdsa.recover, Ecdsa.check_if_malleable, Ecdsa._recover, Ecdsa.encode_calldata.
  replace ((secp256k1_n - 1) / 2) with Ecdsa.SIGNATURE_S_UPPER_BOUND by reflexivity.
  destruct (Z.ltb_spec Ecdsa.SIGNATURE_S_UPPER_BOUND s).
  { split; [discriminate|lia]. }
  destruct ((v =? 0) || (v =? 1)) eqn:Ev.
  { split; [discriminate|lia]. }
  destruct (ec _) as [out|].
  2: { split; [discriminate|]. intros (_ & _ & _ & _ & o & E & _). discriminate. }
  destruct (Nat.eqb_spec (length out) 32) as [El|El].
  2: { split; [discriminate|]. intros (_ & _ & _ & _ & o & E & E2 & _). inversion E; subst. congruence. }
  destruct (of_be (skipn 12 out) =? 0) eqn:E0.
  - split; [discriminate|]. intros (_ & _ & _ & Ha & o & E & _ & E3). inversion E; subst. lia.
  - split.
    + intros E. inversion E; subst. repeat split; try lia. exists out. auto.
    + intros (_ & _ & _ & Ha & o & E & _ & E3). inversion E; subst. reflexivity.
Qed.
Print Assumptions c52_recover_accepts_exactly.

(** Signatures are not malleable: if (v, r, s) is accepted for some message, then the twin
    with n - s is rejected for every message, v, r and precompile, with the documented error. *)
Theorem c52_malleated_twin_rejected :
  forall ecrecover hash v r s a, 0 <= s ->
  Ecdsa.recover ecrecover hash v r s = Ok a ->
  forall ecrecover' hash' v' r',
  Ecdsa.recover ecrecover' hash' v' r' (secp256k1_n - s) = Err (Ecdsa.InvalidSignatureS (secp256k1_n - s)).
Proof.
  intros ec hash v r s a Hs H ec' hash' v' r'. apply c52_recover_accepts_exactly in H. destruct H as [H _].
  unfold Ecdsa.recover, Ecdsa.check_if_malleable.
  destruct (Z.ltb_spec Ecdsa.SIGNATURE_S_UPPER_BOUND (secp256k1_n - s)) as [|Hle]; [reflexivity|].
  exfalso. revert H Hle. unfold Ecdsa.SIGNATURE_S_UPPER_BOUND. change ((secp256k1_n - 1) / 2) with
    0x7FFFFFFFFFFFFFFFFFFFFFFFFFFFFFFF5D576E7357A4501DDFE92F46681B20A0. unfold secp256k1_n. lia.
Qed.
Print Assumptions c52_malleated_twin_rejected.

(** All failures: the S check comes first and names s, v in {0,1} and a zero address are
    InvalidSignature, a failed or malformed precompile answer never yields an address. *)
Theorem c52_failures :
  forall ecrecover hash v r s,
  ((secp256k1_n - 1) / 2 < s -> Ecdsa.recover ecrecover hash v r s = Err (Ecdsa.InvalidSignatureS s)) /\
  (s <= (secp256k1_n - 1) / 2 -> v = 0 \/ v = 1 ->
     Ecdsa.recover ecrecover hash v r s = Err Ecdsa.InvalidSignature) /\
  (s <= (secp256k1_n - 1) / 2 -> v <> 0 -> v <> 1 ->
     match ecrecover (word hash ++ word v ++ word r ++ word s) with
     | None => Ecdsa.recover ecrecover hash v r s = Panic
     | Some out =>
         (length out <> 32%nat -> Ecdsa.recover ecrecover hash v r s = Panic) /\
         (length out = 32%nat -> of_be (skipn 12 out) = 0 ->
            Ecdsa.recover ecrecover hash v r s = Err Ecdsa.InvalidSignature)
     end).
Proof.
  intros ec hash v r s. unfold Ecdsa.recover, Ecdsa.check_if_malleable, Ecdsa._recover, Ecdsa.encode_calldata.
  replace ((secp256k1_n - 1) / 2) with Ecdsa.SIGNATURE_S_UPPER_BOUND by reflexivity.
  destruct (Z.ltb_spec Ecdsa.SIGNATURE_S_UPPER_BOUND s) as [Hlt|Hle].
  { split; [reflexivity|]. split; intros; exfalso; apply (Z.lt_irrefl s); eapply Z.le_lt_trans; eassumption. }
  split; [intros Hx; exfalso; apply (Z.lt_irrefl s); eapply Z.le_lt_trans; eassumption|].
  destruct ((v =? 0) || (v =? 1)) eqn:Ev; split; intros; try reflexivity; try lia.
  destruct (ec _) as [out|]; [|reflexivity].
  split; intros.
  - destruct (Nat.eqb_spec (length out) 32); [congruence|reflexivity].
  - rewrite H2. cbn. rewrite H3. reflexivity.
Qed.
Print Assumptions c52_failures.

Definition toy_ecrecover : Ecdsa.precompile := fun input => Some (word (0xdead + of_be (firstn 32 input) mod 1000)).
Example c52_nonvacuous :
  Ecdsa.recover toy_ecrecover 42 27 5 7 = Ok (0xdead + 42) /\
  Ecdsa.recover toy_ecrecover 42 27 5 (secp256k1_n - 7) = Err (Ecdsa.InvalidSignatureS (secp256k1_n - 7)) /\
  Ecdsa.recover toy_ecrecover 42 0 5 7 = Err Ecdsa.InvalidSignature /\
  Ecdsa.recover (fun _ => Some []) 42 27 5 7 = Panic.
Proof. repeat split; vm_compute; reflexivity. Qed.

(** ** C53 *)
(** The preimage of a typed-data digest is 0x19 0x01 followed by the two 32-byte words, and
    determines both. *)
Theorem c53_typed_data_preimage :
  forall keccak sep h,
  exists p, Eip712.to_typed_data_hash keccak sep h = keccak p /\ length p = 66%nat /\
    firstn 2 p = [0x19; 0x01] /\ firstn 32 (skipn 2 p) = word sep /\ skipn 34 p = word h /\
    (is_u256 sep -> is_u256 h ->
     of_be (firstn 32 (skipn 2 p)) = sep /\ of_be (skipn 34 p) = h).
Proof.
  intros keccak sep h. exists ([0x19; 0x01] ++ word sep ++ word h).
  assert (E1 : firstn 32 (skipn 2 ([0x19; 0x01] ++ word sep ++ word h)) = word sep).
  { change (skipn 2 ([0x19; 0x01] ++ word sep ++ word h)) with (word sep ++ word h).
    rewrite firstn_app, word_length. change (firstn (32 - 32) (word h)) with (@nil Z).
    rewrite app_nil_r. rewrite firstn_all2 by (rewrite word_length; auto). reflexivity. }
  assert (E2 : skipn 34 ([0x19; 0x01] ++ word sep ++ word h) = word h).
  { change (skipn 34 ([0x19; 0x01] ++ word sep ++ word h)) with (skipn 32 (word sep ++ word h)).
    rewrite skipn_app, word_length, skipn_all2 by (rewrite word_length; auto). reflexivity. }
  split; [reflexivity|]. split; [rewrite !app_length, !word_length; reflexivity|].
  split; [reflexivity|]. split; [exact E1|]. split; [exact E2|].
  intros Hs Hh. rewrite E1, E2. unfold word. rewrite !of_be_be_bytes.
  split; apply Z.mod_small; assumption.
Qed.
Print Assumptions c53_typed_data_preimage.

(** Two different signing requests (any difference in name, version, chain id, verifying
    contract or struct hash) get different digests, unless keccak collides on two
    of the strings hashed for them. *)
Theorem c53_digest_unambiguous :
  forall keccak d1 h1 d2 h2, hash_range keccak ->
  domain_wf d1 -> domain_wf d2 -> is_u256 h1 -> is_u256 h2 ->
  Eip712.hash_typed_data_v4 keccak d1 h1 = Eip712.hash_typed_data_v4 keccak d2 h2 ->
  (d1 = d2 /\ h1 = h2) \/ collides keccak (request_inputs keccak d1 h1 ++ request_inputs keccak d2 h2).
Proof.
  intros keccak d1 h1 d2 h2 Hr [Hc1 Ha1] [Hc2 Ha2] Hh1 Hh2 E.
  change (keccak (request_string keccak d1 h1) = keccak (request_string keccak d2 h2)) in E.
  destruct (list_eq_dec Z.eq_dec (request_string keccak d1 h1) (request_string keccak d2 h2)) as [Ep|Ep].
  2: { right. exists (request_string keccak d1 h1), (request_string keccak d2 h2). cbn [request_inputs app In]. auto 12. }
  unfold request_string in Ep.
  apply app_eq_len in Ep; [|reflexivity]. destruct Ep as [_ Ep'].
  apply app_eq_len in Ep'; [|rewrite !word_length; reflexivity]. destruct Ep' as [Es Eh].
  apply word_inj in Es; [|apply Hr|apply Hr]. apply word_inj in Eh; [|assumption|assumption].
  destruct (list_eq_dec Z.eq_dec (domain_string keccak d1) (domain_string keccak d2)) as [Eq|Eq].
  2: { right. exists (domain_string keccak d1), (domain_string keccak d2). cbn [request_inputs app In]. auto 12. }
  unfold domain_string in Eq.
  apply app_eq_len in Eq; [|rewrite !word_length; reflexivity]. destruct Eq as [_ Eq].
  apply app_eq_len in Eq; [|rewrite !word_length; reflexivity]. destruct Eq as [En Eq].
  apply app_eq_len in Eq; [|rewrite !word_length; reflexivity]. destruct Eq as [Ev Eq].
  apply app_eq_len in Eq; [|rewrite !word_length; reflexivity]. destruct Eq as [Ec Ea].
  apply word_inj in En; [|apply Hr|apply Hr]. apply word_inj in Ev; [|apply Hr|apply Hr].
  apply word_inj in Ec; [|assumption|assumption]. apply word_inj in Ea; [|assumption|assumption].
  destruct (list_eq_dec Z.eq_dec (Eip712.name d1) (Eip712.name d2)) as [Enn|Enn].
  2: { right. exists (Eip712.name d1), (Eip712.name d2). cbn [request_inputs app In]. auto 12. }
  destruct (list_eq_dec Z.eq_dec (Eip712.version d1) (Eip712.version d2)) as [Evv|Evv].
  2: { right. exists (Eip712.version d1), (Eip712.version d2). cbn [request_inputs app In]. auto 12. }
  left. destruct d1, d2; cbn in *. subst. auto.
Qed.
Print Assumptions c53_digest_unambiguous.

(** The repository's own test vector (eip712.rs, test_to_typed_data_hash) and the
    well-known EIP-712 domain type hash, with real Keccak-256. *)
Example c53_repository_vector :
  Eip712.to_typed_data_hash keccak256
    0x8b73c3c69bb8fe3d512ecc4cf759cc79239f7b179b0ffacaa9a75d522b39400f
    0x7379746c75730000000000000000000000000000000000000000000000000000 =
  0xcefc47137f8165d8270433dd62e395f5672966b83a113a7bb7b2805730a2197e.
Proof. vm_compute. reflexivity. Qed.
Example c53_type_hash_vector :
  Eip712.TYPE_HASH keccak256 = 0x8b73c3c69bb8fe3d512ecc4cf759cc79239f7b179b0ffacaa9a75d522b39400f.
Proof. vm_compute. reflexivity. Qed.
Lemma keccak256_range : hash_range keccak256.
Proof.
  intros l. unfold keccak256, is_u256. cbv zeta.
  match goal with |- context [of_be ?x] => set (y := x) end.
  assert (Hb : Forall is_byte y).
  { unfold y. apply Forall_flat_map, Forall_forall. intros i _. apply bytes_of_lane_bytes. }
  assert (Hl : length y = 32%nat).
  { unfold y. cbn [flat_map seq]. rewrite !app_length, !bytes_of_lane_length. reflexivity. }
  pose proof (of_be_range y Hb) as H. rewrite Hl in H. exact H.
Qed.
(** The hypotheses of [c53_digest_unambiguous] hold for real Keccak-256 and real domains. *)
Example c53_nonvacuous :
  hash_range keccak256 /\
  domain_wf (Eip712.mk (bytes_of_string "A Name") (bytes_of_string "1") 42161 0xdead).
Proof. split; [exact keccak256_range|]. split; split; vm_compute; congruence. Qed.

(** ** C08 *)
Section permit.
  Variable keccak : list Z -> Z.
  Variable ecrecover : Ecdsa.precompile.
  Variable dom : Eip712.domain.
  Notation permit := (Permit.permit keccak ecrecover dom).
  Notation step := (Permit.step keccak ecrecover dom).
  Notation run := (Permit.run keccak ecrecover dom).

  (** EIP-2612 message and digest, written out. *)
  Definition permit_message (owner spender value nonce deadline : Z) : list Z :=
    word (keccak (bytes_of_string "Permit(address owner,address spender,uint256 value,uint256 nonce,uint256 deadline)"))
    ++ word owner ++ word spender ++ word value ++ word nonce ++ word deadline.
  Definition permit_digest (owner spender value nonce deadline : Z) : Z :=
    keccak ([0x19; 0x01] ++ word (Eip712.domain_separator_v4 keccak dom)
            ++ word (keccak (permit_message owner spender value nonce deadline))).

  Lemma permit_eq t ow sp va de v r s st :
    permit t ow sp va de v r s st =
    if de <? t then (Err (Permit.ExpiredSignature de), st)
    else if Nonces.nonces (Permit.nonces st) ow + 1 <? two256 then
      let n := Nonces.nonces (Permit.nonces st) ow in
      let st1 := Permit.mk (Permit.erc20 st) (Nonces.mk (mset (Nonces.nonce_map (Permit.nonces st)) ow (n + 1))) in
      match Ecdsa.recover ecrecover (permit_digest ow sp va n de) v r s with
      | Ok signer =>
          if signer =? ow then
            match Erc20._approve ow sp va true (Permit.erc20 st) with
            | (Ok _, e') => (Ok tt, Permit.mk e' (Permit.nonces st1))
            | (Err e, e') => (Err (Permit.Erc20Error e), Permit.mk e' (Permit.nonces st1))
            | (Panic, e') => (Panic, Permit.mk e' (Permit.nonces st1))
            end
          else (Err (Permit.InvalidSigner signer ow), st1)
      | Err e => (Err (Permit.ECDSA e), st1)
      | Panic => (Panic, st1)
      end
    else (Panic, st).
  Proof.
    unfold Permit.permit, Permit.on_nonces, Permit.on_erc20. mred.
    destruct (de <? t); [reflexivity|].
    rewrite Utils_props.use_nonce_eq.
    destruct (Nonces.nonces (Permit.nonces st) ow + 1 <? two256); [|destruct st; reflexivity].
    cbn beta iota zeta.
    change (Eip712.hash_typed_data_v4 keccak dom (keccak (Permit.struct_preimage keccak ow sp va (Nonces.nonces (Permit.nonces st) ow) de)))
      with (permit_digest ow sp va (Nonces.nonces (Permit.nonces st) ow) de).
    destruct (Ecdsa.recover _ _ _ _ _) as [signer|e|]; try reflexivity.
    destruct (signer =? ow); cbn [negb]; [|reflexivity].
    destruct (Erc20._approve _ _ _ _ _) as [[b|e|] e']; reflexivity.
  Qed.

  (** Exact success condition and effect of one permit. *)
  Theorem c08_permit_exact :
    forall st t owner spender value deadline v r s,
    let n := Nonces.nonces (Permit.nonces st) owner in
    (fst (permit t owner spender value deadline v r s st) = Ok tt <->
       t <= deadline /\ n < two256 - 1 /\ spender <> 0 /\ owner <> 0 /\
       Ecdsa.recover ecrecover (permit_digest owner spender value n deadline) v r s = Ok owner) /\
    (forall st', permit t owner spender value deadline v r s st = (Ok tt, st') ->
       Erc20.allowance (Permit.erc20 st') owner spender = value /\
       Erc20_spec.other_allowances_same (Permit.erc20 st) (Permit.erc20 st') owner spender /\
       Erc20_spec.same_balances (Permit.erc20 st) (Permit.erc20 st') /\
       Erc20.total_supply (Permit.erc20 st') = Erc20.total_supply (Permit.erc20 st) /\
       Erc20.log (Permit.erc20 st') = Erc20.log (Permit.erc20 st) ++ [Erc20.Approval owner spender value] /\
       Nonces.nonces (Permit.nonces st') owner = n + 1 /\
       (forall a, a <> owner -> Nonces.nonces (Permit.nonces st') a = Nonces.nonces (Permit.nonces st) a)) /\
    (forall x st', tx (permit t owner spender value deadline v r s) st = (x, st') -> x <> Ok tt -> st' = st).
  Proof.
    intros st t ow sp va de v r s n. rewrite permit_eq. fold n.
    split; [|split].
    - destruct (de <? t) eqn:Et; [split; [discriminate|lia]|].
      destruct (n + 1 <? two256) eqn:En; [|split; [discriminate|lia]].
      cbv zeta. destruct (Ecdsa.recover ecrecover (permit_digest ow sp va n de) v r s) as [signer|e|] eqn:Er;
        [|split; [discriminate|intros (_&_&_&_&HH); discriminate]|split; [discriminate|intros (_&_&_&_&HH); discriminate]].
      destruct (signer =? ow) eqn:Es.
      2: { split; [discriminate|]. intros (_&_&_&_&HH). inversion HH; lia. }
      assert (signer = ow) as -> by lia.
      destruct (Erc20_api.approve_spec (Permit.erc20 st) ow sp va) as (H & _ & H'). unfold Erc20.approve in H, H'.
      destruct (Erc20._approve ow sp va true (Permit.erc20 st)) as [[[]|e|] e'] eqn:Ea; cbn [fst] in *.
      + split; [intros _|reflexivity]. destruct H as [H _]. specialize (H eq_refl). repeat split; try tauto; lia.
      + destruct (H' _ _ eq_refl) as [_ [HH|HH]]; discriminate.
      + split; [discriminate|]. intros (_&_&Hs&Ho&_). destruct H as [_ H]. specialize (H (conj Ho Hs)). discriminate.
      + split; [discriminate|]. intros (_&_&Hs&Ho&_). destruct H as [_ H]. specialize (H (conj Ho Hs)). discriminate.
    - intros st'. destruct (de <? t); [discriminate|]. destruct (n + 1 <? two256); [|discriminate]. cbv zeta.
      destruct (Ecdsa.recover _ _ _ _ _) as [signer|e|]; try discriminate.
      destruct (signer =? ow) eqn:Es; [|discriminate].
      destruct (Erc20_api.approve_spec (Permit.erc20 st) ow sp va) as (_ & H & H'). unfold Erc20.approve in H, H'.
      destruct (Erc20._approve ow sp va true (Permit.erc20 st)) as [[[]|e|] e'] eqn:Ea; try discriminate.
      + intros E. inversion E; subst. cbn [Permit.erc20 Permit.nonces].
        destruct (H _ eq_refl) as (H1 & H2 & H3 & H4 & H5). repeat split; auto.
        * unfold Nonces.nonces; cbn. apply mget_set_eq.
        * intros a Ha. unfold Nonces.nonces; cbn. apply mget_set_ne. congruence.
      + destruct (H' _ _ eq_refl) as [_ [HH|HH]]; discriminate.
    - intros x st' Hx Hne. eapply tx_not_ok; [exact Hx|]. destruct x as [[]| |]; [congruence|reflexivity|reflexivity].
  Qed.

  Lemma nonce_mono_step st to a :
    Nonces.nonces (Permit.nonces st) a <= Nonces.nonces (Permit.nonces (step st to)) a.
  Proof.
    destruct to as [t o]. destruct o as [ow sp va de v r s|c o]; unfold Permit.step; cbn [fst snd Permit.exec].
    - destruct (tx (permit t ow sp va de v r s) st) as [x st'] eqn:E. cbn [snd].
      destruct (c08_permit_exact st t ow sp va de v r s) as (_ & H2 & H3).
      destruct x as [[]|e|].
      + apply (proj1 (tx_ok _ _ _ _)) in E. destruct (H2 _ E) as (_&_&_&_&_&Hn&Ho).
        destruct (Z.eq_dec a ow) as [->|Hne]; [lia|rewrite Ho by exact Hne; lia].
      + rewrite (H3 _ _ E) by discriminate. lia.
      + rewrite (H3 _ _ E) by discriminate. lia.
    - unfold tx, Permit.on_erc20. mred. destruct (Erc20.exec c o (Permit.erc20 st)) as [[x|e|] e']; cbn; lia.
  Qed.

  (** Over every history of permits and token calls, at any times, nonces never decrease. *)
  Theorem c08_nonces_never_decrease :
    forall h st a, Nonces.nonces (Permit.nonces st) a <= Nonces.nonces (Permit.nonces (run h st)) a.
  Proof.
    induction h as [|x h IH]; intros st a; [cbn; lia|].
    cbn [Permit.run fold_left]. pose proof (nonce_mono_step st x a). pose proof (IH (step st x) a).
    unfold Permit.run in *. lia.
  Qed.

  (** A digest is consumed at most once: once a permit for [owner] has succeeded, every later
      successful permit for that owner - in particular a replay of the same call - is
      checked against a message with a strictly larger nonce, i.e. a different byte string. *)
  Theorem c08_digest_consumed_once :
    forall h st t1 owner sp1 va1 de1 v1 r1 s1 t2 sp2 va2 de2 v2 r2 s2,
    (forall a, 0 <= Nonces.nonces (Permit.nonces st) a) ->
    let p1 := Permit.OPermit owner sp1 va1 de1 v1 r1 s1 in
    let st2 := run h (step st (t1, p1)) in
    let n1 := Nonces.nonces (Permit.nonces st) owner in
    let n2 := Nonces.nonces (Permit.nonces st2) owner in
    fst (permit t1 owner sp1 va1 de1 v1 r1 s1 st) = Ok tt ->
    fst (permit t2 owner sp2 va2 de2 v2 r2 s2 st2) = Ok tt ->
    n1 < n2 /\
    permit_message owner sp2 va2 n2 de2 <> permit_message owner sp1 va1 n1 de1 /\
    Ecdsa.recover ecrecover (permit_digest owner sp2 va2 n2 de2) v2 r2 s2 = Ok owner.
  Proof.
    intros h st t1 ow sp1 va1 de1 v1 r1 s1 t2 sp2 va2 de2 v2 r2 s2 Hnn p1 st2 n1 n2 H1 H2.
    destruct (c08_permit_exact st t1 ow sp1 va1 de1 v1 r1 s1) as (_ & He & _).
    destruct (permit t1 ow sp1 va1 de1 v1 r1 s1 st) as [x st1] eqn:E1. cbn [fst] in H1. subst x.
    destruct (He _ eq_refl) as (_&_&_&_&_&Hn&_).
    assert (Es : step st (t1, p1) = st1).
    { unfold Permit.step, p1; cbn [fst snd Permit.exec]. unfold tx. rewrite E1. reflexivity. }
    pose proof (c08_nonces_never_decrease h (step st (t1, p1)) ow) as Hm. fold st2 in Hm. rewrite Es in Hm.
    destruct (c08_permit_exact st2 t2 ow sp2 va2 de2 v2 r2 s2) as (Hi & _). apply Hi in H2. fold n2 in H2.
    destruct H2 as (_ & Hlt & _ & _ & Hr). specialize (Hnn ow). fold n1 in Hnn, Hn. fold n2 in Hm.
    split; [lia|]. split; [|exact Hr]. unfold permit_message. intros E.
    apply app_eq_len in E; [|rewrite !word_length; reflexivity]. destruct E as [_ E].
    apply app_eq_len in E; [|rewrite !word_length; reflexivity]. destruct E as [_ E].
    apply app_eq_len in E; [|rewrite !word_length; reflexivity]. destruct E as [_ E].
    apply app_eq_len in E; [|rewrite !word_length; reflexivity]. destruct E as [_ E].
    apply app_eq_len in E; [|rewrite !word_length; reflexivity]. destruct E as [E _].
    apply word_inj in E; unfold is_u256; lia.
  Qed.

  (** Consequently a literal replay only works if keccak collides on the strings hashed for
      the two digests or the same signature also recovers to the owner for the other digest. *)
  Theorem c08_replay_needs_second_signature :
    forall h st t1 owner sp va de v r s t2,
    hash_range keccak ->
    (forall a, 0 <= Nonces.nonces (Permit.nonces st) a) ->
    let st2 := run h (step st (t1, Permit.OPermit owner sp va de v r s)) in
    let n1 := Nonces.nonces (Permit.nonces st) owner in
    let n2 := Nonces.nonces (Permit.nonces st2) owner in
    fst (permit t1 owner sp va de v r s st) = Ok tt ->
    fst (permit t2 owner sp va de v r s st2) = Ok tt ->
    collides keccak (signing_inputs keccak (dom, permit_message owner sp va n1 de) ++
                     signing_inputs keccak (dom, permit_message owner sp va n2 de)) \/
    (permit_digest owner sp va n2 de <> permit_digest owner sp va n1 de /\
     Ecdsa.recover ecrecover (permit_digest owner sp va n2 de) v r s = Ok owner).
  Proof.
    intros h st t1 ow sp va de v r s t2 Hr Hnn st2 n1 n2 H1 H2.
    destruct (c08_digest_consumed_once h st t1 ow sp va de v r s t2 sp va de v r s Hnn H1 H2) as (_ & Hne & Hrec).
    fold st2 n1 n2 in Hne, Hrec.
    destruct (Z.eq_dec (permit_digest ow sp va n2 de) (permit_digest ow sp va n1 de)) as [E|E]; [left|right; auto].
    change (keccak (request_string keccak dom (keccak (permit_message ow sp va n2 de))) =
            keccak (request_string keccak dom (keccak (permit_message ow sp va n1 de)))) in E.
    unfold signing_inputs, request_inputs. cbn [fst snd].
    match type of E with keccak ?a = keccak ?b => destruct (list_eq_dec Z.eq_dec a b) as [Ep|Ep];
      [|exists a, b; cbn [app In]; auto 12] end.
    apply app_eq_len in Ep; [|reflexivity]. destruct Ep as [_ Ep'].
    apply app_eq_len in Ep'; [|rewrite !word_length; reflexivity]. destruct Ep' as [_ Eh].
    apply word_inj in Eh; [|apply Hr|apply Hr].
    eexists _, _. split; [|split; [|split; [exact Hne|exact Eh]]]; cbn [app In]; auto 12.
  Qed.
End permit.
Print Assumptions c08_permit_exact.
Print Assumptions c08_nonces_never_decrease.
Print Assumptions c08_digest_consumed_once.
Print Assumptions c08_replay_needs_second_signature.

(** Witness: a precompile that accepts, for owner 7, exactly the digest of nonce 0. The first
    permit succeeds and its replay fails.  (A cheap polynomial hash is used here instead of
    Keccak-256, to keep kernel re-checking of this example fast.) *)
Definition toy_hash (l : list Z) : Z := fold_left (fun h b => (h * 3 + b + 1) mod 8192) l 0.
Definition demo_domain : Eip712.domain := Eip712.mk (bytes_of_string "ERC-20 Permit") (bytes_of_string "1") 42161 0xdead.
Definition demo_ecrecover : Ecdsa.precompile := fun input =>
  if of_be (firstn 32 input) =? permit_digest toy_hash demo_domain 7 8 500 0 1000 then Some (word 7) else Some (word 99).
Example c08_nonvacuous :
  let p := Permit.OPermit 7 8 500 1000 27 1 2 in
  let st1 := Permit.step toy_hash demo_ecrecover demo_domain Permit.init (1000, p) in
  fst (Permit.exec toy_hash demo_ecrecover demo_domain 1000 p Permit.init) = Ok tt /\
  Erc20.allowance (Permit.erc20 st1) 7 8 = 500 /\ Nonces.nonces (Permit.nonces st1) 7 = 1 /\
  fst (Permit.exec toy_hash demo_ecrecover demo_domain 1000 p st1) = Err (Permit.InvalidSigner 99 7) /\
  fst (Permit.exec toy_hash demo_ecrecover demo_domain 1001 p Permit.init) = Err (Permit.ExpiredSignature 1000).
Proof. vm_compute. repeat split. Qed.
