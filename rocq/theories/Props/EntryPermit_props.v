(** C88: bytes in, bytes out for the token with permits and for the signature checker. *)
From Verif.Base Require Import Prelude Bytes Keccak Maps.
From Coq Require Import String List.
From Verif.Model Require Import Introspection Router Entry EntryErc20 EntryPermit.
From Verif.Model Require SolAbi Erc20 Nonces Ecdsa Eip712 Permit.
From Verif.Spec Require Import Router_spec SolAbi_spec LogMeaning_spec Errors_spec.
From Verif.Spec Require Permit_spec.
From Verif.Spec Require Import TypedData_spec Entry_spec Ledger_spec EntryPermit_spec.
From Verif.Proofs Require Import Router_lemmas Entry_lemmas Ledger_lemmas.
From Verif.Proofs Require SolAbi_lemmas Erc20_inv Erc20_api Permit_hist.
From Verif.Props Require Import SolAbi_props.
From Verif.Props Require Crypto_props TypedData_props PermitHist_props.
Import SolAbi.
#[global] Open Scope Z_scope.
Local Open Scope list_scope.
Local Open Scope Z_scope.
Opaque keccak256.

(** ** Which error a signature gets *)
Lemma recover_eq ec digest v r s :
  Ecdsa.recover ec digest v r s =
  if curve_order <? 2 * s then Err (Ecdsa.InvalidSignatureS s) else
  if (v =? 0) || (v =? 1) then Err Ecdsa.InvalidSignature else
  match answered ec digest v r s with
  | None => Panic
  | Some a => if a =? 0 then Err Ecdsa.InvalidSignature else Ok a
  end.
Proof.
  unfold Ecdsa.recover, Ecdsa.check_if_malleable, Ecdsa._recover, Ecdsa.encode_calldata, answered.
  replace (Ecdsa.SIGNATURE_S_UPPER_BOUND <? s) with (curve_order <? 2 * s).
  2: { unfold curve_order, Ecdsa.SIGNATURE_S_UPPER_BOUND. lia. }
  destruct (curve_order <? 2 * s); [reflexivity|]. destruct ((v =? 0) || (v =? 1)); [reflexivity|].
  destruct (ec _) as [out|]; [|reflexivity]. destruct (length out =? 32)%nat; reflexivity.
Qed.
Lemma answered_fits ec digest v r s a : answers_bytes ec -> answered ec digest v r s = Some a -> is_address a.
Proof.
  intros Hb. unfold answered. destruct (ec _) as [out|] eqn:E; [|discriminate]. destruct (length out =? 32)%nat eqn:L; [|discriminate].
  intros [= <-]. apply Nat.eqb_eq in L. pose proof (Forall_skipn is_byte 12 out (Hb _ _ E)) as B. pose proof (of_be_range _ B) as R.
  rewrite skipn_length, L in R. exact R.
Qed.

(** ** examples/erc20-permit *)
Definition op_of (c : Z) (r : request) : Permit.op :=
  match r with
  | Order o => Permit.OToken c (order_op o)
  | SignedPermit o sp va d v r s => Permit.OPermit o sp va d v r s
  end.
Section permit_example.
  Context (keccak : list Z -> Z) (ecrecover : Ecdsa.precompile) (chain this : Z).
  Local Notation C := (ExamplePermit keccak ecrecover chain this).
  Local Notation dom := (permit_domain chain this).
  Local Notation exec := (Permit.exec keccak ecrecover dom).
  Local Notation step := (Permit.step keccak ecrecover dom).
  Local Notation call := (fun now c v d s => entry (C now) c v d s).

  Lemma known_permit now : all_known (blocks (C now)) = true.
  Proof. vm_compute. reflexivity. Qed.
  Definition exposed_permit := Eval vm_compute in exposed Pub.Erc20PermitExample.
  Lemma exposed_permit_ok now : exposed (blocks (C now)) = exposed_permit.
  Proof. vm_compute. reflexivity. Qed.
  Lemma call_request now sig l c s t f :
    k_fits sig = true -> find_fn_k Pub.Erc20PermitExample (k sig) = Some (t, f) ->
    List.Forall2 has_type (arg_types f) (map Word l) -> size l < 10 ->
    entry (C now) c 0 (calldata sig (map Word l)) s = finish (C now) (body_of (code (C now)) t (rust_name f) (map Word l) c s) s.
  Proof.
    intros H1 H2 H3 H4. apply entry_calldata; auto using known_permit, abi_words_bytes.
    rewrite abi_words_size. transitivity 320; [lia|reflexivity].
  Qed.
  Ltac types := repeat (apply List.Forall2_cons || apply List.Forall2_nil); cbn [has_type word_of_type]; tauto.
  Ltac call sg l t f := refine (eq_trans (call_request _ sg l _ _ t f _ _ _ _) _); [vm_compute; reflexivity|vm_compute; reflexivity|types|reflexivity|].
  Lemma one_word x : abi_params [Word x] = word x.
  Proof. change (abi_params [Word x]) with (word x ++ [] ++ []). rewrite !app_nil_r. reflexivity. Qed.

  Definition answer_of (x : res Permit.error unit) (out : list Z) : answer :=
    match x with Ok _ => Returned out | Err e => Reverted (revert_permit e) | Panic => Reverted [] end.
  Lemma finish_nothing now (m : M Permit.state Permit.error unit) s :
    finish (C now) (nothing m s) s = (answer_of (fst (tx m s)) [], snd (tx m s)).
  Proof. unfold nothing, tx, answer_of. mred. destruct (m s) as [[[]|e|] s']; reflexivity. Qed.
  Lemma finish_flag now (m : M Erc20.state Erc20.error bool) s : (forall b, fst (m (Permit.erc20 s)) = Ok b -> b = true) ->
    finish (C now) (flag (Permit.on_erc20 m) s) s =
    (answer_of (fst (tx (Permit.on_erc20 (Erc20.ignore m)) s)) (word 1), snd (tx (Permit.on_erc20 (Erc20.ignore m)) s)).
  Proof.
    intros H. unfold flag, tx, answer_of, Permit.on_erc20, Erc20.ignore. mred. destruct (m (Permit.erc20 s)) as [[b|e|] t']; cbn [fst snd finish]; [|reflexivity..].
    rewrite (H b eq_refl), one_word. reflexivity.
  Qed.
  Lemma entry_request now c r s : request_fits r ->
    entry (C now) c 0 (request_data r) s = (answer_of (fst (tx (exec now (op_of c r)) s)) (request_result r), step s (now, op_of c r)).
  Proof.
    intros Hr. destruct r as [[a v|a v|a b v|a v]|o sp va d v r s0]; cbn [request_fits order_fits] in Hr; unfold request_data, Permit.step;
      cbn [op_of order_op fst snd request_result Permit.exec Erc20.exec].
    - change [Word a; Word v] with (map Word [a; v]). call "transfer(address,uint256)"%string [a; v] "Erc20"%string (fn "transfer" [Address; U256]).
      refine (finish_flag now (Erc20.transfer c a v) s _). intros b. unfold Erc20.transfer. mred.
      destruct (Erc20._transfer c a v _) as [[[]|e|] t']; cbn; congruence.
    - change [Word a; Word v] with (map Word [a; v]). call "approve(address,uint256)"%string [a; v] "Erc20"%string (fn "approve" [Address; U256]).
      refine (finish_flag now (Erc20.approve c a v) s _). intros b. unfold Erc20.approve, Erc20._approve. mred.
      destruct (c =? 0); [discriminate|]. destruct (a =? 0); [discriminate|]. cbn. congruence.
    - change [Word a; Word b; Word v] with (map Word [a; b; v]). call "transferFrom(address,address,uint256)"%string [a; b; v] "Erc20"%string (fn "transfer_from" [Address; Address; U256]).
      refine (finish_flag now (Erc20.transfer_from c a b v) s _). intros x. unfold Erc20.transfer_from. mred.
      destruct (Erc20._spend_allowance a c v _) as [[[]|e|] t']; cbn [fst snd]; try congruence.
      destruct (Erc20._transfer a b v _) as [[[]|e|] t1]; cbn; congruence.
    - change [Word a; Word v] with (map Word [a; v]). call "mint(address,uint256)"%string [a; v] "Erc20PermitExample"%string (fn "mint" [Address; U256]).
      exact (finish_nothing now (Permit.on_erc20 (Erc20._mint a v)) s).
    - change [Word o; Word sp; Word va; Word d; Word v; Word r; Word s0] with (map Word [o; sp; va; d; v; r; s0]).
      call "permit(address,address,uint256,uint256,uint8,bytes32,bytes32)"%string [o; sp; va; d; v; r; s0] "Erc20PermitExample"%string
        (fn "permit" [Address; Address; U256; U256; u8; B256; B256]).
      exact (finish_nothing now (Permit.permit keccak ecrecover dom now o sp va d v r s0) s).
  Qed.
  Lemma step_request now c r s : request_fits r -> snd (entry (C now) c 0 (request_data r) s) = step s (now, op_of c r).
  Proof. intros Hr. rewrite (entry_request now c r s Hr). reflexivity. Qed.

  (** A call changes nothing or is one of the requests, to the letter. *)
  Lemma any_call now c v d s : List.Forall is_byte d -> size d < two256 ->
    snd (entry (C now) c v d s) = s \/ exists r, v = 0 /\ d = request_data r /\ request_fits r.
  Proof.
    intros Hb Hsz. destruct (entry_cases (C now) c v d s (known_permit now) Hb Hsz) as [->|(t & f & args & Hin & -> & Ht & Hd & He)]; [left; reflexivity|].
    rewrite exposed_permit_ok in Hin. unfold exposed_permit in Hin. rewrite He. clear He Hb Hsz.
    repeat (destruct Hin as [Hin|Hin];
      [injection Hin as <- <-; cbn [arg_types] in Ht;
       repeat match goal with
       | H : List.Forall2 _ (_ :: _) _ |- _ => inversion H; subst; clear H
       | H : List.Forall2 _ [] _ |- _ => inversion H; subst; clear H
       | H : has_type _ ?y |- _ => destruct y; cbn [has_type word_of_type] in H;
           [|exfalso; first [destruct H as (? & H & _); discriminate H | destruct H as [[H|H] _]; discriminate H]..]
       end|]); [..|destruct Hin].
    all: try (left; reflexivity).
    all: right.
    Ltac req r := exists r; split; [reflexivity|]; split; [reflexivity|cbn [request_fits order_fits]; tauto].
    all: match goal with |- context [fn_sig ?f] => let x := eval vm_compute in (fn_sig f) in change (fn_sig f) with x end.
    all: match goal with
      | |- context [calldata "transfer(address,uint256)" [Word ?a; Word ?v]] => req (Order (Pay a v))
      | |- context [calldata "approve(address,uint256)" [Word ?a; Word ?v]] => req (Order (Allow a v))
      | |- context [calldata "transferFrom(address,address,uint256)" [Word ?a; Word ?b; Word ?v]] => req (Order (Draw a b v))
      | |- context [calldata "mint(address,uint256)" [Word ?a; Word ?v]] => req (Order (Issue a v))
      | |- context [calldata "permit(address,address,uint256,uint256,uint8,bytes32,bytes32)" [Word ?a; Word ?b; Word ?d; Word ?e; Word ?v; Word ?r; Word ?q]] =>
          req (SignedPermit a b d e v r q)
      end.
  Qed.

  (** *** States that calls lead to *)
  Record Good (s : Permit.state) : Prop := mkGood {
    g_inv : Erc20_inv.Inv (Permit.erc20 s);
    g_nonce : forall a, is_u256 (Nonces.nonces (Permit.nonces s) a)
  }.
  Lemma permit_exec_cases now o sp va d v r s st :
    Erc20_inv.Inv (Permit.erc20 st) -> is_u256 va ->
    step st (now, Permit.OPermit o sp va d v r s) = st \/
    exists x t', Erc20._approve o sp va true (Permit.erc20 st) = (Ok x, t') /\
      Nonces.nonces (Permit.nonces st) o + 1 < two256 /\
      step st (now, Permit.OPermit o sp va d v r s) =
      Permit.mk t' (Nonces.mk (mset (Nonces.nonce_map (Permit.nonces st)) o (Nonces.nonces (Permit.nonces st) o + 1))).
  Proof.
    intros HI Hv. unfold Permit.step, tx. cbn [fst snd Permit.exec]. rewrite (Crypto_props.permit_eq keccak ecrecover dom now o sp va d v r s st).
    destruct (d <? now); [left; reflexivity|]. destruct (_ <? two256) eqn:En; [|left; reflexivity]. cbv zeta.
    destruct (Ecdsa.recover _ _ _ _ _) as [signer|e|]; [|left; reflexivity..]. destruct (signer =? o); [|left; reflexivity].
    destruct (Erc20._approve o sp va true (Permit.erc20 st)) as [[x|e|] t']; [|left; reflexivity..].
    right. exists x, t'. split; [reflexivity|]. split; [lia|reflexivity].
  Qed.
  Lemma good_step s now c r : Good s -> request_fits r -> Good (step s (now, op_of c r)).
  Proof.
    intros [HI Hn] Hr. destruct r as [o|o sp va d v r s0]; cbn [op_of request_fits] in *.
    - assert (E : step s (now, Permit.OToken c (order_op o)) = Permit.mk (Erc20.step (Permit.erc20 s) (c, order_op o)) (Permit.nonces s)).
      { unfold Permit.step, Erc20.step, tx. cbn [fst snd Permit.exec]. unfold Permit.on_erc20. mred.
        destruct (Erc20.exec c (order_op o) (Permit.erc20 s)) as [[u|e|] t']; destruct s; reflexivity. }
      rewrite E. split; [|exact Hn]. cbn [Permit.erc20]. apply Erc20_inv.inv_step; [exact HI|apply order_op_wf, Hr].
    - destruct (permit_exec_cases now o sp va d v r s0 s HI ltac:(tauto)) as [->|(x & t' & Ea & Hlt & ->)]; [split; assumption|].
      split; cbn [Permit.erc20 Permit.nonces].
      + assert (St : t' = Erc20.step (Permit.erc20 s) (o, Erc20.OApprove sp va)).
        { unfold Erc20.step, tx. cbn [fst snd Erc20.exec]. unfold Erc20.ignore, Erc20.approve. mred. rewrite Ea. reflexivity. }
        rewrite St. apply Erc20_inv.inv_step; [exact HI|]. cbn. tauto.
      + intros a. unfold Nonces.nonces at 1. cbn [Nonces.nonce_map]. destruct (Z.eq_dec a o) as [->|Hne].
        * rewrite mget_set_eq. specialize (Hn o). unfold is_u256 in *. lia.
        * rewrite mget_set_ne by congruence. apply Hn.
  Qed.
  Lemma good_init : Good Permit.init.
  Proof. split; [apply Erc20_inv.inv_init|]. intros a. unfold Nonces.nonces. cbn. rewrite mget_empty. split; [lia|reflexivity]. Qed.
  Lemma good_raw h : sane_calls h -> forall s, Good s -> Good (permit_raw_run keccak ecrecover chain this h s).
  Proof.
    induction h as [|[now [[c v] d]] h IH]; intros Hh s Hs; [exact Hs|]. inversion Hh as [|? ? [Hb Hsz] Hh']; subst. cbn [snd] in *.
    cbn [permit_raw_run fold_left]. apply (IH Hh'). cbn [permit_raw_step fst snd raw_step].
    destruct (any_call now c v d s Hb Hsz) as [K|(r & -> & -> & Hr)]; [unfold permit_raw_step; cbn [fst snd raw_step]; rewrite K; exact Hs|].
    unfold permit_raw_step; cbn [fst snd raw_step]. rewrite (step_request now c r s Hr). apply good_step; assumption.
  Qed.
  (** What changes the state in a history, as calls of functions. *)
  Definition drawn_from (h : list (Z * (Z * Z * list Z))) (x : Z * Permit.op) : Prop :=
    exists c r, In (fst x, (c, 0, request_data r)) h /\ request_fits r /\ snd x = op_of c r.
  Lemma drawn_allowed h x : drawn_from h x -> Permit_spec.allowed x.
  Proof.
    destruct x as [now op]. intros (c & r & _ & Hr & E). cbn [snd] in E. subst op.
    assert (Ad : forall x, is_address x -> is_u256 x) by (unfold is_address, is_u256, two256; lia).
    destruct r as [[a x|a x|a b x|a x]|o sp va dl v0 r0 s0]; cbn [request_fits order_fits] in Hr; unfold Permit_spec.allowed; cbn [snd op_of order_op].
    - split; [exact I|apply Hr].
    - split; [exact I|apply Hr].
    - split; [exact I|apply Hr].
    - apply Hr.
    - split; [apply Ad; tauto|]. split; [apply Ad; tauto|tauto].
  Qed.
  Lemma raw_typed h : sane_calls h -> forall s, exists g,
    List.Forall (drawn_from h) g /\ permit_raw_run keccak ecrecover chain this h s = Permit.run keccak ecrecover dom g s.
  Proof.
    induction h as [|[now [[c v] d]] h IH]; intros Hh s; [exists []; split; [constructor|reflexivity]|].
    inversion Hh as [|? ? [Hb Hsz] Hh']; subst. cbn [snd] in *.
    change (permit_raw_run keccak ecrecover chain this ((now, (c, v, d)) :: h) s)
      with (permit_raw_run keccak ecrecover chain this h (snd (entry (C now) c v d s))).
    assert (Mo : forall g, List.Forall (drawn_from h) g -> List.Forall (drawn_from ((now, (c, v, d)) :: h)) g).
    { intros g. apply List.Forall_impl. intros x (c' & r & Hin & Hr & E). exists c', r. split; [right; exact Hin|auto]. }
    destruct (any_call now c v d s Hb Hsz) as [->|(r & -> & -> & Hr)].
    - destruct (IH Hh' s) as (g & Hg & ->). exists g. split; [apply Mo, Hg|reflexivity].
    - rewrite (step_request now c r s Hr). destruct (IH Hh' (step s (now, op_of c r))) as (g & Hg & ->).
      exists ((now, op_of c r) :: g). split; [constructor; [|apply Mo, Hg]|reflexivity].
      exists c, r. split; [left; reflexivity|]. split; [exact Hr|reflexivity].
  Qed.

  (** *** What the getters say is what the model holds *)
  Definition agree (s : Permit.state) (b : pbook) : Prop :=
    keeps (Permit.erc20 s) (p_ledger b) /\ (forall a, is_address a -> p_nonce b a = Nonces.nonces (Permit.nonces s) a).
  Lemma ask_supply now s c : entry (C now) c 0 (calldata "totalSupply()" []) s = (Returned (word (Erc20.total_supply (Permit.erc20 s))), s).
  Proof. change (@nil val) with (map Word []). call "totalSupply()"%string (@nil Z) "Erc20"%string (fn "total_supply" []). rewrite <- one_word. reflexivity. Qed.
  Lemma ask_balance now s c a : is_address a ->
    entry (C now) c 0 (calldata "balanceOf(address)" [Word a]) s = (Returned (word (Erc20.balance_of (Permit.erc20 s) a)), s).
  Proof. intros H. change [Word a] with (map Word [a]). call "balanceOf(address)"%string [a] "Erc20"%string (fn "balance_of" [Address]). rewrite <- one_word. reflexivity. Qed.
  Lemma ask_allowance now s c a b : is_address a -> is_address b ->
    entry (C now) c 0 (calldata "allowance(address,address)" [Word a; Word b]) s = (Returned (word (Erc20.allowance (Permit.erc20 s) a b)), s).
  Proof.
    intros H H'. change [Word a; Word b] with (map Word [a; b]). call "allowance(address,address)"%string [a; b] "Erc20"%string (fn "allowance" [Address; Address]).
    rewrite <- one_word. reflexivity.
  Qed.
  Lemma ask_nonce now s c a : is_address a ->
    entry (C now) c 0 (calldata "nonces(address)" [Word a]) s = (Returned (word (Nonces.nonces (Permit.nonces s) a)), s).
  Proof. intros H. change [Word a] with (map Word [a]). call "nonces(address)"%string [a] "Nonces"%string (fn "nonces" [Address]). rewrite <- one_word. reflexivity. Qed.
  Lemma ask_separator now s c :
    entry (C now) c 0 (calldata "DOMAIN_SEPARATOR()" []) s = (Returned (word (Eip712.domain_separator_v4 keccak dom)), s).
  Proof.
    change (@nil val) with (map Word []). call "DOMAIN_SEPARATOR()"%string (@nil Z) "Erc20Permit"%string (fn_as "DOMAIN_SEPARATOR" "domain_separator" []).
    rewrite <- one_word. reflexivity.
  Qed.
  Lemma shows_agree s b : Good s -> pbook_fits b -> (shows call s b <-> agree s b).
  Proof.
    intros G ((F1 & F2 & F3) & F4). unfold shows, agree, keeps, says. split.
    - assert (W : forall x y (t : Permit.state), is_u256 x -> is_u256 y -> (Returned (word x), t) = (Returned (word y), t) -> y = x).
      { intros x y t Hx Hy E. assert (E' : word x = word y) by congruence. symmetry. exact (word_inj _ _ Hx Hy E'). }
      intros (H1 & H2 & H3 & H4). split; [split; [|split]|].
      + specialize (H1 0 0). rewrite (ask_supply 0 s 0) in H1. apply W in H1; auto. apply supply_fits, G.
      + intros a Ha. specialize (H2 a Ha 0 0). rewrite (ask_balance 0 s 0 a Ha) in H2. apply W in H2; auto. apply balance_fits, G.
      + intros o sp Ho Hsp. specialize (H3 o sp Ho Hsp 0 0). rewrite (ask_allowance 0 s 0 o sp Ho Hsp) in H3.
        apply W in H3; auto. apply allowance_fits, G.
      + intros a Ha. specialize (H4 a Ha 0 0). rewrite (ask_nonce 0 s 0 a Ha) in H4. apply W in H4; auto. apply G.
    - intros ((H1 & H2 & H3) & H4). split; [|split; [|split]].
      + intros now c. rewrite (ask_supply now s c), H1. reflexivity.
      + intros a Ha now c. rewrite (ask_balance now s c a Ha), (H2 a Ha). reflexivity.
      + intros o sp Ho Hsp now c. rewrite (ask_allowance now s c o sp Ho Hsp), (H3 o sp Ho Hsp). reflexivity.
      + intros a Ha now c. rewrite (ask_nonce now s c a Ha), (H4 a Ha). reflexivity.
  Qed.

  (** *** The verdict of the ideal token is the outcome of the code *)
  Local Notation wdom := (example_domain chain this).
  Lemma digest_ok b s o sp va d : is_address o -> agree s b ->
    to_sign keccak wdom b o sp va d = Crypto_props.permit_digest keccak dom o sp va (Nonces.nonces (Permit.nonces s) o) d.
  Proof.
    intros Ho (_ & A4). unfold to_sign. rewrite (A4 o Ho).
    assert (Hw : wallet_domain (Eip712.eip712_domain dom) = Some wdom) by reflexivity.
    rewrite (TypedData_props.c86_wallet_computes_the_digest keccak dom wdom _ Hw), TypedData_props.permit_struct, <- TypedData_props.permit_digest_eq.
    reflexivity.
  Qed.
  Definition granted (c : Z) (r : request) (b : pbook) : pbook :=
    match r with
    | Order o => mkPBook (order_effect c o (p_ledger b)) (p_nonce b)
    | SignedPermit o sp va _ _ _ _ => mkPBook (with_allowance (p_ledger b) o sp va) (at_key (p_nonce b) o (p_nonce b o + 1))
    end.
  Lemma approve_eq o sp va t : o <> 0 ->
    outcome (fst (Erc20._approve o sp va true t)) = if sp =? 0 then Err (Erc20.InvalidSpender 0) else Ok tt.
  Proof. intros Ho. unfold Erc20._approve. mred. replace (o =? 0) with false by lia. destruct (sp =? 0); reflexivity. Qed.
  Lemma permit_verdict s b now o sp va d v r s0 : Good s -> agree s b -> is_address o ->
    decide (permit_checks keccak ecrecover wdom now o sp va d v r s0 b) tt =
    match outcome (fst (Permit.permit keccak ecrecover dom now o sp va d v r s0 s)) with
    | Ok _ => Yes tt
    | Err e => No (Some (reason_permit e))
    | Panic => No None
    end.
  Proof.
    intros G A Ho. rewrite (Crypto_props.permit_eq keccak ecrecover dom now o sp va d v r s0 s).
    unfold permit_checks. cbv zeta. rewrite (digest_ok b s o sp va d Ho A). pose proof A as (_ & A4). rewrite (A4 o Ho).
    pose proof (g_nonce s G o) as Hn. unfold is_u256 in Hn. unfold may_recover. rewrite recover_eq.
    set (n := Nonces.nonces (Permit.nonces s) o) in *. set (dg := Crypto_props.permit_digest keccak dom o sp va n d).
    cbn [app decide]. destruct (d <? now); [reflexivity|].
    replace (n =? U256_MAX) with (negb (n + 1 <? two256)) by (unfold U256_MAX in *; lia).
    destruct (n + 1 <? two256); cbn [negb]; [|reflexivity].
    destruct (curve_order <? 2 * s0); [reflexivity|]. destruct ((v =? 0) || (v =? 1)); [reflexivity|].
    destruct (answered ecrecover dg v r s0) as [a|]; [|reflexivity]. cbn [app decide].
    destruct (a =? 0) eqn:E0; [reflexivity|]. destruct (a =? o) eqn:E1; cbn [negb]; [|reflexivity].
    pose proof (approve_eq o sp va (Permit.erc20 s) ltac:(lia)) as Ap.
    destruct (Erc20._approve o sp va true (Permit.erc20 s)) as [[x|e|] t']; cbn [fst outcome] in *; destruct (sp =? 0); try discriminate; try reflexivity.
    inversion Ap. reflexivity.
  Qed.
  Lemma decide_any {B B'} l (b : B) (b' : B') : decide l b' = match decide l b with Yes _ => Yes b' | No r => No r end.
  Proof. induction l as [|[x r] l IH]; [reflexivity|]. cbn [decide]. destruct x; [reflexivity|exact IH]. Qed.
  Lemma on_erc20_eq {A} (m : M Erc20.state Erc20.error A) s :
    Permit.on_erc20 m s =
    (match fst (m (Permit.erc20 s)) with Ok a => Ok a | Err e => Err (Permit.Erc20Error e) | Panic => Panic end,
     Permit.mk (snd (m (Permit.erc20 s))) (Permit.nonces s)).
  Proof. unfold Permit.on_erc20. mred. destruct (m (Permit.erc20 s)) as [[a|e|] t']; reflexivity. Qed.
  Lemma verdict_ok s b now c r : Good s -> agree s b -> is_address c -> request_fits r ->
    ideal keccak ecrecover wdom now c r b =
    match outcome (fst (exec now (op_of c r) s)) with
    | Ok _ => Yes (granted c r b)
    | Err e => No (Some (reason_permit e))
    | Panic => No None
    end.
  Proof.
    intros G A Hc Hr. destruct r as [o|o sp va d v r s0]; cbn [ideal op_of granted Permit.exec request_fits] in *.
    - rewrite (order_verdict (Permit.erc20 s) (p_ledger b) c o _ (proj1 A) Hc Hr), on_erc20_eq. cbn [fst].
      destruct (Erc20.exec c (order_op o) (Permit.erc20 s)) as [[[]|e|] t']; reflexivity.
    - rewrite (decide_any _ tt), (permit_verdict s b now o sp va d v r s0 G A) by tauto.
      destruct (outcome _); reflexivity.
  Qed.
  Lemma err_fits s now c r e : answers_bytes ecrecover -> Good s -> is_address c -> request_fits r ->
    outcome (fst (exec now (op_of c r) s)) = Err e -> reason_fits (reason_permit e).
  Proof.
    intros Hb G Hc Hr. destruct r as [o|o sp va d v r s0]; cbn [op_of Permit.exec request_fits] in *.
    - rewrite on_erc20_eq. cbn [fst]. intros E. pose proof (order_reason (Permit.erc20 s) c o) as K.
      destruct (Erc20.exec c (order_op o) (Permit.erc20 s)) as [[[]|x|] t']; cbn [fst outcome] in *; try discriminate.
      injection E as <-. cbn [reason_permit]. apply K; auto. apply G.
    - rewrite (Crypto_props.permit_eq keccak ecrecover dom now o sp va d v r s0 s). cbv zeta. rewrite recover_eq.
      assert (Ad : forall x, is_address x -> is_u256 x) by (unfold is_address, is_u256, two256; lia).
      assert (Z0 : is_u256 0) by (split; [lia|reflexivity]). unfold reason_fits.
      set (n := Nonces.nonces (Permit.nonces s) o) in *. set (dg := Crypto_props.permit_digest keccak dom o sp va n d).
      assert (F1 : forall x, is_u256 x -> List.Forall is_u256 [x]) by (intros; apply List.Forall_cons; [assumption|apply List.Forall_nil]).
      destruct (d <? now); [intros [= <-]; cbn [reason_permit numbers]; apply F1; tauto|].
      destruct (n + 1 <? two256); [|discriminate]. cbv zeta.
      destruct (curve_order <? 2 * s0); [intros [= <-]; cbn [reason_permit reason_ecdsa numbers]; apply F1; tauto|].
      destruct ((v =? 0) || (v =? 1)); [intros [= <-]; apply List.Forall_nil|].
      destruct (answered ecrecover dg v r s0) as [a|] eqn:Ea; [|discriminate]. apply answered_fits in Ea; [|exact Hb].
      destruct (a =? 0); [intros [= <-]; apply List.Forall_nil|].
      destruct (a =? o) eqn:E1.
      + unfold Erc20._approve. mred. destruct (o =? 0); [intros [= <-]; cbn [reason_permit reason_erc20 numbers]; apply F1, Z0|].
        destruct (sp =? 0); [intros [= <-]; cbn [reason_permit reason_erc20 numbers]; apply F1, Z0|discriminate].
      + intros [= <-]. cbn [reason_permit numbers]. apply List.Forall_cons; [apply Ad, Ea|apply F1, Ad; tauto].
  Qed.

  (** *** Effects *)
  Lemma ok_agree s b now c r u s' : Good s -> agree s b -> is_address c -> request_fits r ->
    exec now (op_of c r) s = (Ok u, s') -> agree s' (granted c r b).
  Proof.
    intros G A Hc Hr. destruct r as [o|o sp va d v r s0]; cbn [op_of Permit.exec request_fits granted] in *.
    - rewrite on_erc20_eq. pose proof (fun x t' => order_keeps (Permit.erc20 s) (p_ledger b) c o x t' (g_inv s G) (proj1 A) Hc Hr) as K.
      destruct (Erc20.exec c (order_op o) (Permit.erc20 s)) as [[x|x|] t']; cbn [fst snd]; intros E; inversion E; subst.
      split; cbn [Permit.erc20 Permit.nonces p_ledger p_nonce]; [apply (K u t' eq_refl)|apply A].
    - intros E. destruct u. destruct (Crypto_props.c08_permit_exact keccak ecrecover dom s now o sp va d v r s0) as (_ & H & _).
      destruct (H _ E) as (B1 & B2 & B3 & B4 & _ & B5 & B6). split; cbn [p_ledger p_nonce].
      + apply (keeps_approval (Permit.erc20 s)); try tauto. apply A.
      + intros a Ha. pose proof A as (_ & A4). unfold at_key. destruct (a =? o) eqn:D.
        * replace a with o by lia. rewrite B5, (A4 o) by tauto. reflexivity.
        * rewrite (B6 a) by lia. apply A4, Ha.
  Qed.
  Lemma granted_fits s s' b c r : Good s' -> pbook_fits b -> is_address c -> request_fits r -> agree s b ->
    agree s' (granted c r b) -> pbook_fits (granted c r b).
  Proof.
    intros G (F & Fn) Hc Hr A (K & Kn). destruct r as [o|o sp va d v r s0]; cbn [granted p_ledger p_nonce request_fits] in *.
    - split; [|exact Fn]. cbn [p_ledger]. apply (order_effect_fits (Permit.erc20 s')); auto. apply G.
    - split; cbn [p_ledger p_nonce].
      + apply (keeps_fits (Permit.erc20 s') (p_ledger b)); auto; [apply G|]. intros x y Ne. cbn [with_allowance l_allowance]. rewrite Ne by tauto. reflexivity.
      + intros a. unfold at_key. destruct (outside_address a) as [Ha|Ha].
        * specialize (Kn a Ha). unfold at_key in Kn. rewrite Kn. apply G.
        * rewrite Ha by tauto. apply Fn.
  Qed.
  Lemma follows_ok s b now c r : answers_bytes ecrecover -> Good s -> pbook_fits b -> agree s b -> is_address c -> request_fits r ->
    follows call s now c r (ideal keccak ecrecover wdom now c r b).
  Proof.
    intros Hb G Fb A Hc Hr. unfold follows. rewrite (verdict_ok s b now c r G A Hc Hr).
    pose proof (entry_request now c r s Hr) as E. pose proof (err_fits s now c r) as Ef. pose proof (ok_agree s b now c r) as Ag.
    pose proof (good_step s now c r G Hr) as G'.
    unfold Permit.step, tx in *. cbn [fst snd] in *.
    destruct (exec now (op_of c r) s) as [[[]|e|] s'] eqn:Ex; cbn [outcome fst snd answer_of] in *.
    - exists s'. specialize (Ag tt s' G A Hc Hr eq_refl). pose proof (granted_fits s s' b c r G' Fb Hc Hr A Ag) as Fb'.
      split; [exact E|]. split; [apply (shows_agree _ _ G' Fb'), Ag|exact Fb'].
    - exists (revert_permit e). split; [exact E|]. apply revert_permit_ok, Ef; auto.
    - exact E.
  Qed.
  Definition pbook_of (s : Permit.state) : pbook := mkPBook (ledger_of (Permit.erc20 s)) (Nonces.nonces (Permit.nonces s)).
  Lemma pbook_of_ok s : Good s -> pbook_fits (pbook_of s) /\ agree s (pbook_of s).
  Proof.
    intros G. destruct (ledger_of_ok (Permit.erc20 s) (g_inv s G)) as [F K].
    split; (split; [assumption|]); [apply (g_nonce s G)|reflexivity].
  Qed.
  Definition same_entry (x y : string * list abi_type) : {x = y} + {x <> y}.
  Proof. repeat decide equality. Defined.
  Lemma exposed_interface now t f : In (t, f) (exposed (blocks (C now))) -> In (fn_sig f, arg_types f) permit_interface.
  Proof.
    rewrite exposed_permit_ok. intros H.
    assert (K : forallb (fun p => if in_dec same_entry (fn_sig (snd p), arg_types (snd p)) permit_interface then true else false) exposed_permit = true)
      by (vm_compute; reflexivity).
    rewrite forallb_forall in K. specialize (K _ H). cbn [snd] in K. destruct (in_dec _ _ _) as [Hin|]; [exact Hin|discriminate].
  Qed.
End permit_example.

Theorem c88_permit_token_is_ideal :
  forall keccak ecrecover chain this h, answers_bytes ecrecover -> sane_calls h ->
  let call now := entry (ExamplePermit keccak ecrecover chain this now) in
  let s := permit_raw_run keccak ecrecover chain this h Permit.init in
  (exists b, pbook_fits b /\ shows call s b) /\
  (forall b now c r, pbook_fits b -> shows call s b -> is_address c -> request_fits r ->
     follows call s now c r (ideal keccak ecrecover (example_domain chain this) now c r b)) /\
  shows call Permit.init new_pbook.
Proof.
  intros keccak ecrecover chain this h Hb Hh call s.
  pose proof (good_raw keccak ecrecover chain this h Hh _ good_init) as G. fold s in G. split; [|split].
  - destruct (pbook_of_ok s G) as [F A]. exists (pbook_of s). split; [exact F|]. apply shows_agree; assumption.
  - intros b now c r Fb Sb Hc Hr. apply (shows_agree keccak ecrecover chain this s b G Fb) in Sb.
    apply follows_ok; assumption.
  - assert (F : pbook_fits new_pbook) by (split; [apply keeps_init|split; [cbn; lia|reflexivity]]).
    apply (shows_agree keccak ecrecover chain this _ _ good_init F). split; [apply keeps_init|reflexivity].
Qed.
Print Assumptions c88_permit_token_is_ideal.

(** Anything else fails without a reason and without effect; whatever changes the state is one
    of the five requests, to the letter. *)
Theorem c88_permit_nothing_else :
  forall keccak ecrecover chain this now c v d s, List.Forall is_byte d -> size d < two256 ->
  let call := entry (ExamplePermit keccak ecrecover chain this now) in
  (~ proper_call permit_interface v d -> call c v d s = (Reverted [], s)) /\
  (snd (call c v d s) <> s -> exists r, v = 0 /\ d = request_data r /\ request_fits r) /\
  (forall out s', call c v d s = (Returned out, s') -> proper_call permit_interface v d).
Proof.
  intros keccak ecrecover chain this now c v d s Hb Hsz call.
  assert (P : call c v d s = (Reverted [], s) \/ proper_call permit_interface v d).
  { destruct (entry_cases (ExamplePermit keccak ecrecover chain this now) c v d s (known_permit keccak ecrecover chain this now) Hb Hsz)
      as [K|(t & f & args & Hin & Hv & Ht & Hd & _)]; [left; exact K|right].
    split; [exact Hv|]. exists (fn_sig f), (arg_types f), args.
    split; [apply (exposed_interface keccak ecrecover chain this now t), Hin|]. split; assumption. }
  split; [destruct P; tauto|]. split.
  - intros Hs. destruct (any_call keccak ecrecover chain this now c v d s Hb Hsz) as [K|K]; [contradiction (Hs K)|exact K].
  - intros out s' E. destruct P as [P|P]; [congruence|exact P].
Qed.
Print Assumptions c88_permit_nothing_else.

(** Wallets and contract agree on the domain: DOMAIN_SEPARATOR() is the hash of what a wallet
    shows for it. *)
Theorem c88_domain_separator :
  forall keccak ecrecover chain this now c s,
  entry (ExamplePermit keccak ecrecover chain this now) c 0 (calldata "DOMAIN_SEPARATOR()" []) s =
  (Returned (word (hash_struct keccak (example_domain chain this))), s).
Proof.
  intros keccak ecrecover chain this now c s. rewrite (ask_separator keccak ecrecover chain this now s c).
  destruct (TypedData_props.c86_wallet_computes_the_separator keccak (permit_domain chain this)) as (w & Hw & E & _).
  assert (Hw' : wallet_domain (Eip712.eip712_domain (permit_domain chain this)) = Some (example_domain chain this)) by reflexivity.
  rewrite Hw in Hw'. injection Hw' as ->. rewrite E. reflexivity.
Qed.
Print Assumptions c88_domain_separator.

(** An account that has approved nobody, calls nothing, and for which no valid signature is
    presented in time, keeps its tokens and its nonce, whatever bytes others send. *)
Theorem c88_sleeping_account :
  forall keccak ecrecover chain this h1 h2 o,
  sane_calls h1 -> sane_calls h2 -> is_address o -> o <> 0 ->
  let call now := entry (ExamplePermit keccak ecrecover chain this now) in
  let s1 := permit_raw_run keccak ecrecover chain this h1 Permit.init in
  let s2 := permit_raw_run keccak ecrecover chain this h2 s1 in
  (forall sp, is_address sp -> says call s1 "allowance(address,address)" [Word o; Word sp] 0) ->
  (forall now c v d, In (now, (c, v, d)) h2 -> is_address c /\ c <> o) ->
  (forall now c sp va d v r s n, In (now, (c, 0, request_data (SignedPermit o sp va d v r s))) h2 -> now <= d ->
     ~ Permit_spec.recovers ecrecover (signed_digest keccak (example_domain chain this) (permit_message_data o sp va n d)) v r s o) ->
  exists x y n,
    says call s1 "balanceOf(address)" [Word o] x /\ says call s2 "balanceOf(address)" [Word o] y /\ x <= y /\
    says call s1 "nonces(address)" [Word o] n /\ says call s2 "nonces(address)" [Word o] n.
Proof.
  intros keccak ec chain this h1 h2 o Hh1 Hh2 Ho Ho0 call s1 s2 Hal Hcl Hsig.
  pose proof (good_raw keccak ec chain this h1 Hh1 _ good_init) as G1. fold s1 in G1.
  destruct (raw_typed keccak ec chain this h1 Hh1 Permit.init) as (g1 & A1 & E1). fold s1 in E1.
  destruct (raw_typed keccak ec chain this h2 Hh2 s1) as (g2 & A2 & E2). fold s2 in E2.
  assert (Wd : forall g h, List.Forall (drawn_from h) g -> List.Forall Permit_spec.allowed g).
  { intros g h. apply List.Forall_impl. apply drawn_allowed. }
  rewrite List.Forall_forall in A2.
  assert (Hpas : Permit_spec.passive o g2).
  { intros t c x Hin. destruct (A2 _ Hin) as (c' & r & Hin' & _ & E). cbn [fst snd] in *.
    destruct r; cbn [op_of] in E; [|discriminate]. injection E as -> _. apply (Hcl _ _ _ _ Hin'). }
  assert (Wf2 : List.Forall Permit_spec.allowed g2) by (apply (Wd g2 h2), List.Forall_forall, A2).
  destruct (PermitHist_props.c83_passive_loss keccak ec (permit_domain chain this) g2 s1 o
    (ex_intro _ g1 (conj (Wd _ _ A1) E1)) Wf2 Ho0 Hpas) as (U & _ & U2 & U3 & U4).
  assert (U = []) as ->.
  { destruct U as [|[sp va n d] U]; [reflexivity|]. inversion U3 as [|? ? Hm _]; subst. exfalso. destruct Hm as (t & v & r & s & Hin & Ht & Hrec).
    cbn [Permit_spec.m_spender Permit_spec.m_value Permit_spec.m_deadline] in *.
    destruct (A2 _ Hin) as (c & rq & Hin' & _ & E). cbn [fst snd] in *. destruct rq as [?|o' sp' va' d' v' r' s']; cbn [op_of] in E; [discriminate|].
    injection E as <- <- <- <- <- <- <-.
    apply (Hsig t c sp va d v r s n Hin' Ht).
    rewrite (TypedData_props.c86_wallet_computes_the_digest keccak (permit_domain chain this) (example_domain chain this) _ eq_refl), TypedData_props.permit_struct.
    exact Hrec. }
  assert (Al : forall sp, is_address sp -> Erc20.allowance (Permit.erc20 s1) o sp = 0).
  { intros sp Hsp. specialize (Hal sp Hsp 0 0). unfold call in Hal. rewrite (ask_allowance keccak ec chain this 0 s1 0 o sp Ho Hsp) in Hal.
    assert (E : word (Erc20.allowance (Permit.erc20 s1) o sp) = word 0) by congruence.
    assert (Z0 : is_u256 0) by (split; [lia|reflexivity]).
    exact (word_inj _ _ (allowance_fits _ o sp (g_inv _ G1)) Z0 E). }
  assert (Cl : forall sp, In sp (Permit_spec.callers g2) -> is_address sp).
  { intros sp. unfold Permit_spec.callers. rewrite nodup_In, in_flat_map. intros ([t x] & Hin & Hsp). cbn [snd] in Hsp.
    destruct (A2 _ Hin) as (c & r & Hin' & _ & E). cbn [fst snd] in *. subst x.
    destruct r; cbn [op_of] in Hsp; [|destruct Hsp]. destruct Hsp as [<-|[]]. apply (Hcl _ _ _ _ Hin'). }
  assert (L : Erc20.balance_of (Permit.erc20 s1) o - Erc20.balance_of (Permit.erc20 s2) o <= 0).
  { rewrite E2. etransitivity; [apply U4|].
    - intros sp Hsp. split; [rewrite (Al sp (Cl sp Hsp)); reflexivity|]. split; [|intros m []].
      intros [t x] Hin. unfold Permit_spec.op_approved. cbn [snd]. destruct x as [?|c x]; [reflexivity|].
      destruct x; try reflexivity. destruct (Z.eqb_spec c o) as [->|]; [|reflexivity].
      exfalso. apply (Hpas t o _ Hin eq_refl).
    - cbn [map]. change (Permit_spec.sum_list []) with 0. rewrite Z.add_0_r.
      revert Cl. generalize (Permit_spec.callers g2). intros L. induction L as [|x L IH]; intros Cl; [reflexivity|].
      cbn [map]. rewrite Permit_hist.sum_list_cons, (Al x (Cl x (or_introl eq_refl))). apply IH. intros sp Hsp. apply Cl. right. exact Hsp. }
  exists (Erc20.balance_of (Permit.erc20 s1) o), (Erc20.balance_of (Permit.erc20 s2) o), (Nonces.nonces (Permit.nonces s1) o).
  split; [intros now c; apply ask_balance, Ho|]. split; [intros now c; apply ask_balance, Ho|]. split; [lia|].
  split; [intros now c; apply ask_nonce, Ho|]. intros now c. unfold call. rewrite (ask_nonce keccak ec chain this now s2 c o Ho).
  rewrite E2, U2. cbn [length Z.of_nat]. rewrite Z.add_0_r. reflexivity.
Qed.
Print Assumptions c88_sleeping_account.

(** ** examples/ecdsa *)
Section ecdsa_example.
  Context (ecrecover : Ecdsa.precompile).
  Local Notation C := (ExampleEcdsa ecrecover).
  Definition recover_data (hash v r s : Z) : list Z :=
    calldata "recover(bytes32,uint8,bytes32,bytes32)" [Word hash; Word v; Word r; Word s].
  Definition signature_fits (hash v r s : Z) : Prop := is_u256 hash /\ 0 <= v < 2 ^ 8 /\ is_u256 r /\ is_u256 s.
  Lemma ask_recover hash v r s c : signature_fits hash v r s ->
    entry C c 0 (recover_data hash v r s) tt =
    (match Ecdsa.recover ecrecover hash v r s with
     | Ok a => Returned (word a) | Err e => Reverted (revert_ecdsa e) | Panic => Reverted [] end, tt).
  Proof.
    intros (H1 & H2 & H3 & H4). unfold recover_data. change [Word hash; Word v; Word r; Word s] with (map Word [hash; v; r; s]).
    refine (eq_trans (entry_calldata C c "recover(bytes32,uint8,bytes32,bytes32)"%string (map Word [hash; v; r; s]) tt "ECDSAExample"%string
      (fn "recover" [B256; u8; B256; B256]) _ _ _ _ _ _) _).
    - vm_compute. reflexivity.
    - vm_compute. reflexivity.
    - vm_compute. reflexivity.
    - repeat (apply List.Forall2_cons || apply List.Forall2_nil); cbn [has_type word_of_type]; assumption.
    - apply abi_words_bytes.
    - rewrite abi_words_size. reflexivity.
    - change (body_of (code C) _ _ _ c tt) with ((a <~ lift_res (Ecdsa.recover ecrecover hash v r s) ;; ret [Word a]) tt : res Ecdsa.error (list val) * unit).
      mred. destruct (Ecdsa.recover ecrecover hash v r s) as [a|e|]; cbn [finish]; [rewrite one_word|..]; reflexivity.
  Qed.
End ecdsa_example.
(** The answer is the signer, or the reason of the first check that fails. *)
Theorem c88_recover_by_bytes :
  forall ecrecover hash v r s c, answers_bytes ecrecover -> signature_fits hash v r s ->
  match decide (may_recover ecrecover hash v r s) tt with
  | Yes _ => exists a, answered ecrecover hash v r s = Some a /\ a <> 0 /\ is_address a /\
      entry (ExampleEcdsa ecrecover) c 0 (recover_data hash v r s) tt = (Returned (word a), tt)
  | No (Some why) => exists d, entry (ExampleEcdsa ecrecover) c 0 (recover_data hash v r s) tt = (Reverted d, tt) /\ decode_reason d = Some why
  | No None => entry (ExampleEcdsa ecrecover) c 0 (recover_data hash v r s) tt = (Reverted [], tt)
  end.
Proof.
  intros ec hash v r s c Hb Hf. rewrite (ask_recover ec hash v r s c Hf), recover_eq. unfold may_recover.
  assert (D : forall e, reason_fits (reason_ecdsa e) -> exists d, (Reverted (revert_ecdsa e), tt) = (Reverted d, tt) /\ decode_reason d = Some (reason_ecdsa e)).
  { intros e He. exists (revert_ecdsa e). split; [reflexivity|]. apply revert_ecdsa_ok, He. }
  cbn [app decide]. destruct (curve_order <? 2 * s).
  { apply (D (Ecdsa.InvalidSignatureS s)). apply List.Forall_cons; [apply Hf|apply List.Forall_nil]. }
  destruct ((v =? 0) || (v =? 1)); [apply (D Ecdsa.InvalidSignature), List.Forall_nil|].
  destruct (answered ec hash v r s) as [a|] eqn:Ea; cbn [decide]; [|reflexivity].
  destruct (a =? 0) eqn:E0; [apply (D Ecdsa.InvalidSignature), List.Forall_nil|].
  exists a. split; [reflexivity|]. split; [lia|]. split; [apply (answered_fits ec hash v r s a Hb Ea)|reflexivity].
Qed.
Print Assumptions c88_recover_by_bytes.

(** ** On a chain: with ecrecover as specified *)
Lemma firstn_word x l : firstn 32 (word x ++ l) = word x.
Proof. rewrite firstn_app, word_length, Nat.sub_diag, firstn_O, app_nil_r. apply firstn_all2. rewrite word_length. lia. Qed.
Lemma skipn_word x l : skipn 32 (word x ++ l) = l.
Proof. rewrite skipn_app, word_length, Nat.sub_diag. rewrite (skipn_all2 (word x)) by (rewrite word_length; lia). reflexivity. Qed.
Lemma word_low_address a : is_address a -> of_be (skipn 12 (word a)) = a.
Proof.
  intros Ha. change (skipn 12 (word a)) with (be_bytes 20 a). rewrite of_be_be_bytes. apply Z.mod_small. exact Ha.
Qed.
Section on_chain.
  Context (recover : Z -> Z -> Z -> Z -> option Z) (Hrec : forall h v r s a, recover h v r s = Some a -> is_address a).
  Definition valid (v r s : Z) : bool :=
    ((v =? 27) || (v =? 28)) && ((0 <? r) && (r <? curve_order)) && ((0 <? s) && (s <? curve_order)).
  Lemma evm_answered h v r s : signature_fits h v r s ->
    answered (evm_ecrecover recover) h v r s = if valid v r s then recover h v r s else None.
  Proof.
    intros (H1 & H2 & H3 & H4). assert (H2' : is_u256 v) by (unfold is_u256, two256 in *; lia).
    assert (E : evm_ecrecover recover (word h ++ word v ++ word r ++ word s) =
      Some (if valid v r s then match recover h v r s with Some a => word a | None => [] end else [])).
    { unfold evm_ecrecover. cbv zeta. change (32 * 0)%nat with 0%nat. change (32 * 1)%nat with 32%nat.
      replace (skipn (32 * 2) (word h ++ word v ++ word r ++ word s)) with (word r ++ word s).
      2: { change (32 * 2)%nat with (32 + 32)%nat. rewrite <- (skipn_word v (word r ++ word s)) at 1. rewrite <- (skipn_word h (word v ++ word r ++ word s)) at 1. reflexivity. }
      replace (skipn (32 * 3) (word h ++ word v ++ word r ++ word s)) with (word s ++ []).
      2: { rewrite app_nil_r. rewrite <- (skipn_word r (word s)) at 1. rewrite <- (skipn_word v (word r ++ word s)) at 1. rewrite <- (skipn_word h (word v ++ word r ++ word s)) at 1. reflexivity. }
      rewrite (skipn_O (word h ++ word v ++ word r ++ word s)), skipn_word, !firstn_word, !SolAbi_lemmas.of_be_word by assumption. reflexivity. }
    unfold answered. rewrite E. destruct (valid v r s); [|reflexivity]. destruct (recover h v r s) as [a|] eqn:Er; [|reflexivity].
    rewrite word_length, Nat.eqb_refl, (word_low_address a) by (apply (Hrec _ _ _ _ _ Er)). reflexivity.
  Qed.
  Lemma evm_bytes : answers_bytes (evm_ecrecover recover).
  Proof.
    intros d out. unfold evm_ecrecover. intros [= <-]. destruct (_ && _); [|apply List.Forall_nil].
    destruct (recover _ _ _ _); [apply be_bytes_byte|apply List.Forall_nil].
  Qed.
  Lemma invalid_answered h v r s : signature_fits h v r s ->
    (invalid recover h v r s <-> answered (evm_ecrecover recover) h v r s = None).
  Proof.
    intros Hf. rewrite (evm_answered h v r s Hf). unfold invalid. destruct (valid v r s) eqn:V; unfold valid in V.
    - split; [intros [H|[H|[H|H]]]; [lia..|exact H]|auto].
    - split; [reflexivity|intros _]. apply andb_false_iff in V. destruct V as [V|V]; [|lia]. apply andb_false_iff in V. destruct V; lia.
  Qed.
End on_chain.

(** Which answer each signature gets. *)
Theorem c88_signatures_on_chain :
  forall recover hash v r s c, (forall h v r s a, recover h v r s = Some a -> is_address a) -> signature_fits hash v r s ->
  let call := entry (ExampleEcdsa (evm_ecrecover recover)) c 0 (recover_data hash v r s) tt in
  let fails why := exists d, call = (Reverted d, tt) /\ decode_reason d = Some why in
  (curve_order < 2 * s -> fails (ECDSAInvalidSignatureS s)) /\
  (2 * s <= curve_order -> v = 0 \/ v = 1 -> fails ECDSAInvalidSignature) /\
  (2 * s <= curve_order -> v <> 0 -> v <> 1 -> invalid recover hash v r s -> call = (Reverted [], tt)) /\
  (2 * s <= curve_order -> ~ invalid recover hash v r s -> exists a, recover hash v r s = Some a /\
     (a = 0 -> fails ECDSAInvalidSignature) /\ (a <> 0 -> call = (Returned (word a), tt))).
Proof.
  intros recover hash v r s c Hrec Hf call fails.
  pose proof (c88_recover_by_bytes (evm_ecrecover recover) hash v r s c (evm_bytes recover) Hf) as K. fold call in K.
  unfold may_recover in K. cbn [app decide] in K. split; [|split; [|split]].
  - intros H. replace (curve_order <? 2 * s) with true in K by lia. exact K.
  - intros H Hv. replace (curve_order <? 2 * s) with false in K by lia. replace ((v =? 0) || (v =? 1)) with true in K by lia. exact K.
  - intros H H0 H1 Hi. replace (curve_order <? 2 * s) with false in K by lia. replace ((v =? 0) || (v =? 1)) with false in K by lia.
    apply (invalid_answered recover Hrec _ _ _ _ Hf) in Hi. rewrite Hi in K. exact K.
  - intros H Hi. replace (curve_order <? 2 * s) with false in K by lia.
    rewrite (invalid_answered recover Hrec _ _ _ _ Hf) in Hi.
    assert (Hv : valid v r s = true). { destruct (valid v r s) eqn:V; [reflexivity|]. rewrite (evm_answered recover Hrec _ _ _ _ Hf), V in Hi. contradiction. }
    rewrite (evm_answered recover Hrec _ _ _ _ Hf), Hv in K, Hi. replace ((v =? 0) || (v =? 1)) with false in K by (unfold valid in Hv; lia).
    destruct (recover hash v r s) as [a|]; [|contradiction]. exists a. split; [reflexivity|]. cbn [decide] in K. split; intros Ha.
    + replace (a =? 0) with true in K by lia. exact K.
    + replace (a =? 0) with false in K by lia. destruct K as (a' & [= <-] & _ & _ & K). exact K.
Qed.
Print Assumptions c88_signatures_on_chain.

Definition nobody (h v r s : Z) : option Z := None.
(** "A signature from which no signer follows is reported as ECDSAInvalidSignature (or, with a
    high s, as ECDSAInvalidSignatureS)" is false: the precompile answers it with no bytes at
    all, and the code slices 20 out of them. *)
Theorem c88_invalid_signature_reported_refuted :
  exists recover hash v r s, (forall h v r s a, recover h v r s = Some a -> is_address a) /\ signature_fits hash v r s /\
  invalid recover hash v r s /\
  ~ (forall c, exists d, entry (ExampleEcdsa (evm_ecrecover recover)) c 0 (recover_data hash v r s) tt = (Reverted d, tt) /\
       (decode_reason d = Some ECDSAInvalidSignature \/ exists x, decode_reason d = Some (ECDSAInvalidSignatureS x))).
Proof.
  exists nobody, 5, 27, 1, 1. assert (Hf : signature_fits 5 27 1 1) by (repeat split; discriminate).
  assert (Hn : forall h v r s a : Z, nobody h v r s = Some a -> is_address a) by discriminate.
  assert (Hi : invalid nobody 5 27 1 1) by (right; right; right; reflexivity).
  assert (Hs : 2 * 1 <= curve_order) by discriminate.
  split; [exact Hn|]. split; [exact Hf|]. split; [exact Hi|]. intros K. specialize (K 0).
  pose proof (c88_signatures_on_chain nobody 5 27 1 1 0 Hn Hf) as F. cbv zeta in F. destruct F as (_ & _ & F & _).
  specialize (F Hs ltac:(discriminate) ltac:(discriminate) Hi). revert F K.
  generalize (entry (ExampleEcdsa (evm_ecrecover nobody)) 0 0 (recover_data 5 27 1 1) tt). intros x -> (d & E & Hd).
  injection E as <-. destruct Hd as [Hd|[x Hd]]; discriminate.
Qed.
Print Assumptions c88_invalid_signature_reported_refuted.

(** The same for permits: a permit in time with a low s and a v other than 0 and 1 whose
    signature is invalid fails without a reason; with a valid one of somebody else it names the
    signer found and the owner. *)
Theorem c88_permits_on_chain :
  forall keccak recover chain this h b now c o sp va d v r s,
  (forall x, is_u256 (keccak x)) -> (forall h v r s a, recover h v r s = Some a -> is_address a) -> sane_calls h ->
  let call now := entry (ExamplePermit keccak (evm_ecrecover recover) chain this now) in
  let st := permit_raw_run keccak (evm_ecrecover recover) chain this h Permit.init in
  let q := SignedPermit o sp va d v r s in
  let digest := to_sign keccak (example_domain chain this) b o sp va d in
  pbook_fits b -> shows call st b -> is_address c -> request_fits q ->
  now <= d -> p_nonce b o < U256_MAX -> 2 * s <= curve_order -> v <> 0 -> v <> 1 ->
  (invalid recover digest v r s -> call now c 0 (request_data q) st = (Reverted [], st)) /\
  (~ invalid recover digest v r s -> exists a, recover digest v r s = Some a /\
     (a <> 0 -> a <> o -> exists e, call now c 0 (request_data q) st = (Reverted e, st) /\ decode_reason e = Some (ERC2612InvalidSigner a o)) /\
     (a <> 0 -> a = o -> sp <> 0 -> exists st', call now c 0 (request_data q) st = (Returned [], st') /\
        says call st' "allowance(address,address)" [Word o; Word sp] va /\ says call st' "nonces(address)" [Word o] (p_nonce b o + 1))).
Proof.
  intros keccak recover chain this h b now c o sp va d v r s Hk Hrec Hh call st q digest Fb Sb Hc Hq Ht Hn Hs V0 V1.
  destruct (c88_permit_token_is_ideal keccak (evm_ecrecover recover) chain this h (evm_bytes recover) Hh) as (_ & Fo & _).
  specialize (Fo b now c q Fb Sb Hc Hq). fold call st in Fo. unfold q in Fo. cbn [ideal] in Fo.
  unfold permit_checks, may_recover in Fo. fold digest in Fo. cbn [app decide] in Fo.
  replace (d <? now) with false in Fo by lia. replace (p_nonce b o =? U256_MAX) with false in Fo by lia.
  replace (curve_order <? 2 * s) with false in Fo by lia. replace ((v =? 0) || (v =? 1)) with false in Fo by lia.
  assert (Hf : signature_fits digest v r s).
  { unfold q in Hq. cbn [request_fits] in Hq. split; [apply Hk|]. tauto. }
  split.
  - intros Hi. apply (invalid_answered recover Hrec _ _ _ _ Hf) in Hi. rewrite Hi in Fo. exact Fo.
  - intros Hi. rewrite (invalid_answered recover Hrec _ _ _ _ Hf) in Hi.
    rewrite (evm_answered recover Hrec _ _ _ _ Hf) in Fo, Hi. destruct (valid v r s); [|contradiction].
    destruct (recover digest v r s) as [a|]; [|contradiction]. exists a. split; [reflexivity|]. cbn [app decide] in Fo. split.
    + intros A0 Ao. replace (a =? 0) with false in Fo by lia. replace (a =? o) with false in Fo by lia. exact Fo.
    + intros A0 Ao S0. replace (a =? 0) with false in Fo by lia. replace (a =? o) with true in Fo by lia. replace (sp =? 0) with false in Fo by lia.
      cbn [negb decide] in Fo. destruct Fo as (st' & E & (_ & _ & S3 & S4) & _). exists st'. split; [exact E|].
      unfold q in Hq. cbn [request_fits] in Hq. destruct Hq as (Q1 & Q2 & _).
      specialize (S3 o sp Q1 Q2). specialize (S4 o Q1). cbn [p_ledger with_allowance l_allowance p_nonce] in S3, S4.
      replace ((o =? o) && (sp =? sp)) with true in S3 by (rewrite !Z.eqb_refl; reflexivity).
      replace (at_key (p_nonce b) o (p_nonce b o + 1) o) with (p_nonce b o + 1) in S4 by (unfold at_key; rewrite Z.eqb_refl; reflexivity).
      split; [exact S3|exact S4].
Qed.
Print Assumptions c88_permits_on_chain.

(** Non-vacuity: account 10 is given 100 tokens; account 30 presents 10's permit of 60 for
    account 20; 20 draws 50. The same permit again is refused for the changed nonce, a late one
    for being late. In this toy world account 10 signs a digest by repeating it as r. *)
Definition toy_keccak (d : list Z) : Z := fold_right Z.add 0 d mod two256.
Definition signed_by_10 (d : list Z) : option (list Z) :=
  Some (word (if list_eq_dec BinInt.Z.eq_dec (firstn 32 d) (firstn 32 (skipn 64 d)) then 10 else 11)).
Definition toy_permit : request := SignedPermit 10 20 60 5 27 (to_sign toy_keccak (example_domain 1 2) new_pbook 10 20 60 5) 1.
Definition permit_story : list (Z * Z * request) := [(1, 30, Order (Issue 10 100)); (2, 30, toy_permit); (3, 20, Order (Draw 10 30 50))].
Definition permit_sends (l : list (Z * Z * request)) : list (Z * (Z * Z * list Z)) :=
  map (fun x => (fst (fst x), (snd (fst x), 0, request_data (snd x)))) l.
Lemma request_bytes r : List.Forall is_byte (request_data r) /\ size (request_data r) < two256.
Proof.
  assert (K : forall sig ws, size ws < 10 -> List.Forall is_byte (calldata sig (map Word ws)) /\ size (calldata sig (map Word ws)) < two256).
  { intros sig ws H. unfold calldata. split; [apply List.Forall_app; split; [apply be_bytes_byte|apply abi_words_bytes]|].
    rewrite size_app, abi_words_size. unfold size at 1. rewrite be_bytes_length. transitivity 400; [lia|reflexivity]. }
  destruct r as [[to v|sp v|f t v|a v]|o sp va d v r s]; unfold request_data.
  - apply (K _ [to; v]). reflexivity.
  - apply (K _ [sp; v]). reflexivity.
  - apply (K _ [f; t; v]). reflexivity.
  - apply (K _ [a; v]). reflexivity.
  - apply (K _ [o; sp; va; d; v; r; s]). reflexivity.
Qed.
Lemma permit_sends_sane l : sane_calls (permit_sends l).
Proof. apply List.Forall_forall. intros x Hx. apply in_map_iff in Hx. destruct Hx as (y & <- & _). cbn [snd]. apply request_bytes. Qed.
Fixpoint permit_play keccak ec dom (l : list (Z * Z * request)) (b : pbook) : option pbook :=
  match l with
  | [] => Some b
  | (now, c, r) :: t => match ideal keccak ec dom now c r b with Yes b' => permit_play keccak ec dom t b' | No _ => None end
  end.
Lemma permit_play_ok keccak ec chain this (Hb : answers_bytes ec) l : List.Forall (fun x => is_address (snd (fst x)) /\ request_fits (snd x)) l ->
  forall h b b', sane_calls h -> pbook_fits b ->
  let call now := entry (ExamplePermit keccak ec chain this now) in
  shows call (permit_raw_run keccak ec chain this h Permit.init) b -> permit_play keccak ec (example_domain chain this) l b = Some b' ->
  pbook_fits b' /\ shows call (permit_raw_run keccak ec chain this (h ++ permit_sends l) Permit.init) b'.
Proof.
  induction 1 as [|[[now c] r] l [Hc Hr] _ IH]; intros h b b' Hh Fb call Sb E; cbn [permit_play] in E.
  - injection E as <-. change (permit_sends []) with (@nil (Z * (Z * Z * list Z))). rewrite app_nil_r. auto.
  - cbn [fst snd] in Hc, Hr. destruct (c88_permit_token_is_ideal keccak ec chain this h Hb Hh) as (_ & F & _).
    specialize (F b now c r Fb Sb Hc Hr). destruct (ideal _ _ _ _ _ _ _) as [b1|]; [|discriminate].
    destruct F as (s' & E1 & S1 & F1).
    assert (Er : permit_raw_run keccak ec chain this (h ++ [(now, (c, 0, request_data r))]) Permit.init = s').
    { unfold permit_raw_run. rewrite fold_left_app. cbn [fold_left]. unfold permit_raw_step at 1, raw_step. cbn [fst snd].
      change (fold_left (permit_raw_step keccak ec chain this) h Permit.init) with (permit_raw_run keccak ec chain this h Permit.init). rewrite E1. reflexivity. }
    change (permit_sends ((now, c, r) :: l)) with ([(now, (c, 0, request_data r))] ++ permit_sends l). rewrite app_assoc. apply (IH _ b1).
    + apply List.Forall_app. split; [exact Hh|]. apply List.Forall_cons; [apply request_bytes|apply List.Forall_nil].
    + exact F1.
    + rewrite Er. exact S1.
    + exact E.
Qed.
Lemma signed_by_10_bytes : answers_bytes signed_by_10.
Proof. intros d out [= <-]. apply be_bytes_byte. Qed.
Lemma permit_story_plays :
  option_map (fun b => (l_supply (p_ledger b), l_balance (p_ledger b) 10, l_balance (p_ledger b) 30, l_allowance (p_ledger b) 10 20, p_nonce b 10,
     match ideal toy_keccak signed_by_10 (example_domain 1 2) 4 30 toy_permit b with No x => Some x | Yes _ => None end,
     match ideal toy_keccak signed_by_10 (example_domain 1 2) 6 30 toy_permit b with No x => Some x | Yes _ => None end))
    (permit_play toy_keccak signed_by_10 (example_domain 1 2) permit_story new_pbook) =
  Some (100, 50, 50, 10, 1, Some (Some (ERC2612InvalidSigner 11 10)), Some (Some (ERC2612ExpiredSignature 5))).
Proof. vm_compute. reflexivity. Qed.
Lemma permit_story_fits : List.Forall (fun x => is_address (snd (fst x)) /\ request_fits (snd x)) permit_story.
Proof.
  repeat (apply List.Forall_cons; [split; [split; [discriminate|reflexivity]|]|]); [..|apply List.Forall_nil]; cbn [snd].
  - split; split; [discriminate|reflexivity|discriminate|reflexivity].
  - assert (R : is_u256 (to_sign toy_keccak (example_domain 1 2) new_pbook 10 20 60 5)) by (split; vm_compute; [discriminate|reflexivity]).
    unfold toy_permit, request_fits. do 5 (split; [split; [discriminate|reflexivity]|]). split; [exact R|split; [discriminate|reflexivity]].
  - repeat (split; [split; [discriminate|reflexivity]|]). split; [discriminate|reflexivity].
Qed.
Lemma option_map_some {A B} (f : A -> B) o v : option_map f o = Some v -> exists b, o = Some b /\ f b = v.
Proof. destruct o as [b|]; [|discriminate]. intros [= E]. exists b. auto. Qed.
Example c88_nonvacuous :
  let call now := entry (ExamplePermit toy_keccak signed_by_10 1 2 now) in
  let s := permit_raw_run toy_keccak signed_by_10 1 2 (permit_sends permit_story) Permit.init in
  answers_bytes signed_by_10 /\ sane_calls (permit_sends permit_story) /\
  says call s "totalSupply()" [] 100 /\ says call s "balanceOf(address)" [Word 10] 50 /\ says call s "balanceOf(address)" [Word 30] 50 /\
  says call s "allowance(address,address)" [Word 10; Word 20] 10 /\ says call s "nonces(address)" [Word 10] 1 /\
  (exists d, call 4 30 0 (request_data toy_permit) s = (Reverted d, s) /\ decode_reason d = Some (ERC2612InvalidSigner 11 10)) /\
  (exists d, call 6 30 0 (request_data toy_permit) s = (Reverted d, s) /\ decode_reason d = Some (ERC2612ExpiredSignature 5)).
Proof.
  intros call s. split; [exact signed_by_10_bytes|]. split; [apply permit_sends_sane|].
  destruct (option_map_some _ _ _ permit_story_plays) as (b & E & P). cbv beta in P.
  apply pair_equal_spec in P. destruct P as [P P7]. apply pair_equal_spec in P. destruct P as [P P6]. apply pair_equal_spec in P. destruct P as [P P5].
  apply pair_equal_spec in P. destruct P as [P P4]. apply pair_equal_spec in P. destruct P as [P P3]. apply pair_equal_spec in P. destruct P as [P1 P2].
  assert (S0 := proj2 (proj2 (c88_permit_token_is_ideal toy_keccak signed_by_10 1 2 [] signed_by_10_bytes (List.Forall_nil _)))).
  assert (F0 : pbook_fits new_pbook) by (split; [apply keeps_init|split; [cbn; lia|reflexivity]]).
  destruct (permit_play_ok toy_keccak signed_by_10 1 2 signed_by_10_bytes permit_story permit_story_fits [] new_pbook b (List.Forall_nil _) F0 S0 E) as [Fb Sb].
  change ([] ++ permit_sends permit_story) with (permit_sends permit_story) in Sb.
  destruct (c88_permit_token_is_ideal toy_keccak signed_by_10 1 2 (permit_sends permit_story) signed_by_10_bytes (permit_sends_sane _)) as (_ & F & _).
  assert (A10 : is_address 10) by (split; [discriminate|reflexivity]). assert (A20 : is_address 20) by (split; [discriminate|reflexivity]).
  assert (A30 : is_address 30) by (split; [discriminate|reflexivity]).
  assert (Hq : request_fits toy_permit).
  { pose proof permit_story_fits as Q. unfold permit_story in Q. inversion_clear Q as [|? ? _ Q']. inversion_clear Q' as [|? ? [_ Q] _]. exact Q. }
  pose proof (F b 4 30 toy_permit Fb Sb A30 Hq) as F4. pose proof (F b 6 30 toy_permit Fb Sb A30 Hq) as F6.
  destruct (ideal toy_keccak signed_by_10 (example_domain 1 2) 4 30 toy_permit b) as [|x4]; [discriminate|]. injection P6 as ->.
  destruct (ideal toy_keccak signed_by_10 (example_domain 1 2) 6 30 toy_permit b) as [|x6]; [discriminate|]. injection P7 as ->.
  destruct Sb as (T1 & T2 & T3 & T4). rewrite P1 in T1. specialize (T3 10 20 A10 A20). rewrite P4 in T3. specialize (T4 10 A10). rewrite P5 in T4.
  pose proof (T2 10 A10) as T5. pose proof (T2 30 A30) as T6. rewrite P2 in T5. rewrite P3 in T6.
  exact (conj T1 (conj T5 (conj T6 (conj T3 (conj T4 (conj F4 F6)))))).
Qed.
