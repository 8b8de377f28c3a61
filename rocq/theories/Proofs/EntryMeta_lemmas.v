From Verif.Base Require Import Prelude Bytes Keccak Maps.
From stdpp Require Import gmap.
From Coq Require Import String List.
From Verif.Model Require Import Introspection Router Entry EntryErc721 EntryMeta.
From Verif.Model Require SolAbi Erc721 Erc721Example Erc721Uri.
From Verif.Spec Require Import Router_spec SolAbi_spec LogMeaning_spec Utf8_spec.
From Verif.Spec Require Uri_spec Entry_spec EntryNft_spec EntryMeta_spec.
From Verif.Proofs Require Import Router_lemmas Entry_lemmas.
From Verif.Proofs Require Erc721_lemmas EntryNft_lemmas Utf8_lemmas.
From Verif.Props Require Uri_props.
Import SolAbi.
Import Entry_spec (calldata, is_address, has_type, word_of_type, at_key).
Import EntryNft_spec EntryMeta_spec.
Import EntryNft_lemmas (addr0, addr_u256, owner_in_without, owner_in_0, holding_without, holding_range, given_fits, destroyed_fits, tokens_nonzero,
  without_length, judge_app, judge_any, transfer_from_eq, burn_eq, mint_eq, asking_code, new_fits).
Import Erc721_lemmas (upd_state, appr_state, all_state, owner_upd, approved_upd, balances_upd, balances_upd_range).
#[global] Open Scope Z_scope.
Local Open Scope list_scope.
Local Open Scope Z_scope.
Opaque keccak256.

(** ** The plain contract and the plain register *)
Notation own e id := (Erc721._owner_of id e).
Notation appr e id := (Erc721._get_approved id e).
Notation oper e o p := (Erc721.is_approved_for_all o p e).
Record holds (n : Z) (e : Erc721.state) (b : register) : Prop := mkHolds {
  h_ids : forall id, own e id <> 0 -> is_u256 id /\ is_address (own e id);
  h_bal : forall a, is_u256 (mget (Erc721.balances e) a);
  h_appr0 : forall id, own e id = 0 -> appr e id = 0;
  h_appr_addr : forall id, is_address (appr e id);
  h_op0 : forall p, oper e 0 p = false;
  h_own : forall id, owner_in (r_tokens b) id = own e id;
  h_hold : forall a, is_address a -> a <> 0 -> holding (r_tokens b) a = mget (Erc721.balances e) a;
  h_appr : forall id, own e id <> 0 -> r_approved b id = appr e id;
  h_oper : forall o p, is_address o -> is_address p -> r_operator b o p = oper e o p;
  h_fits : register_fits b;
  h_paused : r_paused b = false;
  h_len : Z.of_nat (length (r_tokens b)) <= n
}.
Lemma holds_init : holds 0 Erc721.init new_register.
Proof.
  split; unfold Erc721._owner_of, Erc721._get_approved, Erc721.is_approved_for_all; cbn;
    intros; rewrite ?mget_empty, ?getd_empty in *; try reflexivity; try lia.
  - split; [lia|reflexivity].
  - exact addr0.
  - exact new_fits.
Qed.
Lemma holds_weaken n m e b : holds n e b -> n <= m -> holds m e b.
Proof. intros [] H. split; auto. lia. Qed.
(** A token changes hands or is destroyed. *)
Lemma upd_holds n e b t id : holds n e b -> n + 1 < two256 -> is_u256 id -> is_address t ->
  holds (n + 1) (upd_state t id e) (if t =? 0 then destroyed b id else given b id t).
Proof.
  intros H Hn Hid Ht. assert (F := h_fits _ _ _ H). assert (Ln := h_len _ _ _ H).
  assert (F' : register_fits (if t =? 0 then destroyed b id else given b id t)).
  { destruct (t =? 0) eqn:E; [apply destroyed_fits, F|apply given_fits; auto; lia]. }
  pose proof (without_length (r_tokens b) id (proj1 F) (tokens_nonzero b F)) as Lw.
  assert (L' : Z.of_nat (length (r_tokens (if t =? 0 then destroyed b id else given b id t))) <= n + 1).
  { destruct (t =? 0); cbn [destroyed given r_tokens length]; [|rewrite Nat2Z.inj_succ]; rewrite Lw; destruct (_ =? 0); lia. }
  split; [..|exact F'| |exact L'].
  - intros j. rewrite owner_upd. destruct (decide (id = j)) as [<-|N]; [auto|apply (h_ids _ _ _ H)].
  - intros a. apply balances_upd_range, (h_bal _ _ _ H).
  - intros j. rewrite owner_upd, approved_upd by apply (h_appr0 _ _ _ H). destruct (decide (id = j)); [reflexivity|apply (h_appr0 _ _ _ H)].
  - intros j. rewrite approved_upd by apply (h_appr0 _ _ _ H). destruct (decide (id = j)); [exact addr0|apply (h_appr_addr _ _ _ H)].
  - apply (h_op0 _ _ _ H).
  - intros j. rewrite owner_upd, <- (h_own _ _ _ H j).
    destruct (t =? 0) eqn:E; cbn [destroyed given r_tokens owner_in]; rewrite owner_in_without.
    + destruct (decide (id = j)) as [->|N]; [rewrite Z.eqb_refl; lia|]. replace (j =? id) with false by lia. reflexivity.
    + destruct (decide (id = j)) as [->|N]; [rewrite Z.eqb_refl; reflexivity|]. replace (id =? j) with false by lia.
      replace (j =? id) with false by lia. reflexivity.
  - intros a Ha Ha0. pose proof (balances_upd_range t id e a (h_bal _ _ _ H a)) as R.
    rewrite <- (Z.mod_small _ _ R), balances_upd by exact Ha0.
    rewrite <- (h_hold _ _ _ H a Ha Ha0), <- (h_own _ _ _ H id).
    pose proof (holding_without (r_tokens b) id a (proj1 F) Ha0) as Hw.
    set (L1 := r_tokens (if t =? 0 then destroyed b id else given b id t)) in *.
    assert (E : holding L1 a = holding (r_tokens b) a - (if owner_in (r_tokens b) id =? a then 1 else 0) + (if t =? a then 1 else 0)).
    { unfold L1. destruct (t =? 0) eqn:E; cbn [destroyed given r_tokens holding]; rewrite Hw; [|lia]. replace (t =? a) with false by lia. lia. }
    rewrite <- E. symmetry. apply Z.mod_small. pose proof (holding_range L1 a). lia.
  - intros j Hj. rewrite owner_upd in Hj. rewrite approved_upd by apply (h_appr0 _ _ _ H).
    destruct (t =? 0) eqn:E; cbn [destroyed given r_approved]; unfold at_key;
      (destruct (decide (id = j)) as [->|N]; [rewrite Z.eqb_refl; reflexivity|]); replace (j =? id) with false by lia;
      apply (h_appr _ _ _ H j); exact Hj.
  - intros o q Ho Hq. replace (r_operator (if t =? 0 then destroyed b id else given b id t) o q) with (r_operator b o q)
      by (destruct (t =? 0); reflexivity). apply (h_oper _ _ _ H o q Ho Hq).
  - rewrite <- (h_paused _ _ _ H). destruct (t =? 0); reflexivity.
Qed.
Lemma authorized_eq n e b c id : holds n e b -> is_address c -> c <> 0 -> own e id <> 0 ->
  Erc721._is_authorized (own e id) c id e = ((c =? own e id) || r_operator b (own e id) c || (c =? r_approved b id)).
Proof.
  intros H Hc Hc0 Ho. destruct (h_ids _ _ _ H id Ho) as [_ Ha]. unfold Erc721._is_authorized. replace (c =? 0) with false by lia. cbn [negb andb].
  rewrite (h_oper _ _ _ H _ _ Ha Hc), (h_appr _ _ _ H id Ho), (Z.eqb_sym c (own e id)), (Z.eqb_sym c (appr e id)). reflexivity.
Qed.
(** Nobody is entitled to a token that is not there. *)
Lemma authorized_nobody n e b c id : holds n e b -> c <> 0 -> own e id = 0 -> Erc721._is_authorized (own e id) c id e = false.
Proof.
  intros H Hc Ho. unfold Erc721._is_authorized. rewrite (h_appr0 _ _ _ H id Ho), Ho, (h_op0 _ _ _ H c).
  replace (0 =? c) with false by lia. destruct (negb (c =? 0)); reflexivity.
Qed.

(** ** The verdict on a request is what the code does *)
Definition says (er : Erc721.error) (why : refusal) : Prop :=
  match why with
  | Because r => reason_fits r /\ reason_erc721 er = Some r
  | Quoting d => revert_erc721 er = d
  end.
Definition meets (n : Z) (v : verdict) (x : res Erc721.error unit * Erc721.state) : Prop :=
  match v with
  | Granted b => exists e, x = (Ok tt, e) /\ holds n e b
  | Denied why => exists er, fst x = Err er /\ says er why
  end.
Definition exec_of (w : world) (c : Z) (r : request) : M Erc721.state Erc721.error unit :=
  match r with
  | Burn i => Erc721.burn c i
  | Mint t i => Erc721._mint t i
  | TransferFrom f t i => Erc721.transfer_from c f t i
  | SafeTransferFrom f t i => Erc721.safe_transfer_from (deployed w) (Erc721Example.answers (hook w c f t i [])) c f t i
  | SafeTransferFromData f t i d => Erc721.safe_transfer_from_with_data (deployed w) (Erc721Example.answers (hook w c f t i d)) c f t i d
  | Approve t i => Erc721.approve c t i
  | SetApprovalForAll p v => Erc721.set_approval_for_all c p v
  | _ => panic
  end.
Ltac fit := unfold reason_fits; cbn [numbers]; repeat (apply List.Forall_cons; [solve [auto using addr_u256, addr0]|]); apply List.Forall_nil.
Ltac deny e := exists e; split; [reflexivity|]; split; [fit|reflexivity].
Lemma bind_ret_tt {S E} (m : M S E unit) s : (m ;;; ret tt) s = m s.
Proof. mred. destruct (m s) as [[[]|e|] s']; reflexivity. Qed.
Lemma move_ok n w e b c f t id (ask : bool) d : holds n e b -> n + 1 < two256 -> caller_ok c ->
  is_address f -> is_address t -> is_u256 id ->
  meets (n + 1) (judge (moving b c f t id ++ (if ask then asking w c f t id d else [])) (given b id t))
    ((Erc721.transfer_from c f t id ;;;
      (if ask then Erc721._check_on_erc721_received (deployed w) (Erc721Example.answers (hook w c f t id d)) c f t id d else ret tt)) e).
Proof.
  intros H Hn [Hc Hc0] Hf Ht Hid. unfold moving, existing, entitled. rewrite (h_own _ _ _ H id). cbn [app judge].
  unfold bind at 1. rewrite (transfer_from_eq c f t id _ Hc0).
  destruct (t =? 0) eqn:Et; [deny (Erc721.InvalidReceiver 0)|]. cbn zeta.
  destruct (own e id =? 0) eqn:Eo.
  { assert (Ho : own e id = 0) by lia. rewrite (authorized_nobody n e b c id H Hc0 Ho). deny (Erc721.NonexistentToken id). }
  assert (Ho : own e id <> 0) by lia. destruct (h_ids _ _ _ H id Ho) as [_ Hoa].
  rewrite (authorized_eq n e b c id H Hc Hc0 Ho).
  destruct ((c =? own e id) || r_operator b (own e id) c || (c =? r_approved b id)); cbn [negb];
    [|deny (Erc721.InsufficientApproval c id)].
  destruct (own e id =? f) eqn:Ef; cbn [negb]; [|deny (Erc721.IncorrectOwner f id (own e id))].
  assert (Fin : holds (n + 1) (upd_state t id e) (given b id t)).
  { pose proof (upd_holds n e b t id H Hn Hid Ht) as K. rewrite Et in K. exact K. }
  destruct ask; [|exists (upd_state t id e); split; [reflexivity|exact Fin]]. rewrite asking_code.
  pose proof (judge_any (asking w c f t id d) new_register (given b id t)) as J.
  destruct (judge (asking w c f t id d) new_register) as [b'|[why|out]] eqn:Ej; rewrite J.
  - exists (upd_state t id e). split; [reflexivity|exact Fin].
  - exists (Erc721.InvalidReceiver t). split; [reflexivity|].
    assert (why = ERC721InvalidReceiver t) as ->.
    { revert Ej. unfold asking. destruct (deployed w t); [|discriminate]. destruct (replies w t _) as [o|[|y o]]; cbn [judge]; try congruence.
      destruct (list_eq_dec _ _ _); cbn [judge]; congruence. }
    split; [fit|reflexivity].
  - exists (Erc721.InvalidReceiverWithReason out). split; reflexivity.
Qed.
Lemma step_ok n w e b c r : holds n e b -> n + 1 < two256 -> caller_ok c -> request_fits r -> available r ->
  meets (n + 1) (plain w c r b) (exec_of w c r e).
Proof.
  intros H Hn Hcc Hr Av. pose proof Hcc as [Hc Hc0].
  destruct r as [id|t id|t id d|f t id|f t id|f t id d|t id|q v| |]; try contradiction Av; cbn [plain EntryNft_spec.ideal exec_of request_fits] in *.
  - unfold existing, entitled. rewrite (h_own _ _ _ H id). cbn [app judge]. rewrite (burn_eq c id _ Hc0). cbn zeta.
    destruct (own e id =? 0) eqn:Eo.
    { assert (Ho : own e id = 0) by lia. rewrite (authorized_nobody n e b c id H Hc0 Ho). deny (Erc721.NonexistentToken id). }
    assert (Ho : own e id <> 0) by lia. rewrite (authorized_eq n e b c id H Hc Hc0 Ho).
    destruct ((c =? own e id) || r_operator b (own e id) c || (c =? r_approved b id)); cbn [negb];
      [|deny (Erc721.InsufficientApproval c id)].
    exists (upd_state 0 id e). split; [reflexivity|]. exact (upd_holds n e b 0 id H Hn Hr addr0).
  - destruct Hr as [Ht Hid]. unfold minting. rewrite (h_own _ _ _ H id). cbn [app judge]. rewrite mint_eq.
    destruct (t =? 0) eqn:Et; [deny (Erc721.InvalidReceiver 0)|].
    destruct (own e id =? 0) eqn:Eo; cbn [negb]; [|deny (Erc721.InvalidSender 0)].
    exists (upd_state t id e). split; [reflexivity|]. pose proof (upd_holds n e b t id H Hn Hid Ht) as K. rewrite Et in K. exact K.
  - destruct Hr as (Hf & Ht & Hid). pose proof (move_ok n w e b c f t id false [] H Hn Hcc Hf Ht Hid) as K. rewrite app_nil_r in K.
    rewrite bind_ret_tt in K. exact K.
  - destruct Hr as (Hf & Ht & Hid). exact (move_ok n w e b c f t id true [] H Hn Hcc Hf Ht Hid).
  - destruct Hr as (Hf & Ht & Hid & _). exact (move_ok n w e b c f t id true d H Hn Hcc Hf Ht Hid).
  - destruct Hr as [Ht Hid]. unfold existing. rewrite (h_own _ _ _ H id). cbn [app judge].
    unfold Erc721.approve, Erc721._approve, Erc721._require_owned, Erc721.emit. mred. cbn [orb].
    destruct (own e id =? 0) eqn:Eo; [deny (Erc721.NonexistentToken id)|].
    assert (Ho : own e id <> 0) by lia. destruct (h_ids _ _ _ H id Ho) as [_ Hoa].
    replace (c =? 0) with false by lia. cbn [negb andb]. rewrite (h_oper _ _ _ H _ _ Hoa Hc).
    destruct ((own e id =? c) || oper e (own e id) c) eqn:Ea.
    + replace (negb (own e id =? c) && negb (oper e (own e id) c)) with false
        by (symmetry; destruct (own e id =? c), (oper e (own e id) c); try reflexivity; discriminate). cbn [negb].
      exists (appr_state t id e). split; [reflexivity|].
      assert (Ap : forall j, appr (appr_state t id e) j = if decide (id = j) then t else appr e j).
      { intros j. unfold Erc721._get_approved, appr_state. cbn. apply mget_set. }
      apply (holds_weaken n); [|lia]. destruct H. split; auto.
      * intros j. rewrite Ap. intros Hj. destruct (decide (id = j)) as [<-|]; [contradiction|]. apply h_appr1, Hj.
      * intros j. rewrite Ap. destruct (decide (id = j)); auto.
      * intros j Hj. rewrite Ap. cbn [approved_for r_approved]. unfold at_key.
        destruct (decide (id = j)) as [<-|N]; [rewrite Z.eqb_refl; reflexivity|]. replace (j =? id) with false by lia. apply h_appr2, Hj.
      * destruct h_fits0 as (F1 & F2 & F3 & F4). split; [exact F1|]. split; [exact F2|]. split; [exact F3|]. intros j. cbn [approved_for r_approved]. unfold at_key.
        destruct (j =? id); [apply addr_u256, Ht|apply F4].
    + replace (negb (own e id =? c) && negb (oper e (own e id) c)) with true
        by (symmetry; destruct (own e id =? c), (oper e (own e id) c); try reflexivity; discriminate). cbn [negb].
      deny (Erc721.InvalidApprover c).
  - cbn [judge]. unfold Erc721.set_approval_for_all, Erc721._set_approval_for_all, Erc721.emit. mred.
    destruct (q =? 0) eqn:Eq; [replace q with 0 by lia; deny (Erc721.InvalidOperator 0)|].
    exists (all_state c q v e). split; [reflexivity|].
    assert (Op : forall o p, oper (all_state c q v e) o p = if (o =? c) && (p =? q) then v else oper e o p).
    { intros o p. unfold Erc721.is_approved_for_all, all_state. cbn. rewrite getd_set.
      destruct (decide ((c, q) = (o, p))) as [E|E].
      - inversion E; subst. rewrite !Z.eqb_refl. reflexivity.
      - replace ((o =? c) && (p =? q)) with false; [reflexivity|]. symmetry. apply andb_false_iff.
        destruct (Z.eqb_spec o c); [|auto]. right. apply Z.eqb_neq. congruence. }
    apply (holds_weaken n); [|lia]. destruct H. split; auto.
    + intros p. rewrite Op. replace (0 =? c) with false by lia. apply h_op1.
    + intros o p Ho Hp. rewrite Op. cbn [operated_by r_operator]. rewrite (h_oper0 o p Ho Hp). reflexivity.
Qed.

(** ** With texts *)
Record fine (lb : labels) (n : Z) (s : Erc721Uri.state) (b : mbook) : Prop := mkFine {
  f_tokens : holds n (Erc721Uri.erc721 s) (m_tokens b);
  f_base : Erc721Uri.base_uri s = l_base lb;
  f_uri : forall id, m_uri b id = getd [] (Erc721Uri.token_uris s) id;
  f_text : forall id, text (m_uri b id)
}.
Definition fine_fits lb n s b (F : fine lb n s b) : mbook_fits b :=
  conj (h_fits _ _ _ (f_tokens _ _ _ _ F)) (conj (h_paused _ _ _ (f_tokens _ _ _ _ F)) (f_text _ _ _ _ F)).
Lemma fine_init lb : fine lb 0 (Erc721Uri.init (l_base lb)) new_book.
Proof. split; [exact holds_init|reflexivity|intros id; cbn; rewrite getd_empty; reflexivity|intros id; apply Utf8_lemmas.text_nil]. Qed.
Lemma fine_weaken lb n m s b : fine lb n s b -> n <= m -> fine lb m s b.
Proof. intros [] H. split; auto. eapply holds_weaken; eauto. Qed.
Definition mexec_of (w : world) (c : Z) (r : mrequest) : M Erc721Uri.state Erc721.error unit :=
  match r with
  | Token r => Erc721Uri.on_erc721 (exec_of w c r)
  | SetTokenURI i u => Erc721Uri._set_token_uri i u
  end.
Definition mmeets lb n (v : mverdict) (x : res Erc721.error unit * Erc721Uri.state) : Prop :=
  match v with
  | Yes b => exists s, x = (Ok tt, s) /\ fine lb n s b
  | No why => exists er, fst x = Err er /\ says er why
  end.
Lemma mstep_ok lb n w s b c r : fine lb n s b -> n + 1 < two256 -> caller_ok c -> asks r ->
  mmeets lb (n + 1) (ideal w c r b) (mexec_of w c r s).
Proof.
  intros [H B U T] Hn Hc Hr. destruct r as [r|i u]; cbn [asks ideal mexec_of] in *.
  - destruct Hr as [Hr Av]. pose proof (step_ok n w _ _ c r H Hn Hc Hr Av) as O. unfold Erc721Uri.on_erc721, zoom.
    destruct (plain w c r (m_tokens b)) as [b'|why]; cbn [meets mmeets] in *.
    + destruct O as (e & -> & H'). eexists. split; [reflexivity|]. split; [exact H'|exact B|exact U|exact T].
    + destruct O as (er & X & Y). exists er. destruct (exec_of w c r (Erc721Uri.erc721 s)) as [x e]. cbn [fst] in *. auto.
  - destruct Hr as (Hi & Ht & _). eexists. split; [reflexivity|]. split; [apply (holds_weaken n); [exact H|lia]|exact B|..]; cbn [m_uri].
    + intros j. cbn [Erc721Uri.token_uris]. rewrite getd_set. destruct (decide (i = j)) as [<-|N]; [rewrite Z.eqb_refl; reflexivity|].
      replace (j =? i) with false by lia. apply U.
    + intros j. destruct (j =? i); auto.
Qed.
(** What a token links to. *)
Lemma decimal_text d n : Uri_spec.is_decimal d n -> text d.
Proof.
  intros (_ & H & _). exists d. split.
  - rewrite List.Forall_forall. rewrite stdpp.list.Forall_forall in H. intros x Hx. apply elem_of_list_In in Hx. specialize (H x Hx).
    unfold Uri_spec.is_digit in H. unfold scalar. lia.
  - induction d as [|x d IH]; [reflexivity|]. inversion H as [|? ? Hx Hd]; subst. cbn [flat_map].
    replace (utf8 x) with [x]; [cbn [app]; f_equal; apply IH, Hd|]. unfold utf8, Uri_spec.is_digit in *. change (2 ^ 7) with 128.
    replace (x <? 128) with true by lia. reflexivity.
Qed.
Lemma uri_ok lb n s b id : fine lb n s b -> text (l_base lb) -> is_u256 id ->
  if owner_in (r_tokens (m_tokens b)) id =? 0 then Erc721Uri.token_uri id s = (Err (Erc721.NonexistentToken id), s)
  else exists u, Erc721Uri.token_uri id s = (Ok u, s) /\ links (l_base lb) (m_uri b id) id u /\ text u.
Proof.
  intros [H B U T] Tb Hid. rewrite (h_own _ _ _ H id). destruct s as [e base uris ups].
  cbn [Erc721Uri.erc721 Erc721Uri.base_uri Erc721Uri.token_uris] in *. subst base.
  unfold Erc721Uri.token_uri, Erc721Uri.metadata_token_uri, Erc721Uri.on_erc721, Erc721.owner_of, Erc721._require_owned. mred.
  cbn [Erc721Uri.erc721 Erc721Uri.base_uri Erc721Uri.token_uris Erc721Uri.updates].
  destruct (own e id =? 0) eqn:E; [reflexivity|].
  cbn [Erc721Uri.erc721 Erc721Uri.base_uri Erc721Uri.token_uris Erc721Uri.updates]. rewrite <- (U id). unfold links. specialize (T id).
  destruct (decide (l_base lb = [])) as [E1|E1].
  - rewrite E1. exists (m_uri b id). split; [reflexivity|]. split; [reflexivity|exact T].
  - assert (Eb : exists x l, l_base lb = x :: l) by (destruct (l_base lb); [contradiction|eauto]). destruct Eb as (x & l & Eb).
    destruct (decide (m_uri b id = [])) as [E2|E2].
    + rewrite E2. cbn [Erc721Uri.erc721 Erc721Uri.base_uri Erc721Uri.token_uris Erc721Uri.updates]. rewrite E. cbn [Erc721Uri.erc721 Erc721Uri.base_uri Erc721Uri.token_uris Erc721Uri.updates].
      destruct (decide (l_base lb = [])) as [|_]; [contradiction|]. exists (l_base lb ++ Erc721Uri.to_string id). split; [reflexivity|]. pose proof (Uri_props.c43_decimal id Hid) as D.
      split; [|apply Utf8_lemmas.text_app; [exact Tb|eapply decimal_text, D]]. rewrite Eb. exists (Erc721Uri.to_string id). auto.
    + assert (Em : exists y m, m_uri b id = y :: m) by (destruct (m_uri b id); [contradiction|eauto]). destruct Em as (y & m & Em).
      exists (l_base lb ++ m_uri b id). split; [reflexivity|]. split; [rewrite Eb, Em; reflexivity|]. apply Utf8_lemmas.text_app; assumption.
Qed.
