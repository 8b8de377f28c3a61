From Verif.Base Require Import Prelude Bytes Keccak Maps.
From stdpp Require Import gmap.
From Coq Require Import String List.
From Verif.Model Require Import Introspection Router Entry EntryErc721 EntryConsecutive.
From Verif.Model Require SolAbi Erc721 Erc721Example Checkpoints BitMap Consecutive ConsecutiveExample.
From Verif.Spec Require Import Router_spec SolAbi_spec LogMeaning_spec.
From Verif.Spec Require Entry_spec EntryNft_spec EntryMeta_spec EntryConsecutive_spec Consecutive_spec ConsecutiveExample_spec.
From Verif.Proofs Require Import Router_lemmas Entry_lemmas.
From Verif.Proofs Require Erc721_lemmas EntryNft_lemmas EntryMeta_lemmas Consecutive_lemmas ConsecutiveExample_lemmas.
From Verif.Props Require ConsecutiveExample_props.
Import SolAbi.
Import Entry_spec (calldata, is_address, has_type, word_of_type, at_key).
Import EntryNft_spec EntryConsecutive_spec.
Import EntryMeta_spec (available, moving, minting).
Import EntryNft_lemmas (addr0, addr_u256, owner_in_without, owner_in_0, owner_in_In, given_fits, destroyed_fits, tokens_nonzero,
  without_length, judge_app, judge_any, asking_code).
Import Consecutive_lemmas (R, own_val, upd, r_own, r_ids, r_count, r_appr, r_op0, r_sorted, r_len_ok, owner_eq, update_eq, R_upd, R_exec).
Import Consecutive_spec (iown, inext, iset).
Import Consecutive (erc721).
#[global] Open Scope Z_scope.
Local Open Scope list_scope.
Local Open Scope Z_scope.
Opaque keccak256.

Notation appr e id := (Erc721._get_approved id e).
Notation oper e o p := (Erc721.is_approved_for_all o p e).

(** ** Counting *)
Definition those (L : list (Z * Z)) (a : Z) : list Z := map fst (base.filter (fun p : Z * Z => snd p = a) L).
Lemma holding_those L a : holding L a = Z.of_nat (length (those L a)).
Proof.
  induction L as [|[i o] L IH]; [reflexivity|]. unfold those in *. cbn [holding]. rewrite IH. rewrite filter_cons.
  destruct (o =? a) eqn:E.
  - rewrite decide_True by (cbn; lia). cbn [map length]. lia.
  - rewrite decide_False by (cbn; lia). lia.
Qed.
Lemma owner_in_iff L id a : List.NoDup (map fst L) -> a <> 0 -> owner_in L id = a <-> In (id, a) L.
Proof.
  intros Hn Ha. induction L as [|[i o] L IH]; cbn [owner_in In map fst] in *; [split; [congruence|tauto]|].
  inversion Hn as [|? ? N1 N2]; subst. specialize (IH N2). destruct (i =? id) eqn:E.
  - replace i with id in * by lia. split; [intros ->; auto|]. intros [K|K]; [congruence|]. exfalso. apply N1. apply (in_map fst) in K. exact K.
  - rewrite IH. split; [auto|]. intros [K|K]; [|exact K]. injection K as K1 K2. lia.
Qed.
Lemma those_in L a id : List.NoDup (map fst L) -> a <> 0 -> id ∈ those L a <-> owner_in L id = a.
Proof.
  intros Hn Ha. rewrite (owner_in_iff L id a Hn Ha). unfold those. rewrite elem_of_list_In, in_map_iff. split.
  - intros ([i o] & E & K). apply elem_of_list_In, elem_of_list_filter in K. cbn [fst snd] in *. destruct K as [<- K]. subst. apply elem_of_list_In, K.
  - intros K. exists (id, a). split; [reflexivity|]. apply elem_of_list_In, elem_of_list_filter. split; [reflexivity|]. apply elem_of_list_In, K.
Qed.
Lemma those_NoDup L a : List.NoDup (map fst L) -> base.NoDup (those L a).
Proof.
  intros Hn. apply NoDup_ListNoDup. induction L as [|[i o] L IH]; [constructor|]. cbn [map fst] in Hn. inversion Hn as [|? ? N1 N2]; subst.
  unfold those. rewrite filter_cons. destruct (decide _); [|exact (IH N2)]. cbn [map fst]. constructor; [|exact (IH N2)].
  intros K. apply N1. apply in_map_iff in K. destruct K as ([j p] & E & K). apply elem_of_list_In, elem_of_list_filter in K.
  destruct K as [_ K]. apply elem_of_list_In in K. apply (in_map fst) in K. cbn [fst] in *. subst. exact K.
Qed.
Lemma holding_count L a l : List.NoDup (map fst L) -> a <> 0 -> base.NoDup l -> (forall id, id ∈ l <-> owner_in L id = a) ->
  holding L a = Z.of_nat (length l).
Proof.
  intros Hn Ha Hl H. rewrite holding_those. f_equal. apply Permutation_length. apply NoDup_Permutation; [apply those_NoDup, Hn|exact Hl|].
  intros id. rewrite (those_in L a id Hn Ha), H. reflexivity.
Qed.
Lemma holding_le L a : 0 <= holding L a <= Z.of_nat (length L).
Proof. induction L as [|[i o] L IH]; cbn [holding length]; [lia|]. destruct (o =? a); lia. Qed.

Section lemmas.
  Context (first : Z) (Hfirst : 0 <= first < two96).
  Notation own s id := (own_val first s id).

  (** ** The contract and the register *)
  Record holds (n : Z) (s : Consecutive.state) (b : register) : Prop := mkHolds {
    h_R : exists m i, R first false m s i /\ forall id, iown i id = owner_in (r_tokens b) id;
    h_appr_addr : forall id, is_address (appr (erc721 s) id);
    h_appr : forall id, owner_in (r_tokens b) id <> 0 -> r_approved b id = appr (erc721 s) id;
    h_oper : forall o p, is_address o -> is_address p -> r_operator b o p = oper (erc721 s) o p;
    h_fits : register_fits b;
    h_paused : r_paused b = false;
    h_len : Z.of_nat (length (r_tokens b)) <= n
  }.
  Lemma holds_weaken n m s b : holds n s b -> n <= m -> holds m s b.
  Proof. intros [] H. split; auto. lia. Qed.
  Lemma h_own n s b id : holds n s b -> own s id = owner_in (r_tokens b) id.
  Proof. intros [(m & i & H & E) _ _ _ _ _ _]. rewrite <- E. apply (r_own _ _ _ _ _ H). Qed.
  Lemma h_owner n s b id : holds n s b -> Consecutive._owner_of first id s = (Ok (owner_in (r_tokens b) id), s).
  Proof.
    intros H. pose proof (h_own n s b id H) as E. destruct H as [(m & i & H & _) _ _ _ _ _ _]. rewrite <- E.
    apply owner_eq; [apply (r_sorted _ _ _ _ _ H)|apply (r_len_ok _ _ _ _ _ H)].
  Qed.
  Lemma h_hold n s b a : holds n s b -> a <> 0 -> mget (Erc721.balances (erc721 s)) a = holding (r_tokens b) a.
  Proof.
    intros [(m & i & H & E) _ _ _ (F1 & F2 & F3 & _) _ _] Ha. destruct (r_count _ _ _ _ _ H a Ha) as (l & L1 & L2 & ->).
    assert (L3 : forall id, id ∈ l <-> owner_in (r_tokens b) id = a) by (intros id; rewrite L2, E; reflexivity).
    rewrite <- (holding_count (r_tokens b) a l F1 Ha L1 L3). apply Z.mod_small. pose proof (holding_le (r_tokens b) a). lia.
  Qed.
  Lemma h_owner_addr n s b id : holds n s b -> owner_in (r_tokens b) id <> 0 -> is_u256 id /\ is_address (owner_in (r_tokens b) id).
  Proof.
    intros H Ho. pose proof (h_fits _ _ _ H) as (_ & F & _). rewrite List.Forall_forall in F. destruct (F _ (owner_in_In _ _ Ho)) as (F1 & F2 & _). auto.
  Qed.
  Lemma upd_holds n s b t id : holds n s b -> n + 1 < two256 -> is_u256 id -> is_address t -> (t = 0 -> owner_in (r_tokens b) id <> 0) ->
    holds (n + 1) (upd first t id s) (if t =? 0 then destroyed b id else given b id t).
  Proof.
    intros H Hn Hid Ht H0. assert (F := h_fits _ _ _ H). assert (Ln := h_len _ _ _ H).
    assert (F' : register_fits (if t =? 0 then destroyed b id else given b id t)).
    { destruct (t =? 0) eqn:E; [apply destroyed_fits, F|apply given_fits; auto; lia]. }
    pose proof (without_length (r_tokens b) id (proj1 F) (tokens_nonzero b F)) as Lw.
    assert (L' : Z.of_nat (length (r_tokens (if t =? 0 then destroyed b id else given b id t))) <= n + 1).
    { destruct (t =? 0); cbn [destroyed given r_tokens length]; [|rewrite Nat2Z.inj_succ]; rewrite Lw; destruct (_ =? 0); lia. }
    assert (O' : forall j, owner_in (r_tokens (if t =? 0 then destroyed b id else given b id t)) j = if j =? id then t else owner_in (r_tokens b) j).
    { intros j. destruct (t =? 0) eqn:E; cbn [destroyed given r_tokens owner_in]; rewrite owner_in_without.
      - destruct (j =? id); lia.
      - rewrite (Z.eqb_sym id j). destruct (j =? id); reflexivity. }
    assert (Ap : forall j, appr (erc721 (upd first t id s)) j =
      if own s id =? 0 then appr (erc721 s) j else if decide (id = j) then 0 else appr (erc721 s) j).
    { intros j. unfold upd, Erc721._get_approved. cbn [erc721 Erc721.token_approvals]. destruct (own s id =? 0); [reflexivity|apply mget_set]. }
    pose proof (h_own n s b id H) as Ow. destruct H as [(m & i & HR & E) A1 A2 A3 _ A4 _]. split; [..|exact F'| |exact L'].
    - exists m, (iset id t i). split.
      + apply R_upd; auto; [intros _ X; discriminate|]. rewrite E. exact H0.
      + intros j. cbn [iset iown]. rewrite O', E. reflexivity.
    - intros j. rewrite Ap. destruct (own s id =? 0); [apply A1|]. destruct (decide _); [exact addr0|apply A1].
    - intros j. rewrite O', Ap, Ow. destruct (j =? id) eqn:Ej.
      + replace j with id by lia. intros Ht0. replace (r_approved (if t =? 0 then destroyed b id else given b id t) id) with 0
          by (destruct (t =? 0); cbn [destroyed given r_approved]; unfold at_key; rewrite Z.eqb_refl; reflexivity).
        destruct (owner_in (r_tokens b) id =? 0) eqn:Eo; [|rewrite decide_True by reflexivity; reflexivity].
        symmetry. apply (r_appr _ _ _ _ _ HR). rewrite E. lia.
      + intros Hj. replace (r_approved (if t =? 0 then destroyed b id else given b id t) j) with (r_approved b j)
          by (destruct (t =? 0); cbn [destroyed given r_approved]; unfold at_key; rewrite Ej; reflexivity).
        rewrite (A2 j Hj). destruct (owner_in (r_tokens b) id =? 0); [reflexivity|]. rewrite decide_False by lia. reflexivity.
    - intros o q Ho Hq. replace (r_operator (if t =? 0 then destroyed b id else given b id t) o q) with (r_operator b o q)
        by (destruct (t =? 0); reflexivity). apply (A3 o q Ho Hq).
    - rewrite <- A4. destruct (t =? 0); reflexivity.
  Qed.
  Lemma authorized_eq n s b c id : holds n s b -> caller_ok c ->
    Erc721._is_authorized (own s id) c id (erc721 s) =
    if owner_in (r_tokens b) id =? 0 then false
    else (c =? owner_in (r_tokens b) id) || r_operator b (owner_in (r_tokens b) id) c || (c =? r_approved b id).
  Proof.
    intros H [Hc Hc0]. rewrite (h_own n s b id H). unfold Erc721._is_authorized. replace (c =? 0) with false by lia. cbn [negb andb].
    destruct (owner_in (r_tokens b) id =? 0) eqn:E.
    - destruct H as [(m & i & HR & E') _ _ _ _ _ _]. replace (owner_in (r_tokens b) id) with 0 by lia.
      rewrite (r_op0 _ _ _ _ _ HR), (r_appr _ _ _ _ _ HR) by (rewrite E'; lia). replace (0 =? c) with false by lia. reflexivity.
    - assert (Ho : owner_in (r_tokens b) id <> 0) by lia. destruct (h_owner_addr _ _ _ _ H Ho) as [_ Ha].
      rewrite (h_oper _ _ _ H _ _ Ha Hc), (h_appr _ _ _ H id Ho), (Z.eqb_sym c (owner_in _ _)), (Z.eqb_sym c (appr _ _)). reflexivity.
  Qed.

  (** ** The verdict on a request is what the code does *)
  Definition says (er : Consecutive.error) (why : refusal) : Prop :=
    match why with
    | Because r => reason_fits r /\ reason_consecutive er = Some r
    | Quoting d => revert_consecutive er = d
    end.
  Definition meets (n : Z) (v : verdict) (x : res Consecutive.error unit * Consecutive.state) : Prop :=
    match v with
    | Granted b => exists s, x = (Ok tt, s) /\ holds n s b
    | Denied why => exists er, fst x = Err er /\ says er why
    end.
  Definition exec_of (w : world) (c : Z) (r : request) : M Consecutive.state Consecutive.error unit :=
    match r with
    | Burn i => Consecutive._burn first i
    | Mint t i => Consecutive._mint first t i
    | TransferFrom f t i => Consecutive.transfer_from first c f t i
    | SafeTransferFrom f t i => safe_transfer_from_with_data first w c f t i []
    | SafeTransferFromData f t i d => safe_transfer_from_with_data first w c f t i d
    | Approve t i => Consecutive.approve first c t i
    | SetApprovalForAll p v => Consecutive.set_approval_for_all c p v
    | _ => panic
    end.
  Ltac fit := unfold reason_fits; cbn [numbers]; repeat (apply List.Forall_cons; [solve [auto using addr_u256, addr0]|]); apply List.Forall_nil.
  Ltac deny e := exists (Consecutive.ErrErc721 e); split; [reflexivity|]; split; [fit|reflexivity].
  Lemma update_ok n s b t id auth : holds n s b ->
    Consecutive._update first t id auth s =
    if (auth =? 0) || Erc721._is_authorized (own s id) auth id (erc721 s) then (Ok (owner_in (r_tokens b) id), upd first t id s)
    else (Err (Consecutive.ErrErc721 (if owner_in (r_tokens b) id =? 0 then Erc721.NonexistentToken id else Erc721.InsufficientApproval auth id)), s).
  Proof.
    intros H. rewrite <- (h_own n s b id H). destruct H as [(m & i & HR & _) _ _ _ _ _ _].
    apply update_eq; [apply (r_sorted _ _ _ _ _ HR)|apply (r_len_ok _ _ _ _ _ HR)].
  Qed.
  Lemma move_ok n w s b c f t id (ask : bool) d : holds n s b -> n + 1 < two256 -> caller_ok c ->
    is_address f -> is_address t -> is_u256 id ->
    meets (n + 1) (judge (moving b c f t id ++ (if ask then asking w c f t id d else [])) (given b id t))
      ((Consecutive.transfer_from first c f t id ;;;
        (if ask then Consecutive.on_base (Erc721._check_on_erc721_received (deployed w) (Erc721Example.answers (hook w c f t id d)) c f t id d) else ret tt)) s).
  Proof.
    intros H Hn Hcc Hf Ht Hid. pose proof Hcc as [Hc Hc0]. unfold moving, existing, entitled. cbn [app judge].
    unfold bind at 1. unfold Consecutive.transfer_from. unfold bind at 1, fail_if at 1.
    destruct (t =? 0) eqn:Et; [deny (Erc721.InvalidReceiver 0)|]. cbv beta iota. unfold bind at 1.
    rewrite (update_ok n s b t id c H). replace (c =? 0) with false by lia. cbn [orb]. rewrite (authorized_eq n s b c id H Hcc).
    destruct (owner_in (r_tokens b) id =? 0) eqn:Eo; [deny (Erc721.NonexistentToken id)|].
    assert (Ho : owner_in (r_tokens b) id <> 0) by lia. destruct (h_owner_addr _ _ _ _ H Ho) as [_ Hoa].
    destruct ((c =? _) || _ || _); cbn [negb]; [|deny (Erc721.InsufficientApproval c id)].
    unfold fail_if at 1. destruct (owner_in (r_tokens b) id =? f) eqn:Ef; cbn [negb]; [|deny (Erc721.IncorrectOwner f id (owner_in (r_tokens b) id))].
    assert (Fin : holds (n + 1) (upd first t id s) (given b id t)).
    { pose proof (upd_holds n s b t id H Hn Hid Ht) as K. rewrite Et in K. apply K. intros ->. discriminate. }
    destruct ask; [|exists (upd first t id s); split; [reflexivity|exact Fin]]. cbv beta iota.
    unfold Consecutive.on_base, map_err, zoom. rewrite asking_code.
    assert (SE : Consecutive.set_erc721 (erc721 (upd first t id s)) (upd first t id s) = upd first t id s) by (destruct (upd first t id s); reflexivity).
    pose proof (judge_any (asking w c f t id d) new_register (given b id t)) as J.
    destruct (judge (asking w c f t id d) new_register) as [b'|[why|out]] eqn:Ej; rewrite J.
    - exists (upd first t id s). split; [cbv beta iota; rewrite SE; reflexivity|exact Fin].
    - exists (Consecutive.ErrErc721 (Erc721.InvalidReceiver t)). split; [reflexivity|].
      assert (why = ERC721InvalidReceiver t) as ->.
      { revert Ej. unfold asking. destruct (deployed w t); [|discriminate]. destruct (replies w t _) as [o|[|y o]]; cbn [judge]; try congruence.
        destruct (list_eq_dec _ _ _); cbn [judge]; congruence. }
      split; [fit|reflexivity].
    - exists (Consecutive.ErrErc721 (Erc721.InvalidReceiverWithReason out)). split; reflexivity.
  Qed.
  Lemma bind_ret_tt {S E} (m : M S E unit) s : (m ;;; ret tt) s = m s.
  Proof. mred. destruct (m s) as [[[]|e|] s']; reflexivity. Qed.
  Lemma same_R n s b c o s' : holds n s b -> caller_ok c -> Consecutive_spec.op_wf (c, o) ->
    match o with Consecutive.Approve _ _ | Consecutive.SetApprovalForAll _ _ => True | _ => False end ->
    Consecutive.exec first 0 c o s = (Ok tt, s') ->
    exists m i, R first false m s' i /\ forall id, iown i id = owner_in (r_tokens b) id.
  Proof.
    intros [(m & i & HR & E) _ _ _ _ _ _] Hc Hw Ho X. exists (m + Consecutive_lemmas.cost o), (Consecutive_spec.istep o i).
    pose proof (Consecutive_lemmas.r_next _ _ _ _ _ HR) as N1. pose proof (Consecutive_lemmas.r_n _ _ _ _ _ HR) as N2.
    split; [|destruct o; try contradiction; exact E].
    apply (R_exec first 0 Hfirst false m s i c o s' HR Hw); auto; destruct o; try contradiction; cbn [Consecutive_spec.istep Consecutive_lemmas.cost]; auto; lia.
  Qed.
  Lemma step_ok n w s b c r : holds n s b -> n + 1 < two256 -> caller_ok c -> asks r ->
    meets (n + 1) (ideal w c r b) (exec_of w c r s).
  Proof.
    intros H Hn Hcc [Hr Av]. pose proof Hcc as [Hc Hc0].
    destruct r as [id|t id|t id d|f t id|f t id|f t id d|t id|q v| |]; try contradiction Av; cbn [ideal EntryMeta_spec.plain EntryNft_spec.ideal exec_of request_fits] in *.
    - unfold existing. cbn [app judge]. unfold Consecutive._burn. unfold bind at 1. rewrite (update_ok n s b 0 id 0 H). cbn [Z.eqb orb].
      unfold fail_if. destruct (owner_in (r_tokens b) id =? 0) eqn:Eo; [deny (Erc721.NonexistentToken id)|].
      exists (upd first 0 id s). split; [reflexivity|]. apply (upd_holds n s b 0 id H Hn Hr addr0). intros _. lia.
    - destruct Hr as [Ht Hid]. unfold minting. cbn [app judge]. unfold Consecutive._mint. unfold bind at 1. unfold fail_if at 1.
      destruct (t =? 0) eqn:Et; [deny (Erc721.InvalidReceiver 0)|]. unfold bind at 1.
      rewrite (update_ok n s b t id 0 H). cbn [Z.eqb orb]. unfold fail_if.
      destruct (owner_in (r_tokens b) id =? 0) eqn:Eo; cbn [negb]; [|deny (Erc721.InvalidSender 0)].
      exists (upd first t id s). split; [reflexivity|]. pose proof (upd_holds n s b t id H Hn Hid Ht) as K. rewrite Et in K. apply K. intros ->. discriminate.
    - destruct Hr as (Hf & Ht & Hid). pose proof (move_ok n w s b c f t id false [] H Hn Hcc Hf Ht Hid) as K. rewrite app_nil_r in K.
      rewrite bind_ret_tt in K. exact K.
    - destruct Hr as (Hf & Ht & Hid). exact (move_ok n w s b c f t id true [] H Hn Hcc Hf Ht Hid).
    - destruct Hr as (Hf & Ht & Hid & _). exact (move_ok n w s b c f t id true d H Hn Hcc Hf Ht Hid).
    - destruct Hr as [Ht Hid]. unfold existing. cbn [app judge].
      assert (X : Consecutive.approve first c t id s =
        if owner_in (r_tokens b) id =? 0 then (Err (Consecutive.ErrErc721 (Erc721.NonexistentToken id)), s)
        else if negb ((owner_in (r_tokens b) id =? c) || r_operator b (owner_in (r_tokens b) id) c) then (Err (Consecutive.ErrErc721 (Erc721.InvalidApprover c)), s)
        else (Ok tt, Consecutive.set_erc721 (Erc721.set_token_approvals (fun m => mset m id t)
               (Erc721.mk (Erc721.owners (erc721 s)) (Erc721.balances (erc721 s)) (Erc721.token_approvals (erc721 s)) (Erc721.operator_approvals (erc721 s))
                 (Erc721.log (erc721 s) ++ [Erc721.Approval (owner_in (r_tokens b) id) t id]))) s)).
      { unfold Consecutive.approve, Consecutive._approve, Consecutive._require_owned. cbn [orb]. unfold bind at 1 2 3.
        rewrite (h_owner n s b id H). unfold Consecutive.on_base, Erc721.emit. mred.
        destruct (owner_in (r_tokens b) id =? 0) eqn:Eo; [reflexivity|].
        assert (Ho : owner_in (r_tokens b) id <> 0) by lia. destruct (h_owner_addr _ _ _ _ H Ho) as [_ Hoa].
        rewrite (h_oper _ _ _ H _ _ Hoa Hc). replace (c =? 0) with false by lia. cbn [negb andb].
        destruct (owner_in (r_tokens b) id =? c), (oper (erc721 s) (owner_in (r_tokens b) id) c); reflexivity. }
      assert (XR := fun s' => same_R n s b c (Consecutive.Approve t id) s' H Hcc (conj Hc0 Hid) I). cbn [Consecutive.exec] in XR.
      rewrite X in *. destruct (owner_in (r_tokens b) id =? 0) eqn:Eo; [deny (Erc721.NonexistentToken id)|].
      destruct (negb _); [deny (Erc721.InvalidApprover c)|]. eexists. split; [reflexivity|].
      assert (Ap : forall j, appr (Erc721.set_token_approvals (fun m => mset m id t)
               (Erc721.mk (Erc721.owners (erc721 s)) (Erc721.balances (erc721 s)) (Erc721.token_approvals (erc721 s)) (Erc721.operator_approvals (erc721 s))
                 (Erc721.log (erc721 s) ++ [Erc721.Approval (owner_in (r_tokens b) id) t id]))) j = if decide (id = j) then t else appr (erc721 s) j).
      { intros j. unfold Erc721._get_approved. cbn. apply mget_set. }
      apply (holds_weaken n); [|lia]. split; [exact (XR _ eq_refl)|..].
      + intros j. cbn [Consecutive.set_erc721 erc721]. rewrite Ap. destruct (decide _); [exact Ht|apply (h_appr_addr _ _ _ H)].
      + intros j Hj. cbn [Consecutive.set_erc721 erc721]. rewrite Ap. cbn [approved_for r_approved]. unfold at_key.
        destruct (decide (id = j)) as [<-|N]; [rewrite Z.eqb_refl; reflexivity|]. replace (j =? id) with false by lia. apply (h_appr _ _ _ H j Hj).
      + apply (h_oper _ _ _ H).
      + destruct (h_fits _ _ _ H) as (F1 & F2 & F3 & F4). split; [exact F1|]. split; [exact F2|]. split; [exact F3|]. intros j. cbn [approved_for r_approved]. unfold at_key.
        destruct (j =? id); [apply addr_u256, Ht|apply F4].
      + apply (h_paused _ _ _ H).
      + apply (h_len _ _ _ H).
    - cbn [judge]. assert (XR := fun s' => same_R n s b c (Consecutive.SetApprovalForAll q v) s' H Hcc (conj Hc0 I) I). cbn [Consecutive.exec] in XR.
      assert (X : Consecutive.set_approval_for_all c q v s =
        if q =? 0 then (Err (Consecutive.ErrErc721 (Erc721.InvalidOperator q)), s)
        else (Ok tt, Consecutive.set_erc721 (Erc721_lemmas.all_state c q v (erc721 s)) s)).
      { unfold Consecutive.set_approval_for_all, Consecutive.on_base, Erc721.set_approval_for_all, Erc721._set_approval_for_all, Erc721.emit. mred.
        destruct (q =? 0); [destruct s; reflexivity|reflexivity]. }
      rewrite X in *. destruct (q =? 0) eqn:Eq; [replace q with 0 by lia; deny (Erc721.InvalidOperator 0)|].
      eexists. split; [reflexivity|].
      assert (Op : forall o p, oper (Erc721_lemmas.all_state c q v (erc721 s)) o p = if (o =? c) && (p =? q) then v else oper (erc721 s) o p).
      { intros o p. unfold Erc721.is_approved_for_all, Erc721_lemmas.all_state. cbn. rewrite getd_set.
        destruct (decide ((c, q) = (o, p))) as [E|E].
        - inversion E; subst. rewrite !Z.eqb_refl. reflexivity.
        - replace ((o =? c) && (p =? q)) with false; [reflexivity|]. symmetry. apply andb_false_iff.
          destruct (Z.eqb_spec o c); [|auto]. right. apply Z.eqb_neq. congruence. }
      apply (holds_weaken n); [|lia]. split; [exact (XR _ eq_refl)|..].
      + apply (h_appr_addr _ _ _ H).
      + apply (h_appr _ _ _ H).
      + intros o p Ho Hp. cbn [Consecutive.set_erc721 erc721]. rewrite Op. cbn [operated_by r_operator]. rewrite (h_oper _ _ _ H o p Ho Hp). reflexivity.
      + apply (h_fits _ _ _ H).
      + apply (h_paused _ _ _ H).
      + apply (h_len _ _ _ H).
  Qed.
End lemmas.

(** ** What the constructor leaves behind *)
Import ConsecutiveExample_spec (amount_of, initial_owner, serviceable).
Lemma owner_in_app l1 l2 id : (forall x, In x l1 -> snd x <> 0) ->
  owner_in (l1 ++ l2) id = if owner_in l1 id =? 0 then owner_in l2 id else owner_in l1 id.
Proof.
  induction l1 as [|[i o] l IH]; intros H; [reflexivity|]. cbn [app owner_in]. destruct (i =? id) eqn:E.
  - specialize (H (i, o) (or_introl eq_refl)). cbn [snd] in H. replace (o =? 0) with false by lia. reflexivity.
  - apply IH. intros x Hx. apply H. right. exact Hx.
Qed.
Lemma owner_in_batch next to id : forall n k,
  owner_in (map (fun i => (next + Z.of_nat i, to)) (seq k n)) id =
  if (next + Z.of_nat k <=? id) && (id <? next + Z.of_nat k + Z.of_nat n) then to else 0.
Proof.
  induction n as [|n IH]; intros k; cbn [seq map owner_in].
  - replace ((next + Z.of_nat k <=? id) && _) with false by lia. reflexivity.
  - rewrite IH. destruct (Z.eqb_spec (next + Z.of_nat k) id) as [E|E].
    + replace ((next + Z.of_nat k <=? id) && _) with true by lia. reflexivity.
    + replace ((next + Z.of_nat (S k) <=? id) && (id <? next + Z.of_nat (S k) + Z.of_nat n))
        with ((next + Z.of_nat k <=? id) && (id <? next + Z.of_nat k + Z.of_nat (S n))) by lia. reflexivity.
Qed.
Definition batch_fits (x : Z * Z) : Prop := 0 <= snd x < two96 /\ is_address (fst x) /\ (snd x = 0 \/ fst x <> 0).
Lemma amount_nonneg l : List.Forall batch_fits l -> 0 <= amount_of l.
Proof. induction 1 as [|x l [Hx _] _ IH]; cbn; [lia|]. fold (amount_of l). lia. Qed.
Lemma handed_owner l : List.Forall batch_fits l -> forall next id,
  owner_in (handed_out next l) id = initial_owner next l id.
Proof.
  induction 1 as [|[to n] l (H1 & H2 & H3) Hl IH]; intros next id; [reflexivity|]. cbn [fst snd] in *. cbn [handed_out initial_owner].
  rewrite owner_in_app.
  - rewrite (owner_in_batch next to id (Z.to_nat n) 0), IH. rewrite Z2Nat.id by lia. change (Z.of_nat 0) with 0. rewrite Z.add_0_r.
    destruct ((next <=? id) && (id <? next + n)) eqn:E; [|reflexivity]. replace (to =? 0) with false by lia. reflexivity.
  - intros x Hx. apply in_map_iff in Hx. destruct Hx as (i & <- & Hi). apply in_seq in Hi. cbn [snd]. lia.
Qed.
Lemma handed_fits l : List.Forall batch_fits l -> forall next, 0 <= next -> next + amount_of l < two96 ->
  List.NoDup (map fst (handed_out next l)) /\
  List.Forall (fun x => is_u256 (fst x) /\ is_address (snd x) /\ snd x <> 0 /\ next <= fst x < next + amount_of l) (handed_out next l) /\
  Z.of_nat (length (handed_out next l)) = amount_of l.
Proof.
  induction 1 as [|[to n] l (H1 & H2 & H3) Hl IH]; intros next Hn Ha; [split; [constructor|]; split; [constructor|reflexivity]|].
  cbn [fst snd] in *. change (amount_of ((to, n) :: l)) with (n + amount_of l) in *. pose proof (amount_nonneg l Hl) as Hp.
  destruct (IH (next + n) ltac:(lia) ltac:(lia)) as (N & F & L). clear IH. rewrite List.Forall_forall in F.
  assert (B : two96 < two256) by reflexivity. cbn [handed_out].
  split; [|split].
  - rewrite map_app, map_map. cbn [fst]. apply NoDup_ListNoDup, NoDup_app. split; [|split; [|apply NoDup_ListNoDup, N]].
    + apply NoDup_ListNoDup. apply FinFun.Injective_map_NoDup; [intros i j E; lia|apply seq_NoDup].
    + intros j H4 H5. apply elem_of_list_In, in_map_iff in H4. destruct H4 as (i & <- & Hi). apply in_seq in Hi.
      apply elem_of_list_In, in_map_iff in H5. destruct H5 as (x & E & Hx). destruct (F x Hx) as (_ & _ & _ & K). lia.
  - apply List.Forall_forall. intros x Hx. apply in_app_or in Hx. destruct Hx as [Hx|Hx].
    + apply in_map_iff in Hx. destruct Hx as (i & <- & Hi). apply in_seq in Hi. cbn [fst snd]. unfold is_u256.
      split; [lia|]. split; [exact H2|]. split; lia.
    + destruct (F x Hx) as (K1 & K2 & K3 & K4). split; [exact K1|]. split; [exact K2|]. split; [exact K3|lia].
  - rewrite app_length, map_length, seq_length, Nat2Z.inj_add, L, Z2Nat.id; lia.
Qed.
Lemma insert_erc721 k v s s' : ConsecutiveExample.insert k v s = Some s' -> erc721 s' = erc721 s.
Proof.
  unfold ConsecutiveExample.insert. destruct (rev _) as [|[lk lv] r]; [intros [= <-]; reflexivity|].
  destruct (k <? lk); [discriminate|]. destruct (lk =? k); intros [= <-]; reflexivity.
Qed.
Lemma constructor_allows first max receivers : forall amounts s s', ConsecutiveExample.constructor_loop first max receivers amounts s = Some s' ->
  Erc721.token_approvals (erc721 s') = Erc721.token_approvals (erc721 s) /\ Erc721.operator_approvals (erc721 s') = Erc721.operator_approvals (erc721 s).
Proof.
  induction receivers as [|to rs IH]; intros amounts s s' H; [injection H as <-; auto|]. destruct amounts as [|n amounts]; [discriminate|].
  cbn [ConsecutiveExample.constructor_loop] in H. destruct (ConsecutiveExample.mintConsecutive first max to n s) as [s1|] eqn:E; [|discriminate].
  cbn [ConsecutiveExample.obind] in H. destruct (IH _ _ _ H) as [-> ->]. clear H IH. unfold ConsecutiveExample.mintConsecutive in E.
  destruct (ConsecutiveExample.nextConsecutiveId first s) as [next|]; [|discriminate]. cbn [ConsecutiveExample.obind] in E.
  destruct (0 <? n); [|injection E as <-; auto]. destruct (to =? 0); [discriminate|]. destruct (max <? n); [discriminate|].
  destruct (ConsecutiveExample.checked96 (next + n)) as [m|]; [|discriminate]. cbn [ConsecutiveExample.obind] in E.
  destruct (ConsecutiveExample.checked96 (m - 1)) as [last|]; [|discriminate]. cbn [ConsecutiveExample.obind] in E.
  destruct (ConsecutiveExample.insert last to s) as [s2|] eqn:E2; [|discriminate]. cbn [ConsecutiveExample.obind] in E. injection E as <-.
  apply insert_erc721 in E2. unfold Consecutive.cemit, ConsecutiveExample.increaseBalance. cbn. rewrite E2. auto.
Qed.
Lemma deployed_holds first max receivers amounts s : arguments_fit first receivers amounts ->
  ConsecutiveExample.construct receivers amounts first max = Some s -> holds first two96 s (deployed_register first receivers amounts).
Proof.
  intros (Hf & Hr & Ha & Hl) E.
  assert (Ha' : List.Forall (fun k => 0 <= k) amounts) by (revert Ha; apply List.Forall_impl; intros x; lia).
  destruct (proj1 (ConsecutiveExample_props.c80_deployable first max receivers amounts Hf Ha' Hl) (ex_intro _ s E)) as (_ & S2 & S3).
  destruct (ConsecutiveExample_props.deployed_R first max receivers amounts Hf Ha' Hl s E) as (i & HR & Hi).
  destruct (constructor_allows first max receivers amounts _ _ E) as [A1 A2].
  assert (B : List.Forall batch_fits (combine receivers amounts)).
  { apply List.Forall_forall. intros [to n] Hx. rewrite List.Forall_forall in Hr, Ha. rewrite List.Forall_forall in S2.
    pose proof (in_combine_l _ _ _ _ Hx) as X1. pose proof (in_combine_r _ _ _ _ Hx) as X2. specialize (S2 _ Hx). cbn [fst snd] in S2.
    split; [apply (Ha n X2)|]. split; [apply (Hr to X1)|cbn [fst snd]; lia]. }
  destruct (handed_fits _ B first ltac:(lia) S3) as (N & F & L).
  assert (Ap : forall j, appr (erc721 s) j = 0) by (intros j; unfold Erc721._get_approved; rewrite A1; apply mget_empty).
  split; cbn [deployed_register r_tokens r_approved r_operator r_paused].
  - exists (Z.of_nat (length receivers)), i. split; [exact HR|]. intros id. rewrite Hi, (handed_owner _ B). reflexivity.
  - intros j. rewrite Ap. exact addr0.
  - intros j _. rewrite Ap. reflexivity.
  - intros o q _ _. unfold Erc721.is_approved_for_all. rewrite A2. reflexivity.
  - split; [exact N|]. split; [|split].
    + revert F. apply List.Forall_impl. intros x (F1 & F2 & F3 & _). auto.
    + cbn [deployed_register r_tokens]. assert (two96 < two256) by reflexivity. lia.
    + intros j. cbn [deployed_register r_approved]. split; [lia|reflexivity].
  - reflexivity.
  - lia.
Qed.
