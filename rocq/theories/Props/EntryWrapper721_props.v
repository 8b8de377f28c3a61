(** C105: bytes in, bytes out for examples/erc721-wrapper. *)
From Verif.Base Require Import Prelude Bytes Keccak Maps.
From stdpp Require Import gmap.
From Coq Require Import String List.
From Verif.Model Require Import Introspection Router Entry EntryErc721 EntryWrapper721.
From Verif.Model Require SolAbi Erc721 Erc721Example.
From Verif.Spec Require Import Router_spec SolAbi_spec LogMeaning_spec.
From Verif.Spec Require Entry_spec EntryNft_spec EntryWrapper721_spec.
From Verif.Proofs Require Import Router_lemmas Entry_lemmas.
From Verif.Proofs Require EntryNft_lemmas Erc721_lemmas.
From Verif.Props Require Import SolAbi_props.
From Verif.Props Require EntryNft_props EntryMulti_props EntryMeta_props.
Import SolAbi.
Import Entry_spec (calldata, is_address, has_type, word_of_type).
Import EntryWrapper721_spec.
Import EntryNft_spec (question, consent).
Import EntryNft_lemmas (bytes_val, abi_params_bytes, abi_params_size, one_word).
Import EntryNft_props (same_entry).
Import EntryMulti_props (small_data).
#[global] Open Scope Z_scope.
Local Open Scope list_scope.
Local Open Scope Z_scope.
Opaque keccak256.

Lemma transfer_sig a b i : transfer_data a b i = calldata "transferFrom(address,address,uint256)" [Word a; Word b; Word i].
Proof.
  unfold transfer_data, calldata, function_selector, sig_selector.
  replace (signature "transferFrom" [Address; Address; U256]) with "transferFrom(address,address,uint256)"%string by (vm_compute; reflexivity). reflexivity.
Qed.
Lemma safe_transfer_sig a b i : safe_transfer_data a b i = calldata "safeTransferFrom(address,address,uint256,bytes)" [Word a; Word b; Word i; Octets []].
Proof.
  unfold safe_transfer_data, calldata, function_selector, sig_selector.
  replace (signature "safeTransferFrom" [Address; Address; U256; Bytes]) with "safeTransferFrom(address,address,uint256,bytes)"%string by (vm_compute; reflexivity). reflexivity.
Qed.

(** ** What the storage holds *)
Notation own_of s i := (Erc721._owner_of i s).
Notation appr_of s i := (Erc721._get_approved i s).
Notation upd := Erc721_lemmas.upd_state.
Definition Good (s : Erc721.state) : Prop :=
  Erc721_lemmas.Inv s /\ (forall i, is_address (own_of s i)) /\ (forall i, is_address (appr_of s i)).
Lemma zero_address : is_address 0. Proof. split; [lia|reflexivity]. Qed.
Lemma good_init : Good Erc721.init.
Proof.
  split; [apply Erc721_lemmas.inv_init|]. split; intros i; unfold Erc721._owner_of, Erc721._get_approved; cbn; rewrite mget_empty; apply zero_address.
Qed.
Lemma good_upd t i s : is_address t -> is_u256 i -> Good s -> Good (upd t i s).
Proof.
  intros Ht Hi (G & H1 & H2). split; [apply Erc721_lemmas.inv_upd; assumption|]. split; intros j.
  - rewrite Erc721_lemmas.owner_upd. destruct (decide _); auto.
  - rewrite Erc721_lemmas.approved_upd by apply (Erc721_lemmas.inv_appr s G). destruct (decide _); [apply zero_address|auto].
Qed.
Lemma good_appr t i s : is_address t -> own_of s i <> 0 -> Good s -> Good (Erc721_lemmas.appr_state t i s).
Proof.
  intros Ht Hi (G & H1 & H2). split; [apply Erc721_lemmas.inv_appr_state; assumption|]. split; intros j; [apply H1|].
  unfold Erc721._get_approved, Erc721_lemmas.appr_state. cbn. rewrite mget_set. destruct (decide _); [exact Ht|apply H2].
Qed.
Lemma good_all c p b s : c <> 0 -> Good s -> Good (Erc721_lemmas.all_state c p b s).
Proof. intros Hc (G & H1 & H2). split; [apply Erc721_lemmas.inv_all_state; assumption|]. split; intros j; [apply H1|apply H2]. Qed.

Definition kept {E A} (m : M Erc721.state E A) : Prop := forall s a s', Good s -> m s = (Ok a, s') -> Good s'.
Lemma kept_bind {E A B} (m : M Erc721.state E A) (f : A -> M Erc721.state E B) : kept m -> (forall a, kept (f a)) -> kept (bind m f).
Proof. intros H1 H2 s b s' G. mred. destruct (m s) as [[a|e|] s1] eqn:E1; try discriminate. apply (H2 a). exact (H1 s a s1 G E1). Qed.
Lemma kept_map_err {E E' A} (g : E -> E') (m : M Erc721.state E A) : kept m -> kept (map_err g m).
Proof. intros H s a s' G. mred. destruct (m s) as [[x|e|] s1] eqn:E1; try discriminate. intros [= <- <-]. exact (H s x s1 G E1). Qed.
Lemma kept_ret {E A} (x : A) : kept (E := E) (ret x).
Proof. intros s a s' G. mred. intros [= _ <-]. exact G. Qed.
Lemma kept_gets {E A} (f : Erc721.state -> A) : kept (E := E) (gets f).
Proof. intros s a s' G. mred. intros [= _ <-]. exact G. Qed.
Lemma kept_fail {E A} (e : E) : kept (A := A) (fail e).
Proof. intros s a s' G. mred. discriminate. Qed.
Lemma kept_fail_if {E} b (e : E) : kept (fail_if b e).
Proof. intros s a s' G. mred. destruct b; [discriminate|]. intros [= _ <-]. exact G. Qed.
Lemma kept_check (P : Z -> bool) r op f t i d : kept (Erc721._check_on_erc721_received P (Erc721Example.answers r) op f t i d).
Proof.
  unfold Erc721._check_on_erc721_received. destruct (negb (P t)); [apply kept_ret|]. apply kept_bind.
  - intros s a s' G. unfold Erc721Example.answers. intros [= _ <-]. exact G.
  - intros [v|[|x l]]; [apply kept_fail_if|apply kept_fail|apply kept_fail].
Qed.
Lemma kept_mint t i : is_address t -> is_u256 i -> kept (Erc721._mint t i).
Proof. intros Ht Hi s [] s' G H. apply Erc721_lemmas.mint_ok in H. destruct H as (_ & _ & ->). apply good_upd; assumption. Qed.
Lemma kept_update i c : is_u256 i -> kept (Erc721._update 0 i c).
Proof.
  intros Hi s a s' G. rewrite Erc721_lemmas.update_eq. destruct (_ || _); [|discriminate]. intros [= _ <-]. apply good_upd; [apply zero_address|exact Hi|exact G].
Qed.
Lemma kept_transfer c f t i : c <> 0 -> is_address t -> is_u256 i -> kept (Erc721.transfer_from c f t i).
Proof. intros Hc Ht Hi s [] s' G H. apply Erc721_lemmas.transfer_from_ok in H; [|exact Hc]. destruct H as (_ & _ & _ & ->). apply good_upd; assumption. Qed.
Lemma kept_approve c t i : c <> 0 -> is_address t -> kept (Erc721.approve c t i).
Proof. intros Hc Ht s [] s' G H. apply Erc721_lemmas.approve_ok in H; [|exact Hc]. destruct H as ([H _] & ->). apply good_appr; assumption. Qed.
Lemma kept_all c p b : c <> 0 -> kept (Erc721.set_approval_for_all c p b).
Proof. intros Hc s [] s' G H. apply Erc721_lemmas.set_all_ok in H. destruct H as (_ & ->). apply good_all; assumption. Qed.

Section wrapper.
  Context (me tok : Z) (lenient : bool).
  Local Notation C w := (ExampleWrapper721 me tok lenient w).
  Local Notation call := (fun w => entry (C w)).
  Lemma known_w w : all_known (blocks (C w)) = true.
  Proof. vm_compute. reflexivity. Qed.
  Definition exposed_w := Eval vm_compute in exposed Pub.Erc721WrapperExample.
  Lemma exposed_w_ok w : exposed (blocks (C w)) = exposed_w.
  Proof. vm_compute. reflexivity. Qed.
  Lemma call_request w sig args c s t f :
    k_fits sig = true -> find_fn_k Pub.Erc721WrapperExample (k sig) = Some (t, f) ->
    List.Forall2 has_type (arg_types f) args -> List.Forall bytes_val args -> size (calldata sig args) < two256 ->
    entry (C w) c 0 (calldata sig args) s = finish (C w) (body_of (code (C w)) t (rust_name f) args c s) s.
  Proof.
    intros H1 H2 H3 H4 H5. apply entry_calldata; auto using known_w, abi_params_bytes.
    unfold calldata in H5. rewrite size_app in H5. pose proof (size_nonneg (be_bytes 4 (sig_selector sig))). lia.
  Qed.
  Lemma kept_mint_to w n c a i : is_address a -> is_u256 i -> kept (mint_to w n c a i).
  Proof. intros Ha Hi. unfold mint_to, Erc721._safe_mint. apply kept_map_err, kept_bind; [apply kept_mint; assumption|]. intros _. apply kept_check. Qed.
  Lemma kept_ask w n d : kept (ask_collection tok lenient w n d).
  Proof. unfold ask_collection. destruct (if deployed _ _ then _ else _) as [[|]|[|]]; try apply kept_ret; try apply kept_fail. destruct lenient; [apply kept_ret|apply kept_fail]. Qed.
  Lemma kept_deposit w c a ids : is_address a -> List.Forall is_u256 ids -> forall n, kept (deposit_loop me tok lenient w c a n ids).
  Proof.
    intros Ha. induction 1 as [|i ids Hi _ IH]; intros n; cbn [deposit_loop]; [apply kept_ret|].
    apply kept_bind; [apply kept_ask|]. intros _. apply kept_bind; [apply kept_mint_to; assumption|]. intros _. apply IH.
  Qed.
  Lemma kept_withdraw w c a ids : List.Forall is_u256 ids -> forall n, kept (withdraw_loop me tok lenient w c a n ids).
  Proof.
    induction 1 as [|i ids Hi _ IH]; intros n; cbn [withdraw_loop]; [apply kept_ret|].
    apply kept_bind; [apply kept_map_err, kept_bind; [apply kept_update, Hi|intros _; apply kept_ret]|]. intros _.
    apply kept_bind; [apply kept_ask|]. intros _. apply IH.
  Qed.
  Lemma finish_good w (m : M Erc721.state error (list val)) s : kept m -> Good s -> Good (snd (finish (C w) (m s) s)).
  Proof. intros K G. destruct (m s) as [[l|e|] s'] eqn:E; cbn [finish snd]; [exact (K s l s' G E)|exact G|exact G]. Qed.
  Lemma good_call w c v d s : is_address c -> c <> 0 -> List.Forall is_byte d -> size d < two256 -> Good s -> Good (snd (entry (C w) c v d s)).
  Proof.
    intros Hc Hc0 Hb Hsz G. destruct (entry_cases (C w) c v d s (known_w w) Hb Hsz) as [->|(t & f & args & Hin & _ & Ht & _ & ->)]; [exact G|].
    rewrite exposed_w_ok in Hin. unfold exposed_w in Hin. clear Hb Hsz.
    repeat (destruct Hin as [Hin|Hin];
      [injection Hin as <- <-; cbn [arg_types] in Ht;
       repeat match goal with
       | H : List.Forall2 _ (_ :: _) _ |- _ => inversion H; subst; clear H
       | H : List.Forall2 _ [] _ |- _ => inversion H; subst; clear H
       end|]); [..|destruct Hin].
    all: repeat match goal with
       | H : has_type ?t ?y |- _ => is_var y; destruct y; cbn [has_type word_of_type] in H;
           try (exfalso; first [contradiction H | destruct H as (? & H & _); discriminate H | destruct H as [[H|H] _]; discriminate H])
       end.
    all: match goal with |- Good (snd (finish _ (?b ?s) ?s)) => apply (finish_good w b s); [|exact G] end.
    all: cbn.
    all: repeat match goal with H : exists t', _ /\ _ |- _ => destruct H as (? & H & ?); injection H as <- end.
    all: unfold gets, nothing, flag, own, deposit_for, withdraw_to, on_erc721_received, Erc721.safe_transfer_from, Erc721.safe_transfer_from_with_data.
    all: cbn [word_of_type] in *.
    all: repeat first [assumption | apply kept_ret | apply kept_gets | apply kept_fail | apply kept_fail_if | apply kept_check
       | apply kept_deposit | apply kept_withdraw | apply kept_mint_to | apply kept_transfer | apply kept_approve | apply kept_all
       | apply kept_map_err | apply kept_bind; [|intros ?]].
    destruct (negb (tok =? c)); [apply kept_fail|apply kept_mint_to; assumption].
  Qed.

  (** ** Loops *)
  Lemma asked w n d s s' : ask_collection tok lenient w n d s = (Ok tt, s') <-> done lenient (answered (w n) tok d) /\ s' = s.
  Proof.
    unfold ask_collection, answered, done. destruct (if deployed _ _ then _ else _) as [[|]|[|]]; mred.
    - split; [intros [= <-]; auto|intros [_ ->]; reflexivity].
    - destruct lenient; [split; [intros [= <-]; auto|intros [_ ->]; reflexivity]|split; [discriminate|intros [? _]; discriminate]].
    - split; [discriminate|intros [[] _]].
    - split; [discriminate|intros [[] _]].
  Qed.
  Lemma received w c a i s s' :
    Erc721._check_on_erc721_received (deployed w) (Erc721Example.answers (hook w c 0 a i [])) c 0 a i [] s = (Ok tt, s') <-> receives w c a i /\ s' = s.
  Proof.
    rewrite Erc721_lemmas.check_received_ok. unfold Erc721Example.answers, hook, receives. rewrite EntryNft_lemmas.hook_data_question.
    pose proof (EntryNft_lemmas.reply_cases (replies w a (question c 0 i []))) as R.
    destruct (deployed w a); [|split; [intros [[_ ->]|[K _]]; [split; [discriminate|reflexivity]|discriminate K]|intros [_ ->]; left; auto]].
    split.
    - intros [[K _]|[_ K]]; [discriminate K|]. injection K as K <-. split; [|reflexivity]. intros _.
      destruct (replies w a _) as [out|out]; [|rewrite R in K; discriminate K]. destruct (list_eq_dec _ _ _) as [->|N]; [reflexivity|].
      exfalso. destruct R as [(v & R & Hv)|R]; rewrite R in K; [injection K as K; exact (Hv K)|discriminate K].
    - intros [K ->]. right. split; [reflexivity|]. specialize (K eq_refl). rewrite K in R |- *. destruct (list_eq_dec _ _ _) as [_|N]; [|contradiction].
      rewrite R. reflexivity.
  Qed.
  Lemma minted w n c a i s s' : mint_to w n c a i s = (Ok tt, s') <-> a <> 0 /\ own_of s i = 0 /\ receives (w n) c a i /\ s' = upd a i s.
  Proof.
    unfold mint_to, Erc721._safe_mint, map_err, bind.
    pose proof (Erc721_lemmas.mint_ok a i s) as K. destruct (Erc721._mint a i s) as [[[]|e|] s1].
    - destruct (proj1 (K s1) eq_refl) as (K1 & K2 & ->). pose proof (received (w n) c a i (upd a i s)) as R.
      destruct (Erc721._check_on_erc721_received _ _ _ _ _ _ _ _) as [[[]|e|] s2].
      + destruct (proj1 (R s2) eq_refl) as [R1 ->]. split; [intros [= <-]; auto|intros (_ & _ & _ & ->); reflexivity].
      + split; [discriminate|]. intros (_ & _ & R1 & _). exfalso. specialize (R (upd a i s)). destruct R as [_ R]. specialize (R (conj R1 eq_refl)). discriminate R.
      + split; [discriminate|]. intros (_ & _ & R1 & _). exfalso. specialize (R (upd a i s)). destruct R as [_ R]. specialize (R (conj R1 eq_refl)). discriminate R.
    - split; [discriminate|]. intros (K1 & K2 & _). destruct (K (upd a i s)) as [_ K']. specialize (K' (conj K1 (conj K2 eq_refl))). discriminate K'.
    - split; [discriminate|]. intros (K1 & K2 & _). destruct (K (upd a i s)) as [_ K']. specialize (K' (conj K1 (conj K2 eq_refl))). discriminate K'.
  Qed.
  Definition gone_over (w : nat -> world) (c a : Z) (n : nat) (i : Z) : Prop :=
    done lenient (answered (w n) tok (transfer_data c me i)) /\ receives (w (S n)) c a i.
  Definition all_upd (a : Z) (ids : list Z) (s : Erc721.state) : Erc721.state := fold_left (fun s i => upd a i s) ids s.
  Lemma deposited w c a ids : forall n s s',
    deposit_loop me tok lenient w c a n ids s = (Ok tt, s') <->
    (List.NoDup ids /\ (ids <> [] -> a <> 0) /\ (forall i, In i ids -> own_of s i = 0) /\
     (forall m i, List.nth_error ids m = Some i -> gone_over w c a (n + 2 * m)%nat i)) /\ s' = all_upd a ids s.
  Proof.
    induction ids as [|i ids IH]; intros n s s'; cbn [deposit_loop].
    - unfold ret, all_upd. cbn [fold_left]. split; [|intros [_ ->]; reflexivity]. intros [= <-]. split; [|reflexivity].
      split; [apply List.NoDup_nil|]. split; [congruence|]. split; [intros j []|]. intros [|m] j; discriminate.
    - assert (Step : (ask_collection tok lenient w n (transfer_data c me i) ;;; mint_to w (S n) c a i ;;; deposit_loop me tok lenient w c a (S (S n)) ids) s = (Ok tt, s') <->
        gone_over w c a n i /\ a <> 0 /\ own_of s i = 0 /\ deposit_loop me tok lenient w c a (S (S n)) ids (upd a i s) = (Ok tt, s')).
      { unfold bind at 1. pose proof (asked w n (transfer_data c me i) s) as K. destruct (ask_collection _ _ _ _ _ s) as [[[]|e|] s1].
        - destruct (proj1 (K s1) eq_refl) as [K1 ->]. unfold bind. pose proof (minted w (S n) c a i s) as R. destruct (mint_to w (S n) c a i s) as [[[]|e|] s2].
          + destruct (proj1 (R s2) eq_refl) as (R1 & R2 & R3 & ->). unfold gone_over. tauto.
          + split; [discriminate|]. intros ([_ R3] & R1 & R2 & _). destruct (R (upd a i s)) as [_ R']. specialize (R' (conj R1 (conj R2 (conj R3 eq_refl)))). discriminate R'.
          + split; [discriminate|]. intros ([_ R3] & R1 & R2 & _). destruct (R (upd a i s)) as [_ R']. specialize (R' (conj R1 (conj R2 (conj R3 eq_refl)))). discriminate R'.
        - split; [discriminate|]. intros ([K1 _] & _). destruct (K s) as [_ K']. specialize (K' (conj K1 eq_refl)). discriminate K'.
        - split; [discriminate|]. intros ([K1 _] & _). destruct (K s) as [_ K']. specialize (K' (conj K1 eq_refl)). discriminate K'. }
      rewrite Step, IH. clear Step IH. unfold all_upd. cbn [fold_left].
      assert (O : forall j, a <> 0 -> own_of (upd a i s) j = 0 <-> j <> i /\ own_of s j = 0).
      { intros j Ha. rewrite Erc721_lemmas.owner_upd. destruct (decide (i = j)) as [->|N]; [split; [congruence|intros [? _]; congruence]|]. split; [intros H; split; [congruence|exact H]|tauto]. }
      split.
      + intros (H1 & H2 & H3 & (N & H4 & H5 & H6) & ->). split; [|reflexivity]. split; [|split; [auto|split]].
        * apply List.NoDup_cons; [|exact N]. intros Hin. apply H5, O in Hin; [|exact H2]. destruct Hin. congruence.
        * intros j [<-|Hj]; [exact H3|]. apply H5, O in Hj; [tauto|exact H2].
        * intros [|m] j; cbn [List.nth_error]; [intros [= <-]; replace (n + 2 * 0)%nat with n by lia; exact H1|].
          intros Hj. replace (n + 2 * S m)%nat with (S (S n) + 2 * m)%nat by lia. apply H6, Hj.
      + intros ((N & H4 & H5 & H6) & ->). assert (Ha : a <> 0) by (apply H4; discriminate). inversion N as [|? ? N1 N2]; subst.
        split; [specialize (H6 0%nat i eq_refl); replace (n + 2 * 0)%nat with n in H6 by lia; exact H6|].
        split; [exact Ha|]. split; [apply H5; left; reflexivity|]. split; [|reflexivity]. split; [exact N2|]. split; [auto|]. split.
        * intros j Hj. apply (O j Ha). split; [intros ->; contradiction|]. apply H5. right. exact Hj.
        * intros m j Hj. replace (S (S n) + 2 * m)%nat with (n + 2 * S m)%nat by lia. apply (H6 (S m)). exact Hj.
  Qed.
  Lemma owner_all_upd a ids : forall s j, own_of (all_upd a ids s) j = if in_dec Z.eq_dec j ids then a else own_of s j.
  Proof.
    induction ids as [|i ids IH]; intros s j; [reflexivity|]. unfold all_upd in *. cbn [fold_left]. rewrite IH, Erc721_lemmas.owner_upd.
    destruct (in_dec Z.eq_dec j ids) as [H|H]; destruct (in_dec Z.eq_dec j (i :: ids)) as [H'|H']; try reflexivity.
    - exfalso. apply H'. right. exact H.
    - destruct (decide (i = j)) as [->|N]; [reflexivity|]. destruct H' as [H'|H']; contradiction.
    - destruct (decide (i = j)) as [->|N]; [exfalso; apply H'; left; reflexivity|reflexivity].
  Qed.

  Definition may (s : Erc721.state) (c i : Z) : Prop := own_of s i <> 0 /\ Erc721._is_authorized (own_of s i) c i s = true.
  Lemma withdrawn w c a ids : c <> 0 -> List.Forall is_u256 ids -> forall n s s', Good s ->
    withdraw_loop me tok lenient w c a n ids s = (Ok tt, s') <->
    (List.NoDup ids /\ (forall i, In i ids -> may s c i) /\
     (forall m i, List.nth_error ids m = Some i -> done lenient (answered (w (n + m)%nat) tok (safe_transfer_data me a i)))) /\ s' = all_upd 0 ids s.
  Proof.
    intros Hc. induction 1 as [|i ids Hi Hids IH]; intros n s s' G; cbn [withdraw_loop].
    - unfold ret, all_upd. cbn [fold_left]. split; [|intros [_ ->]; reflexivity]. intros [= <-]. split; [|reflexivity].
      split; [apply List.NoDup_nil|]. split; [intros j []|]. intros [|m] j; discriminate.
    - assert (Au : Erc721._is_authorized (own_of s i) c i s = true -> own_of s i <> 0).
      { intros K E. unfold Erc721._is_authorized in K. rewrite E in K. destruct G as (G & _). rewrite (Erc721_lemmas.inv_op0 s G), (Erc721_lemmas.inv_appr s G i E) in K.
        replace (0 =? c) with false in K by lia. cbn [orb] in K. rewrite andb_false_r in K. discriminate K. }
      assert (Step : (map_err ErrErc721 (Erc721._update 0 i c ;;; ret tt) ;;; ask_collection tok lenient w n (safe_transfer_data me a i) ;;; withdraw_loop me tok lenient w c a (S n) ids) s = (Ok tt, s') <->
        may s c i /\ done lenient (answered (w n) tok (safe_transfer_data me a i)) /\ withdraw_loop me tok lenient w c a (S n) ids (upd 0 i s) = (Ok tt, s')).
      { unfold bind, map_err, ret. rewrite Erc721_lemmas.update_eq. replace (c =? 0) with false by lia. cbn [orb]. unfold may.
        destruct (Erc721._is_authorized (own_of s i) c i s); [|split; [discriminate|intros ([_ K] & _); discriminate K]].
        pose proof (asked w n (safe_transfer_data me a i) (upd 0 i s)) as K. destruct (ask_collection _ _ _ _ _ _) as [[[]|e|] s1].
        - destruct (proj1 (K s1) eq_refl) as [K1 ->]. pose proof (Au eq_refl). tauto.
        - split; [discriminate|]. intros (_ & K1 & _). destruct (K (upd 0 i s)) as [_ K']. specialize (K' (conj K1 eq_refl)). discriminate K'.
        - split; [discriminate|]. intros (_ & K1 & _). destruct (K (upd 0 i s)) as [_ K']. specialize (K' (conj K1 eq_refl)). discriminate K'. }
      rewrite Step. rewrite (IH (S n) _ _ (good_upd 0 i s zero_address Hi G)). clear Step IH. unfold all_upd. cbn [fold_left].
      assert (O : forall j, may (upd 0 i s) c j <-> j <> i /\ may s c j).
      { intros j. unfold may, Erc721._is_authorized. rewrite Erc721_lemmas.owner_upd. destruct G as (G & _).
        rewrite Erc721_lemmas.approved_upd by apply (Erc721_lemmas.inv_appr s G).
        destruct (decide (i = j)) as [->|N]; [split; [intros [? _]; congruence|intros [? _]; congruence]|].
        change (Erc721.is_approved_for_all (own_of s j) c (upd 0 i s)) with (Erc721.is_approved_for_all (own_of s j) c s).
        split; [intros K; split; [congruence|exact K]|intros [_ K]; exact K]. }
      split.
      + intros (H1 & H2 & (N & H5 & H6) & ->). split; [|reflexivity]. split; [|split].
        * apply List.NoDup_cons; [|exact N]. intros Hin. apply H5, O in Hin. destruct Hin. congruence.
        * intros j [<-|Hj]; [exact H1|]. apply H5, O in Hj. tauto.
        * intros [|m] j; cbn [List.nth_error]; [intros [= <-]; replace (n + 0)%nat with n by lia; exact H2|].
          intros Hj. replace (n + S m)%nat with (S n + m)%nat by lia. apply H6, Hj.
      + intros ((N & H5 & H6) & ->). inversion N as [|? ? N1 N2]; subst.
        split; [apply H5; left; reflexivity|]. split; [specialize (H6 0%nat i eq_refl); replace (n + 0)%nat with n in H6 by lia; exact H6|].
        split; [|reflexivity]. split; [exact N2|]. split.
        * intros j Hj. apply O. split; [intros ->; contradiction|]. apply H5. right. exact Hj.
        * intros m j Hj. replace (S n + m)%nat with (n + S m)%nat by lia. apply (H6 (S m)). exact Hj.
  Qed.

  (** ** Getters *)
  Ltac types := repeat (apply List.Forall2_cons; [first [assumption|apply EntryMeta_props.bytes_typed; assumption]|]); apply List.Forall2_nil.
  Ltac vals := repeat (apply List.Forall_cons; [first [exact I|assumption]|]); apply List.Forall_nil.
  Ltac small l := apply (small_data _ l); reflexivity.
  Ltac call w sg l t f := refine (eq_trans (call_request w sg l _ _ t f _ _ _ _ _) _); [vm_compute; reflexivity|vm_compute; reflexivity|types|vals|try assumption|].
  Lemma ask_owner w s c i : is_u256 i -> entry (C w) c 0 (calldata "ownerOf(uint256)" [Word i]) s =
    if own_of s i =? 0 then (Reverted (revert_erc721 (Erc721.NonexistentToken i)), s) else (Returned (word (own_of s i)), s).
  Proof.
    intros H. call w "ownerOf(uint256)"%string [Word i] "Erc721"%string (fn "owner_of" [U256]); [small [i]|]. cbn [body_of code]. cbn.
    unfold ask_w, own, Erc721.owner_of, Erc721._require_owned. mred. destruct (own_of s i =? 0); cbn [finish]; [reflexivity|]. rewrite one_word. reflexivity.
  Qed.
  Lemma ask_approved w s c i : is_u256 i -> own_of s i <> 0 -> entry (C w) c 0 (calldata "getApproved(uint256)" [Word i]) s = (Returned (word (appr_of s i)), s).
  Proof.
    intros H Ho. call w "getApproved(uint256)"%string [Word i] "Erc721"%string (fn "get_approved" [U256]); [small [i]|]. cbn.
    unfold ask_w, own, Erc721.get_approved, Erc721._require_owned. mred. replace (own_of s i =? 0) with false by lia. cbn [finish]. rewrite one_word. reflexivity.
  Qed.
  Lemma ask_operator w s c a b : is_address a -> is_address b ->
    entry (C w) c 0 (calldata "isApprovedForAll(address,address)" [Word a; Word b]) s = (Returned (word (of_bool (Erc721.is_approved_for_all a b s))), s).
  Proof.
    intros H H'. call w "isApprovedForAll(address,address)"%string [Word a; Word b] "Erc721"%string (fn "is_approved_for_all" [Address; Address]); [small [a; b]|].
    rewrite <- one_word. reflexivity.
  Qed.
  Lemma addr_u256 a : is_address a -> is_u256 a.
  Proof. intros [H1 H2]. split; [exact H1|]. apply (Z.lt_trans _ (2 ^ 160)); [exact H2|reflexivity]. Qed.
  Definition nowhere : nat -> world := fun _ => mkWorld (fun _ => false) (fun _ _ => Returned []).
  Lemma free_iff s i : is_u256 i -> free call s i <-> own_of s i = 0.
  Proof.
    intros Hi. split.
    - intros F. destruct (F nowhere 0) as (d & E & _). rewrite (ask_owner nowhere s 0 i Hi) in E. destruct (own_of s i =? 0) eqn:Z0; [lia|discriminate E].
    - intros H w c. exists (revert_erc721 (Erc721.NonexistentToken i)). rewrite (ask_owner w s c i Hi), H. split; [reflexivity|].
      apply revert_erc721_ok; [reflexivity|]. unfold reason_fits. cbn [numbers]. apply List.Forall_cons; [exact Hi|apply List.Forall_nil].
  Qed.
  Lemma owned_iff s i o : Good s -> is_u256 i -> is_address o -> owned call s i o <-> own_of s i = o /\ o <> 0.
  Proof.
    intros (_ & G & _) Hi Ho. unfold owned, tells. split.
    - intros T. specialize (T nowhere 0). rewrite (ask_owner nowhere s 0 i Hi) in T. destruct (own_of s i =? 0) eqn:Z0; [discriminate T|].
      assert (E : word (own_of s i) = word o) by congruence. apply word_inj in E; [|apply addr_u256, G|apply addr_u256, Ho]. split; [exact E|lia].
    - intros [E N] w c. rewrite (ask_owner w s c i Hi), E. replace (o =? 0) with false by lia. reflexivity.
  Qed.
  Lemma entitled_iff s c i : Good s -> is_address c -> c <> 0 -> is_u256 i -> entitled call s c i <-> may s c i.
  Proof.
    intros G Hc Hc0 Hi. unfold entitled, may, Erc721._is_authorized. replace (c =? 0) with false by lia. cbn [negb andb]. split.
    - intros (o & Ho & H & K). apply (owned_iff s i o G Hi Ho) in H. destruct H as [E N]. rewrite E. split; [exact N|].
      destruct K as [K|[K|K]].
      + replace (o =? c) with true by lia. reflexivity.
      + specialize (K nowhere 0). cbn beta in K. rewrite (ask_operator nowhere s 0 o c Ho Hc) in K. destruct (Erc721.is_approved_for_all o c s); [rewrite orb_true_r; reflexivity|].
        exfalso. assert (X : word 0 = word 1) by (cbn [of_bool] in K; congruence). apply word_inj in X; [discriminate X|split; [lia|reflexivity]..].
      + specialize (K nowhere 0). cbn beta in K. assert (N' : own_of s i <> 0) by (rewrite E; exact N). rewrite (ask_approved nowhere s 0 i Hi N') in K.
        assert (X : word (appr_of s i) = word c) by congruence. apply word_inj in X; [|apply addr_u256, G|apply addr_u256, Hc]. rewrite X, Z.eqb_refl, orb_true_r. reflexivity.
    - intros [N K]. exists (own_of s i). split; [apply G|]. split; [apply (owned_iff s i _ G Hi); [apply G|auto]|].
      apply orb_true_iff in K. destruct K as [K|K]; [apply orb_true_iff in K; destruct K as [K|K]|].
      + left. lia.
      + right. left. intros w c'. rewrite (ask_operator w s c' _ c (proj1 (proj2 G) i) Hc), K. reflexivity.
      + right. right. intros w c'. rewrite (ask_approved w s c' i Hi N). replace (appr_of s i) with c by lia. reflexivity.
  Qed.

  (** ** Calls *)
  Lemma batch_size sig a ids : size ids < 2 ^ 200 -> size (calldata sig [Word a; Words ids]) < two256.
  Proof.
    intros H. unfold calldata. rewrite size_app, abi_params_size. unfold size at 1. rewrite be_bytes_length. cbn [flat_map tail_of app].
    rewrite app_nil_r, size_app, size_word, size_words. change (count [Word a; Words ids]) with 2. change (Z.of_nat 4) with 4.
    apply (Z.lt_trans _ (32 * 2 ^ 200 + 200)); [lia|reflexivity].
  Qed.
  Lemma batch_types a ids : is_address a -> List.Forall is_u256 ids -> List.Forall2 has_type [Address; Vec U256] [Word a; Words ids].
  Proof. intros Ha Hi. apply List.Forall2_cons; [exact Ha|]. apply List.Forall2_cons; [|apply List.Forall2_nil]. exists U256. split; [reflexivity|exact Hi]. Qed.
  Lemma entry_deposit w c a ids s : batch_fits a ids ->
    entry (C w) c 0 (deposit_data a ids) s = finish (C w) (flag (deposit_for me tok lenient w c a ids) s) s.
  Proof.
    intros (Ha & Hi & Hn). unfold deposit_data.
    exact (call_request w "depositFor(address,uint256[])"%string [Word a; Words ids] c s "Erc721WrapperExample"%string (fn "deposit_for" [Address; Vec U256])
      ltac:(vm_compute; reflexivity) ltac:(vm_compute; reflexivity) (batch_types a ids Ha Hi) ltac:(repeat constructor) (batch_size _ a ids Hn)).
  Qed.
  Lemma entry_withdraw w c a ids s : batch_fits a ids ->
    entry (C w) c 0 (withdraw_data a ids) s = finish (C w) (flag (withdraw_to me tok lenient w c a ids) s) s.
  Proof.
    intros (Ha & Hi & Hn). unfold withdraw_data.
    exact (call_request w "withdrawTo(address,uint256[])"%string [Word a; Words ids] c s "Erc721WrapperExample"%string (fn "withdraw_to" [Address; Vec U256])
      ltac:(vm_compute; reflexivity) ltac:(vm_compute; reflexivity) (batch_types a ids Ha Hi) ltac:(repeat constructor) (batch_size _ a ids Hn)).
  Qed.
  Lemma finish_batch w (m : M Erc721.state error unit) s :
    finish (C w) (flag (m ;;; ret true) s) s =
    match m s with (Ok _, s') => (Returned (word 1), s') | (Err e, _) => (Reverted (revert_wrapper721 e), s) | (Panic, _) => (Reverted [], s) end.
  Proof. unfold flag. mred. destruct (m s) as [[[]|e|] s']; cbn [finish]; [|reflexivity..]. rewrite one_word. reflexivity. Qed.
  Lemma good_after h : sane h -> forall s, Good s -> Good (after call h s).
  Proof.
    unfold after. induction 1 as [|[w [[c v] d]] h (Hc & Hc0 & Hb & Hs) _ IH]; intros s G; [exact G|]. cbn [fold_left fst snd]. apply IH.
    exact (good_call w c v d s Hc Hc0 Hb Hs G).
  Qed.
  Lemma gone_over_eq w c a m i : gone_over w c a (0 + 2 * m)%nat i <-> handed_over lenient w me tok c a m i.
  Proof. unfold gone_over, handed_over. rewrite transfer_sig, Nat.add_0_l. tauto. Qed.
  Lemma done_batch w (m : M Erc721.state error unit) P s s1 d c : (forall s', m s = (Ok tt, s') <-> P /\ s' = s1) ->
    entry (C w) c 0 d s = finish (C w) (flag (m ;;; ret true) s) s ->
    let r := entry (C w) c 0 d s in
    (fst r = Returned (word 1) <-> P) /\ (fst r = Returned (word 1) -> snd r = s1) /\
    (fst r = Returned (word 1) \/ exists d, r = (Reverted d, s)).
  Proof.
    intros H E r. subst r. rewrite E, finish_batch. clear E. destruct (m s) as [[[]|e|] s'].
    - destruct (proj1 (H s') eq_refl) as [HP ->]. cbn [fst snd]. split; [tauto|]. split; auto.
    - cbn [fst snd]. split; [split; [discriminate|]|split; [discriminate|right; eexists; reflexivity]].
      intros HP. destruct (H s1) as [_ X]. specialize (X (conj HP eq_refl)). discriminate X.
    - cbn [fst snd]. split; [split; [discriminate|]|split; [discriminate|right; eexists; reflexivity]].
      intros HP. destruct (H s1) as [_ X]. specialize (X (conj HP eq_refl)). discriminate X.
  Qed.
  Lemma deposit_call w c a ids s : batch_fits a ids -> let r := entry (C w) c 0 (deposit_data a ids) s in
    (fst r = Returned (word 1) <-> List.NoDup ids /\ (ids <> [] -> a <> 0) /\ (forall i, In i ids -> free call s i) /\
      (forall m i, List.nth_error ids m = Some i -> handed_over lenient w me tok c a m i)) /\
    (fst r = Returned (word 1) -> snd r = all_upd a ids s) /\ (fst r = Returned (word 1) \/ exists d, r = (Reverted d, s)).
  Proof.
    intros B. destruct (done_batch w (deposit_loop me tok lenient w c a 0 ids) _ s _ (deposit_data a ids) c (deposited w c a ids 0%nat s) (entry_deposit w c a ids s B)) as (H1 & H2 & H3).
    split; [|split; assumption]. rewrite H1. clear H1 H2 H3. destruct B as (_ & Hi & _). rewrite List.Forall_forall in Hi.
    split; intros (N & K1 & K2 & K3); (split; [exact N|]; split; [exact K1|]; split).
    - intros i Hin. apply free_iff; auto.
    - intros m i Hm. exact (proj1 (gone_over_eq w c a m i) (K3 m i Hm)).
    - intros i Hin. apply (free_iff s i (Hi i Hin)). auto.
    - intros m i Hm. exact (proj2 (gone_over_eq w c a m i) (K3 m i Hm)).
  Qed.
  Lemma withdraw_call w c a ids s : Good s -> is_address c -> c <> 0 -> batch_fits a ids -> let r := entry (C w) c 0 (withdraw_data a ids) s in
    (fst r = Returned (word 1) <-> List.NoDup ids /\ (forall i, In i ids -> entitled call s c i) /\
      (forall m i, List.nth_error ids m = Some i -> handed_back lenient w me tok a m i)) /\
    (fst r = Returned (word 1) -> snd r = all_upd 0 ids s) /\ (fst r = Returned (word 1) \/ exists d, r = (Reverted d, s)).
  Proof.
    intros G Hc Hc0 B. destruct (done_batch w (withdraw_loop me tok lenient w c a 0 ids) _ s _ (withdraw_data a ids) c
      (fun s' => withdrawn w c a ids Hc0 (proj1 (proj2 B)) 0%nat s s' G) (entry_withdraw w c a ids s B)) as (H1 & H2 & H3).
    split; [|split; assumption]. rewrite H1. clear H1 H2 H3. destruct B as (_ & Hi & _). rewrite List.Forall_forall in Hi.
    split; intros (N & K2 & K3); (split; [exact N|]; split).
    - intros i Hin. apply entitled_iff; auto.
    - intros m i Hm. unfold handed_back. rewrite <- safe_transfer_sig. exact (K3 m i Hm).
    - intros i Hin. apply (entitled_iff s c i G Hc Hc0 (Hi i Hin)). auto.
    - intros m i Hm. rewrite safe_transfer_sig. exact (K3 m i Hm).
  Qed.
  Lemma good_all_upd a ids : is_address a -> List.Forall is_u256 ids -> forall s, Good s -> Good (all_upd a ids s).
  Proof. intros Ha. induction 1 as [|i ids Hi _ IH]; intros s G; [exact G|]. apply (IH (upd a i s)), good_upd; assumption. Qed.
  Lemma same_owned s s' i : Good s -> Good s' -> is_u256 i -> own_of s' i = own_of s i ->
    (forall o, is_address o -> owned call s' i o <-> owned call s i o) /\ (free call s' i <-> free call s i).
  Proof.
    intros G G' Hi E. split; [intros o Ho; rewrite !owned_iff by assumption; rewrite E; tauto|]. rewrite !free_iff by assumption. rewrite E. tauto.
  Qed.
  Lemma entry_hook w c op f i d s : is_address op -> is_address f -> is_u256 i -> List.Forall is_byte d -> size d < 2 ^ 200 ->
    entry (C w) c 0 (calldata "onErc721Received(address,address,uint256,bytes)" [Word op; Word f; Word i; Octets d]) s =
    if tok =? c then
      match mint_to w 0 c f i s with
      | (Ok _, s') => (Returned consent, s')
      | (Err e, _) => (Reverted (revert_wrapper721 e), s)
      | (Panic, _) => (Reverted [], s)
      end
    else (Reverted (revert_wrapper721 (UnsupportedToken c)), s).
  Proof.
    intros H1 H2 H3 H4 H5.
    refine (eq_trans (call_request w "onErc721Received(address,address,uint256,bytes)"%string [Word op; Word f; Word i; Octets d] c s "Erc721WrapperExample"%string (fn "on_erc721_received" [Address; Address; U256; Bytes])
      ltac:(vm_compute; reflexivity) ltac:(vm_compute; reflexivity) _ _ _) _).
    - apply List.Forall2_cons; [exact H1|]. apply List.Forall2_cons; [exact H2|]. apply List.Forall2_cons; [exact H3|].
      apply List.Forall2_cons; [apply EntryMeta_props.bytes_typed; assumption|apply List.Forall2_nil].
    - repeat (apply List.Forall_cons; [first [exact I|exact H4]|]). apply List.Forall_nil.
    - apply (EntryMeta_props.data_size _ [op; f; i] d); [reflexivity|]. apply (Z.lt_trans _ (2 ^ 200)); [exact H5|reflexivity].
    - cbn. unfold do_wwwo, on_erc721_received. destruct (tok =? c); [|reflexivity]. cbn [negb]. mred. destruct (mint_to w 0 c f i s) as [[[]|e|] s']; cbn [finish]; [|reflexivity..].
      rewrite one_word. reflexivity.
  Qed.
End wrapper.

Notation call_of me tok lenient := (fun w => entry (ExampleWrapper721 me tok lenient w)).

(** ** Deposits

    After any history, a deposit succeeds exactly if the tokens are different, have no owner
    here, the receiver is an account that takes them, and the collection hands over each; then
    the receiver owns them and no other token changes hands. Otherwise nothing happens. *)
Theorem c105_deposit :
  forall me tok lenient h w c account ids, sane h -> batch_fits account ids ->
  let call := call_of me tok lenient in
  let s := after call h Erc721.init in
  let r := call w c 0 (deposit_data account ids) s in
  (fst r = Returned (word 1) <->
     List.NoDup ids /\ (ids <> [] -> account <> 0) /\ (forall id, In id ids -> free call s id) /\
     (forall n id, List.nth_error ids n = Some id -> handed_over lenient w me tok c account n id)) /\
  (fst r = Returned (word 1) ->
     (forall id, In id ids -> owned call (snd r) id account) /\
     (forall id, is_u256 id -> ~ In id ids ->
        (forall o, is_address o -> owned call (snd r) id o <-> owned call s id o) /\ (free call (snd r) id <-> free call s id))) /\
  (fst r = Returned (word 1) \/ exists d, r = (Reverted d, s)).
Proof.
  intros me tok lenient h w c a ids Hh B call s r.
  pose proof (good_after me tok lenient h Hh _ good_init) as G. fold call in G. fold s in G.
  destruct (deposit_call me tok lenient w c a ids s B) as (H1 & H2 & H3). fold call in H1, H2, H3.
  change (entry (ExampleWrapper721 me tok lenient w) c 0 (deposit_data a ids) s) with r in H1, H2, H3.
  split; [exact H1|]. split; [|exact H3]. intros E. pose proof (H2 E) as Hs. destruct (proj1 H1 E) as (_ & Ha & _ & _). clear H1 H2 H3 E.
  destruct B as (B1 & B2 & _). rewrite Hs. clearbody s. clear Hs r Hh h. pose proof (good_all_upd a ids B1 B2 s G) as G'. split.
  - intros i Hin. apply (owned_iff me tok lenient _ i a G'); [rewrite List.Forall_forall in B2; auto|exact B1|].
    rewrite owner_all_upd. destruct (in_dec Z.eq_dec i ids) as [_|N]; [|contradiction]. split; [reflexivity|]. apply Ha. intros ->. destruct Hin.
  - intros i Hi N. apply same_owned; try assumption. rewrite owner_all_upd. destruct (in_dec Z.eq_dec i ids); [contradiction|reflexivity].
Qed.
Print Assumptions c105_deposit.

(** ** Withdrawals

    A withdrawal succeeds exactly if the tokens are different, the caller is entitled to each
    and the collection gives each back; then they have no owner here, and no other token changes
    hands. Otherwise nothing happens. *)
Theorem c105_withdraw :
  forall me tok lenient h w c account ids, sane h -> is_address c -> c <> 0 -> batch_fits account ids ->
  let call := call_of me tok lenient in
  let s := after call h Erc721.init in
  let r := call w c 0 (withdraw_data account ids) s in
  (fst r = Returned (word 1) <->
     List.NoDup ids /\ (forall id, In id ids -> entitled call s c id) /\
     (forall n id, List.nth_error ids n = Some id -> handed_back lenient w me tok account n id)) /\
  (fst r = Returned (word 1) ->
     (forall id, In id ids -> free call (snd r) id) /\
     (forall id, is_u256 id -> ~ In id ids ->
        (forall o, is_address o -> owned call (snd r) id o <-> owned call s id o) /\ (free call (snd r) id <-> free call s id))) /\
  (fst r = Returned (word 1) \/ exists d, r = (Reverted d, s)).
Proof.
  intros me tok lenient h w c a ids Hh Hc Hc0 B call s r.
  pose proof (good_after me tok lenient h Hh _ good_init) as G. fold call in G. fold s in G.
  destruct (withdraw_call me tok lenient w c a ids s G Hc Hc0 B) as (H1 & H2 & H3). fold call in H1, H2, H3.
  change (entry (ExampleWrapper721 me tok lenient w) c 0 (withdraw_data a ids) s) with r in H1, H2, H3.
  split; [exact H1|]. split; [|exact H3]. intros E. pose proof (H2 E) as Hs. clear H1 H2 H3 E.
  destruct B as (B1 & B2 & _). rewrite Hs. clearbody s. clear Hs r Hh h. pose proof (good_all_upd 0 ids zero_address B2 s G) as G'. split.
  - intros i Hin. apply free_iff; [rewrite List.Forall_forall in B2; auto|].
    rewrite owner_all_upd. destruct (in_dec Z.eq_dec i ids) as [_|N]; [reflexivity|contradiction].
  - intros i Hi N. apply same_owned; try assumption. rewrite owner_all_upd. destruct (in_dec Z.eq_dec i ids); [contradiction|reflexivity].
Qed.
Print Assumptions c105_withdraw.

(** ** The hook

    Anybody but the collection is refused and named; the collection wraps a token that has no
    owner here for the account it came from, if that account takes it. *)
Theorem c105_hook :
  forall me tok lenient h w c op from id d, sane h ->
  is_address c -> is_address op -> is_address from -> is_u256 id -> List.Forall is_byte d -> size d < 2 ^ 200 ->
  let call := call_of me tok lenient in
  let s := after call h Erc721.init in
  let r := call w c 0 (calldata "onErc721Received(address,address,uint256,bytes)" [Word op; Word from; Word id; Octets d]) s in
  (c <> tok -> r = (Reverted (calldata "ERC721UnsupportedToken(address)" [Word c]), s)) /\
  (c = tok -> (fst r = Returned consent <-> from <> 0 /\ free call s id /\ receives (w 0%nat) c from id)) /\
  (fst r = Returned consent -> owned call (snd r) id from /\
     (forall id', is_u256 id' -> id' <> id -> forall o, is_address o -> owned call (snd r) id' o <-> owned call s id' o)) /\
  (fst r = Returned consent \/ exists d, r = (Reverted d, s)).
Proof.
  intros me tok lenient h w c op f i d Hh Hc Hop Hf Hi Hb Hsz call s r.
  pose proof (good_after me tok lenient h Hh _ good_init) as G. fold call in G. fold s in G.
  pose proof (entry_hook me tok lenient w c op f i d s Hop Hf Hi Hb Hsz) as E.
  change (entry (ExampleWrapper721 me tok lenient w) c 0 _ s) with r in E. clearbody r s. clear Hh h Hb Hsz Hop.
  destruct (tok =? c) eqn:T.
  - assert (T' : c = tok) by lia. clear T. split; [contradiction|].
    pose proof (minted w 0 c f i s) as K. pose proof (free_iff me tok lenient s i Hi) as F. fold call in F.
    destruct (mint_to w 0 c f i s) as [[[]|e|] s'].
    + destruct (proj1 (K s') eq_refl) as (K1 & K2 & K3 & ->). rewrite E. cbn [fst snd]. clear E. split; [tauto|].
      pose proof (good_upd f i s Hf Hi G) as G'. split; [|left; reflexivity]. intros _. split.
      * apply owned_iff; try assumption. rewrite Erc721_lemmas.owner_upd. destruct (decide (i = i)); [auto|contradiction].
      * intros j Hj N. apply same_owned; try assumption. rewrite Erc721_lemmas.owner_upd. destruct (decide (i = j)); [congruence|reflexivity].
    + rewrite E. cbn [fst snd]. clear E. split; [|split; [discriminate|right; eexists; reflexivity]]. intros _. split; [discriminate|].
      intros (K1 & K2 & K3). destruct (K (upd f i s)) as [_ X]. specialize (X (conj K1 (conj (proj1 F K2) (conj K3 eq_refl)))). discriminate X.
    + rewrite E. cbn [fst snd]. clear E. split; [|split; [discriminate|right; eexists; reflexivity]]. intros _. split; [discriminate|].
      intros (K1 & K2 & K3). destruct (K (upd f i s)) as [_ X]. specialize (X (conj K1 (conj (proj1 F K2) (conj K3 eq_refl)))). discriminate X.
  - assert (T' : c <> tok) by lia. clear T. rewrite E. cbn [fst snd]. clear E.
    split; [|split; [contradiction|split; [discriminate|right; eexists; reflexivity]]]. intros _.
    cbn [revert_wrapper721]. reflexivity.
Qed.
Print Assumptions c105_hook.

(** ** Why a batch fails

    When the collection refuses a token after a part of the batch that would have gone through,
    the whole batch fails with the data it gave, or with "Erc721FailedOperation" and its address
    if it gave none. *)
Lemma refused tok lenient w n d s reason : answered (w n) tok d = Reverted reason ->
  exists e, ask_collection tok lenient w n d s = (Err e, s) /\ revert_wrapper721 e = complaint tok reason.
Proof.
  unfold ask_collection, answered. intros ->. destruct reason as [|x l]; mred; eexists; (split; [reflexivity|]); reflexivity.
Qed.
Lemma deposit_app me tok lenient w c a pre ids : forall n s,
  deposit_loop me tok lenient w c a n (pre ++ ids) s = (deposit_loop me tok lenient w c a n pre ;;; deposit_loop me tok lenient w c a (n + 2 * length pre) ids) s.
Proof.
  induction pre as [|i pre IH]; intros n s; cbn [app deposit_loop length].
  - mred. replace (n + 2 * 0)%nat with n by lia. reflexivity.
  - unfold bind in *. destruct (ask_collection _ _ _ _ _ _) as [[[]|e|] s1]; try reflexivity.
    destruct (mint_to _ _ _ _ _ _) as [[[]|e|] s2]; try reflexivity. rewrite IH. replace (n + 2 * S (length pre))%nat with (S (S n) + 2 * length pre)%nat by lia. reflexivity.
Qed.
Lemma withdraw_app me tok lenient w c a pre ids : forall n s,
  withdraw_loop me tok lenient w c a n (pre ++ ids) s = (withdraw_loop me tok lenient w c a n pre ;;; withdraw_loop me tok lenient w c a (n + length pre) ids) s.
Proof.
  induction pre as [|i pre IH]; intros n s; cbn [app withdraw_loop length].
  - mred. replace (n + 0)%nat with n by lia. reflexivity.
  - unfold bind in *. destruct (map_err _ _ _) as [[[]|e|] s1]; try reflexivity.
    destruct (ask_collection _ _ _ _ _ _) as [[[]|e|] s2]; try reflexivity. rewrite IH. replace (n + S (length pre))%nat with (S n + length pre)%nat by lia. reflexivity.
Qed.
Lemma may_upd c i j s : Good s -> i <> j -> may s c j -> may (upd 0 i s) c j.
Proof.
  intros (G & _) N K. unfold may, Erc721._is_authorized in *. rewrite Erc721_lemmas.owner_upd.
  rewrite Erc721_lemmas.approved_upd by apply (Erc721_lemmas.inv_appr s G). destruct (decide (i = j)); [contradiction|exact K].
Qed.
Lemma may_all_upd c j ids : List.Forall is_u256 ids -> ~ In j ids -> forall s, Good s -> may s c j -> may (all_upd 0 ids s) c j.
Proof.
  induction 1 as [|i ids Hi _ IH]; intros N s G K; [exact K|]. unfold all_upd in *. cbn [fold_left]. apply IH.
  - intros X. apply N. right. exact X.
  - apply good_upd; [apply zero_address|exact Hi|exact G].
  - apply may_upd; [exact G| |exact K]. intros ->. apply N. left. reflexivity.
Qed.
Theorem c105_complaints :
  forall me tok lenient h w c account pre id rest reason, sane h -> is_address c -> c <> 0 -> batch_fits account (pre ++ id :: rest) ->
  let call := call_of me tok lenient in
  let s := after call h Erc721.init in
  (fst (call w c 0 (deposit_data account pre) s) = Returned (word 1) ->
   answered (w (2 * length pre)%nat) tok (calldata "transferFrom(address,address,uint256)" [Word c; Word me; Word id]) = Reverted reason ->
   call w c 0 (deposit_data account (pre ++ id :: rest)) s = (Reverted (complaint tok reason), s)) /\
  (fst (call w c 0 (withdraw_data account pre) s) = Returned (word 1) -> ~ In id pre -> entitled call s c id ->
   answered (w (length pre)) tok (calldata "safeTransferFrom(address,address,uint256,bytes)" [Word me; Word account; Word id; Octets []]) = Reverted reason ->
   call w c 0 (withdraw_data account (pre ++ id :: rest)) s = (Reverted (complaint tok reason), s)).
Proof.
  intros me tok lenient h w c a pre id rest reason Hh Hc Hc0 B call s.
  pose proof (good_after me tok lenient h Hh _ good_init) as G. fold call in G. fold s in G. clearbody s. clear Hh h.
  assert (Bp : batch_fits a pre).
  { destruct B as (B1 & B2 & B3). split; [exact B1|]. apply List.Forall_app in B2. split; [tauto|]. rewrite size_app in B3. pose proof (size_nonneg (id :: rest)). lia. }
  assert (Bi : is_u256 id) by (destruct B as (_ & B & _); apply List.Forall_app in B; destruct B as [_ B]; inversion B; assumption).
  split.
  - intros H1 H2. unfold call in H1 |- *. rewrite (entry_deposit me tok lenient w c a pre s Bp) in H1. rewrite (entry_deposit me tok lenient w c a _ s B).
    unfold deposit_for in *. rewrite finish_batch in H1 |- *. rewrite deposit_app. unfold bind. destruct (deposit_loop me tok lenient w c a 0 pre s) as [[[]|e|] s1]; try discriminate.
    cbn [deposit_loop]. unfold bind. rewrite <- transfer_sig in H2. destruct (refused tok lenient w (0 + 2 * length pre) _ s1 reason H2) as (e & -> & E). rewrite E. reflexivity.
  - intros H1 N K H2. unfold call in H1 |- *. rewrite (entry_withdraw me tok lenient w c a pre s Bp) in H1. rewrite (entry_withdraw me tok lenient w c a _ s B).
    unfold withdraw_to in *. rewrite finish_batch in H1 |- *. rewrite withdraw_app. unfold bind at 1. pose proof (withdrawn me tok lenient w c a pre Hc0 (proj1 (proj2 Bp)) 0%nat s) as W.
    destruct (withdraw_loop me tok lenient w c a 0 pre s) as [[[]|e|] s1]; try discriminate.
    destruct (proj1 (W s1 G) eq_refl) as [_ ->]. clear W H1. apply (entitled_iff me tok lenient s c id G Hc Hc0 Bi) in K. 
    assert (K' : Erc721._is_authorized (own_of (all_upd 0 pre s) id) c id (all_upd 0 pre s) = true).
    { apply (may_all_upd c id pre (proj1 (proj2 Bp)) N s G K). }
    cbn [withdraw_loop]. unfold bind, map_err, ret. rewrite Erc721_lemmas.update_eq, K', orb_true_r. rewrite <- safe_transfer_sig in H2.
    destruct (refused tok lenient w (0 + length pre) _ (upd 0 id (all_upd 0 pre s)) reason H2) as (e & -> & E). rewrite E. reflexivity.
Qed.
Print Assumptions c105_complaints.

(** ** Wrapped tokens are tokens

    The collection's address can be read. Transfers take the owner's name and a caller who is
    entitled, safe ones a receiver who agrees; approvals come from the owner or an operator. *)
Section orders.
  Context (me tok : Z) (lenient : bool).
  Local Notation C w := (ExampleWrapper721 me tok lenient w).
  Local Notation call := (fun w => entry (C w)).
  Lemma done_order w (m : M Erc721.state Erc721.error unit) (P P' : Prop) (Q : Erc721.state -> Prop) s s1 r :
    r = finish (C w) (nothing (own m) s) s -> (forall s', m s = (Ok tt, s') <-> P /\ s' = s1) -> (P <-> P') -> (P -> Q s1) -> outcome_is s r P' Q.
  Proof.
    intros -> H PP HQ. unfold outcome_is, nothing, own. mred. destruct (m s) as [[[]|e|] s'].
    - destruct (proj1 (H s') eq_refl) as [HP ->]. cbn [finish fst snd]. change (abi_params []) with (@nil Z). split; [tauto|]. split; auto.
    - cbn [finish fst snd]. split; [split; [discriminate|]|split; [discriminate|right; eexists; reflexivity]].
      intros HP. apply PP in HP. destruct (H s1) as [_ X]. specialize (X (conj HP eq_refl)). discriminate X.
    - cbn [finish fst snd]. split; [split; [discriminate|]|split; [discriminate|right; eexists; reflexivity]].
      intros HP. apply PP in HP. destruct (H s1) as [_ X]. specialize (X (conj HP eq_refl)). discriminate X.
  Qed.
  Lemma taken w c f a i d s s' :
    Erc721._check_on_erc721_received (deployed w) (Erc721Example.answers (hook w c f a i d)) c f a i d s = (Ok tt, s') <-> takes w c f a i d /\ s' = s.
  Proof.
    rewrite Erc721_lemmas.check_received_ok. unfold Erc721Example.answers, hook, takes. rewrite EntryNft_lemmas.hook_data_question.
    pose proof (EntryNft_lemmas.reply_cases (replies w a (question c f i d))) as R.
    destruct (deployed w a); [|split; [intros [[_ ->]|[K _]]; [split; [discriminate|reflexivity]|discriminate K]|intros [_ ->]; left; auto]].
    split.
    - intros [[K _]|[_ K]]; [discriminate K|]. injection K as K <-. split; [|reflexivity]. intros _.
      destruct (replies w a _) as [out|out]; [|rewrite R in K; discriminate K]. destruct (list_eq_dec _ _ _) as [->|N]; [reflexivity|].
      exfalso. destruct R as [(v & R & Hv)|R]; rewrite R in K; [injection K as K; exact (Hv K)|discriminate K].
    - intros [K ->]. right. split; [reflexivity|]. specialize (K eq_refl). rewrite K in R |- *. destruct (list_eq_dec _ _ _) as [_|N]; [|contradiction].
      rewrite R. reflexivity.
  Qed.
  Definition can_move (s : Erc721.state) (c f t i : Z) : Prop := t <> 0 /\ own_of s i = f /\ Erc721._is_authorized f c i s = true.
  Lemma safely w c f t i d s : c <> 0 -> forall s',
    Erc721.safe_transfer_from_with_data (deployed w) (Erc721Example.answers (hook w c f t i d)) c f t i d s = (Ok tt, s') <->
    (can_move s c f t i /\ takes w c f t i d) /\ s' = upd t i s.
  Proof.
    intros Hc s'. unfold Erc721.safe_transfer_from_with_data, can_move. unfold bind. pose proof (fun s1 => Erc721_lemmas.transfer_from_ok c f t i s s1 Hc) as K.
    destruct (Erc721.transfer_from c f t i s) as [[[]|e|] s1].
    - destruct (proj1 (K s1) eq_refl) as (K1 & K2 & K3 & ->). rewrite taken. tauto.
    - split; [discriminate|]. intros (((K1 & K2 & K3) & _) & _). destruct (K (upd t i s)) as [_ X]. specialize (X (conj K1 (conj K2 (conj K3 eq_refl)))). discriminate X.
    - split; [discriminate|]. intros (((K1 & K2 & K3) & _) & _). destruct (K (upd t i s)) as [_ X]. specialize (X (conj K1 (conj K2 (conj K3 eq_refl)))). discriminate X.
  Qed.
  Lemma can_move_iff s c f t i : Good s -> is_address c -> c <> 0 -> is_address f -> is_u256 i ->
    can_move s c f t i <-> t <> 0 /\ owned call s i f /\ entitled call s c i.
  Proof.
    intros G Hc Hc0 Hf Hi. rewrite (owned_iff me tok lenient s i f G Hi Hf), (entitled_iff me tok lenient s c i G Hc Hc0 Hi). unfold can_move, may. split.
    - intros (H1 & H2 & H3). rewrite H2. split; [exact H1|]. split; [split; [reflexivity|]|split; [|exact H3]].
      all: intros E; unfold Erc721._is_authorized in H3; rewrite E in *; destruct G as (G & _); rewrite (Erc721_lemmas.inv_op0 s G), (Erc721_lemmas.inv_appr s G i H2) in H3;
        replace (0 =? c) with false in H3 by lia; cbn [orb] in H3; rewrite andb_false_r in H3; discriminate H3.
    - intros (H1 & (H2 & _) & (_ & H3)). rewrite H2 in H3. auto.
  Qed.
  Definition moved (s : Erc721.state) (t i : Z) (s' : Erc721.state) : Prop :=
    owned call s' i t /\ (forall j, is_u256 j -> j <> i -> forall o, is_address o -> owned call s' j o <-> owned call s j o).
  Lemma moved_upd s t i : Good s -> is_address t -> t <> 0 -> is_u256 i -> moved s t i (upd t i s).
  Proof.
    intros G Ht Ht0 Hi. pose proof (good_upd t i s Ht Hi G) as G'. split.
    - apply owned_iff; try assumption. rewrite Erc721_lemmas.owner_upd. destruct (decide (i = i)); [auto|contradiction].
    - intros j Hj N. apply same_owned; try assumption. rewrite Erc721_lemmas.owner_upd. destruct (decide (i = j)); [congruence|reflexivity].
  Qed.
End orders.
Theorem c105_wrapped_tokens :
  forall me tok lenient h w c f t id d b, sane h -> is_address c -> c <> 0 ->
  is_address f -> is_address t -> is_u256 id -> List.Forall is_byte d -> size d < 2 ^ 200 -> b = 0 \/ b = 1 ->
  let call := call_of me tok lenient in
  let s := after call h Erc721.init in
  let may_transfer := t <> 0 /\ owned call s id f /\ entitled call s c id in
  let moved s' := owned call s' id t /\ (forall j, is_u256 j -> j <> id -> forall o, is_address o -> owned call s' j o <-> owned call s j o) in
  tells call s "underlying()" [] tok /\
  outcome_is s (call w c 0 (calldata "transferFrom(address,address,uint256)" [Word f; Word t; Word id]) s) may_transfer moved /\
  outcome_is s (call w c 0 (calldata "safeTransferFrom(address,address,uint256)" [Word f; Word t; Word id]) s)
    (may_transfer /\ takes (w 0%nat) c f t id []) moved /\
  outcome_is s (call w c 0 (calldata "safeTransferFrom(address,address,uint256,bytes)" [Word f; Word t; Word id; Octets d]) s)
    (may_transfer /\ takes (w 0%nat) c f t id d) moved /\
  outcome_is s (call w c 0 (calldata "approve(address,uint256)" [Word t; Word id]) s)
    (exists o, is_address o /\ owned call s id o /\ (o = c \/ tells call s "isApprovedForAll(address,address)" [Word o; Word c] 1))
    (fun s' => tells call s' "getApproved(uint256)" [Word id] t) /\
  outcome_is s (call w c 0 (calldata "setApprovalForAll(address,bool)" [Word t; Word b]) s)
    (t <> 0) (fun s' => tells call s' "isApprovedForAll(address,address)" [Word c; Word t] b).
Proof.
  intros me tok lenient h w c f t i d b Hh Hc Hc0 Hf Ht Hi Hb Hd Hbool call s mt mv.
  pose proof (good_after me tok lenient h Hh _ good_init) as G. fold call in G. fold s in G. clearbody s. clear Hh h.
  pose proof (can_move_iff me tok lenient s c f t i G Hc Hc0 Hf Hi) as CM. fold call in CM. fold mt in CM.
  assert (MV : t <> 0 -> mv (upd t i s)) by (intros Ht0; exact (moved_upd me tok lenient s t i G Ht Ht0 Hi)).
  assert (T3 : List.Forall2 has_type [Address; Address; U256] [Word f; Word t; Word i]) by (repeat (apply List.Forall2_cons; [assumption|]); apply List.Forall2_nil).
  assert (V3 : List.Forall bytes_val [Word f; Word t; Word i]) by (repeat (apply List.Forall_cons; [exact I|]); apply List.Forall_nil).
  split.
  { intros w' c'. refine (eq_trans (call_request me tok lenient w' "underlying()"%string [] c' s "Erc721WrapperExample"%string (fn "underlying" [])
      ltac:(vm_compute; reflexivity) ltac:(vm_compute; reflexivity) (List.Forall2_nil _) (List.Forall_nil _) (small_data _ [] ltac:(reflexivity))) _).
    rewrite <- one_word. reflexivity. }
  split.
  { refine (done_order me tok lenient w (Erc721.transfer_from c f t i) (can_move s c f t i) mt mv s (upd t i s) _ _ _ CM (fun H => MV (proj1 H))).
    - exact (call_request me tok lenient w "transferFrom(address,address,uint256)"%string [Word f; Word t; Word i] c s "Erc721"%string (fn "transfer_from" [Address; Address; U256])
        ltac:(vm_compute; reflexivity) ltac:(vm_compute; reflexivity) T3 V3 (small_data _ [f; t; i] ltac:(reflexivity))).
    - intros s'. rewrite Erc721_lemmas.transfer_from_ok by exact Hc0. unfold can_move. tauto. }
  split.
  { refine (done_order me tok lenient w _ (can_move s c f t i /\ takes (w 0%nat) c f t i []) (mt /\ takes (w 0%nat) c f t i []) mv s (upd t i s) _ _ (safely (w 0%nat) c f t i [] s Hc0) _ (fun H => MV (proj1 (proj1 H)))); [|tauto].
    exact (call_request me tok lenient w "safeTransferFrom(address,address,uint256)"%string [Word f; Word t; Word i] c s "Erc721"%string (fn "safe_transfer_from" [Address; Address; U256])
        ltac:(vm_compute; reflexivity) ltac:(vm_compute; reflexivity) T3 V3 (small_data _ [f; t; i] ltac:(reflexivity))). }
  split.
  { refine (done_order me tok lenient w _ (can_move s c f t i /\ takes (w 0%nat) c f t i d) (mt /\ takes (w 0%nat) c f t i d) mv s (upd t i s) _ _ (safely (w 0%nat) c f t i d s Hc0) _ (fun H => MV (proj1 (proj1 H)))); [|tauto].
    refine (call_request me tok lenient w "safeTransferFrom(address,address,uint256,bytes)"%string [Word f; Word t; Word i; Octets d] c s "Erc721"%string (fn_as "safeTransferFrom" "safe_transfer_from_with_data" [Address; Address; U256; Bytes])
        ltac:(vm_compute; reflexivity) ltac:(vm_compute; reflexivity) _ _ _).
    - repeat (apply List.Forall2_cons; [first [assumption|apply EntryMeta_props.bytes_typed; assumption]|]). apply List.Forall2_nil.
    - repeat (apply List.Forall_cons; [first [exact I|exact Hb]|]). apply List.Forall_nil.
    - apply (EntryMeta_props.data_size _ [f; t; i] d); [reflexivity|]. apply (Z.lt_trans _ (2 ^ 200)); [exact Hd|reflexivity]. }
  split.
  { refine (done_order me tok lenient w (Erc721.approve c t i) _ _ _ s (Erc721_lemmas.appr_state t i s) _ _ (fun s' => Erc721_lemmas.approve_ok c t i s s' Hc0) _ _).
    - refine (call_request me tok lenient w "approve(address,uint256)"%string [Word t; Word i] c s "Erc721"%string (fn "approve" [Address; U256])
        ltac:(vm_compute; reflexivity) ltac:(vm_compute; reflexivity) _ _ (small_data _ [t; i] ltac:(reflexivity))).
      + repeat (apply List.Forall2_cons; [assumption|]). apply List.Forall2_nil.
      + repeat (apply List.Forall_cons; [exact I|]). apply List.Forall_nil.
    - split.
      + intros [H1 H2]. exists (own_of s i). split; [apply G|]. split; [apply (owned_iff me tok lenient s i _ G Hi); [apply G|auto]|].
        destruct H2 as [H2|H2]; [left; auto|right]. intros w' c'. unfold call. rewrite (ask_operator me tok lenient w' s c' _ c (proj1 (proj2 G) i) Hc), H2. reflexivity.
      + intros (o & Ho & H1 & H2). apply (owned_iff me tok lenient s i o G Hi Ho) in H1. destruct H1 as [E N]. rewrite E. split; [exact N|].
        destruct H2 as [H2|H2]; [left; auto|right]. specialize (H2 nowhere 0). unfold call in H2. rewrite (ask_operator me tok lenient nowhere s 0 o c Ho Hc) in H2.
        destruct (Erc721.is_approved_for_all o c s); [reflexivity|]. exfalso. assert (X : word 0 = word 1) by (cbn [of_bool] in H2; congruence).
        apply word_inj in X; [discriminate X|split; [lia|reflexivity]..].
    - intros [H1 _] w' c'. unfold call.
      assert (X : appr_of (Erc721_lemmas.appr_state t i s) i = t).
      { clear. unfold Erc721._get_approved, Erc721_lemmas.appr_state. cbn. rewrite mget_set. destruct (decide (i = i)); [reflexivity|contradiction]. }
      rewrite (ask_approved me tok lenient w' (Erc721_lemmas.appr_state t i s) c' i Hi H1), X. reflexivity. }
  refine (done_order me tok lenient w (Erc721.set_approval_for_all c t (negb (b =? 0))) _ _ _ s (Erc721_lemmas.all_state c t (negb (b =? 0)) s) _ _ (fun s' => Erc721_lemmas.set_all_ok c t _ s s') (iff_refl _) _).
  - refine (call_request me tok lenient w "setApprovalForAll(address,bool)"%string [Word t; Word b] c s "Erc721"%string (fn "set_approval_for_all" [Address; bool_])
      ltac:(vm_compute; reflexivity) ltac:(vm_compute; reflexivity) _ _ (small_data _ [t; b] ltac:(reflexivity))).
    + apply List.Forall2_cons; [exact Ht|]. apply List.Forall2_cons; [exact Hbool|]. apply List.Forall2_nil.
    + repeat (apply List.Forall_cons; [exact I|]). apply List.Forall_nil.
  - intros _ w' c'. unfold call. 
    assert (X : Erc721.is_approved_for_all c t (Erc721_lemmas.all_state c t (negb (b =? 0)) s) = negb (b =? 0)).
    { clear. unfold Erc721.is_approved_for_all, Erc721_lemmas.all_state, getd. cbn [Erc721.operator_approvals]. rewrite lookup_insert. reflexivity. }
    rewrite (ask_operator me tok lenient w' (Erc721_lemmas.all_state c t (negb (b =? 0)) s) c' c t Hc Ht), X. clear - Hbool. destruct Hbool as [-> | ->]; reflexivity.
Qed.
Print Assumptions c105_wrapped_tokens.

(** A deposit into the empty wrapper, where the collection hands over everything. *)
Lemma first_deposit me tok lenient w c a ids : batch_fits a ids -> List.NoDup ids -> a <> 0 ->
  (forall n i, handed_over lenient w me tok c a n i) ->
  fst (call_of me tok lenient w c 0 (deposit_data a ids) Erc721.init) = Returned (word 1) /\
  snd (call_of me tok lenient w c 0 (deposit_data a ids) Erc721.init) = all_upd a ids Erc721.init.
Proof.
  intros B N Ha H. destruct (deposit_call me tok lenient w c a ids Erc721.init B) as (H1 & H2 & _). cbn beta.
  assert (E : fst (entry (ExampleWrapper721 me tok lenient w) c 0 (deposit_data a ids) Erc721.init) = Returned (word 1)).
  { apply H1. split; [exact N|]. split; [auto|]. split; [|auto]. destruct B as (_ & B & _). rewrite List.Forall_forall in B.
    intros i Hi. apply free_iff; [auto|]. unfold Erc721._owner_of. cbn. apply mget_empty. }
  split; [exact E|exact (H2 E)].
Qed.
Lemma deposit_nowhere me tok lenient w c a ids : batch_fits a ids -> List.NoDup ids -> a <> 0 ->
  (forall n b, deployed (w n) b = false) ->
  fst (call_of me tok lenient w c 0 (deposit_data a ids) Erc721.init) = Returned (word 1) /\
  forall i, In i ids -> owned (call_of me tok lenient) (snd (call_of me tok lenient w c 0 (deposit_data a ids) Erc721.init)) i a.
Proof.
  intros B N Ha H. destruct (first_deposit me tok lenient w c a ids B N Ha) as [H1 H2].
  { intros n i. unfold handed_over, answered, receives. rewrite !H. split; [exact I|discriminate]. }
  split; [exact H1|]. intros i Hi. rewrite H2. destruct B as (B1 & B2 & _).
  apply owned_iff; [apply good_all_upd; [exact B1|exact B2|apply good_init]|rewrite List.Forall_forall in B2; auto|exact B1|].
  rewrite owner_all_upd. destruct (in_dec Z.eq_dec i ids) as [_|X]; [split; [reflexivity|exact Ha]|contradiction].
Qed.

(** "[Error::Erc721FailedOperation] - If the underlying token is not an ERC-721 contract"
    (wrapper.rs:95-96): at an address without code the transfer goes through, and the wrapper
    hands out tokens with nothing behind them. *)
Lemma small_batch : batch_fits 4 [5; 6] /\ List.NoDup [5; 6].
Proof.
  split; [|repeat constructor; cbn; intuition discriminate].
  split; [split; [lia|reflexivity]|]. split; [|reflexivity]. repeat (apply List.Forall_cons; [split; [lia|reflexivity]|]). apply List.Forall_nil.
Qed.
Theorem c105_not_a_collection_refuted :
  exists me tok w c account ids, (forall n, deployed (w n) tok = false) /\ ids <> [] /\ forall lenient,
  fst (call_of me tok lenient w c 0 (deposit_data account ids) Erc721.init) = Returned (word 1) /\
  forall id, In id ids -> owned (call_of me tok lenient) (snd (call_of me tok lenient w c 0 (deposit_data account ids) Erc721.init)) id account.
Proof.
  exists 1, 2, nowhere, 3, 4, [5; 6]. split; [reflexivity|]. split; [discriminate|]. intros lenient.
  exact (deposit_nowhere 1 2 lenient nowhere 3 4 [5; 6] (proj1 small_batch) (proj2 small_batch) ltac:(discriminate) (fun _ _ => eq_refl)).
Qed.
Print Assumptions c105_not_a_collection_refuted.

(** The question that a collection asks by the standard before it transfers safely to a contract
    is not among the functions: whoever asks gets a revert without data. *)
Theorem c105_standard_hook :
  forall me tok lenient w c v op from id d s, List.Forall is_byte d -> size d < 2 ^ 200 ->
  call_of me tok lenient w c v (question op from id d) s = (Reverted [], s).
Proof.
  intros me tok lenient w c v op f i d s Hb Hsz.
  assert (B : List.Forall is_byte (question op f i d)).
  { unfold question, calldata. apply List.Forall_app. split; [apply be_bytes_byte|]. apply abi_params_bytes. repeat (apply List.Forall_cons; [first [exact I|exact Hb]|]). apply List.Forall_nil. }
  assert (Sz : size (question op f i d) < two256).
  { apply (EntryMeta_props.data_size _ [op; f; i] d); [reflexivity|]. apply (Z.lt_trans _ (2 ^ 200)); [exact Hsz|reflexivity]. }
  destruct (entry_cases (ExampleWrapper721 me tok lenient w) c v (question op f i d) s (known_w me tok lenient w) B Sz)
    as [K|(t & g & args & Hin & _ & _ & Hd & _)]; [exact K|exfalso].
  clear B Sz Hb Hsz. rewrite exposed_w_ok in Hin. unfold question, calldata in Hd.
  apply app_eq_len in Hd; [|rewrite !be_bytes_length; reflexivity]. destruct Hd as [Hd _].
  assert (K : forallb (fun p => (if list_eq_dec BinInt.Z.eq_dec (be_bytes 4 (k "onERC721Received(address,address,uint256,bytes)")) (be_bytes 4 (k (fn_sig (snd p)))) then false else true) && in_known (fn_sig (snd p))) exposed_w = true) by (vm_compute; reflexivity).
  rewrite forallb_forall in K. specialize (K _ Hin). cbn [snd] in K. apply andb_true_iff in K. destruct K as [K1 K2].
  rewrite (k_ok _ K2), (k_ok "onERC721Received(address,address,uint256,bytes)" ltac:(vm_compute; reflexivity)) in Hd. destruct (list_eq_dec _ _ _) as [_|N] in K1; [discriminate K1|exact (N Hd)].
Qed.
Print Assumptions c105_standard_hook.

(** Nothing else: other bytes, and calls with value, revert. *)
Theorem c105_nothing_else :
  forall me tok lenient w c v d s, List.Forall is_byte d -> size d < two256 ->
  let call := call_of me tok lenient in
  (~ proper v d -> call w c v d s = (Reverted [], s)) /\ (forall out s', call w c v d s = (Returned out, s') -> proper v d).
Proof.
  intros me tok lenient w c v d s Hb Hsz call.
  assert (P : call w c v d s = (Reverted [], s) \/ proper v d).
  { destruct (entry_cases (ExampleWrapper721 me tok lenient w) c v d s (known_w me tok lenient w) Hb Hsz)
      as [K|(t & f & args & Hin & Hv & Ht & Hd & _)]; [left; exact K|right].
    split; [exact Hv|]. exists (fn_sig f), (arg_types f), args.
    split; [|split; assumption]. rewrite exposed_w_ok in Hin. clear - Hin.
    assert (K : forallb (fun p => if in_dec same_entry (fn_sig (snd p), arg_types (snd p)) wrapper721_interface then true else false) exposed_w = true)
      by (vm_compute; reflexivity).
    rewrite forallb_forall in K. specialize (K _ Hin). cbn [snd] in K. destruct (in_dec _ _ _) as [H|]; [exact H|discriminate]. }
  split; [destruct P; tauto|]. intros out s' E. destruct P as [P|P]; [congruence|exact P].
Qed.
Print Assumptions c105_nothing_else.

(** ** The hypotheses hold *)
Definition shop : nat -> world := fun _ => mkWorld (fun a => a =? 2) (fun _ _ => Returned []).
Lemma call_bytes sig a ids : List.Forall is_byte (calldata sig [Word a; Words ids]).
Proof.
  unfold calldata. apply List.Forall_app. split; [apply be_bytes_byte|]. apply abi_params_bytes. apply List.Forall_cons; [exact I|]. apply List.Forall_cons; [exact I|apply List.Forall_nil].
Qed.
Example c105_nonvacuous :
  let h := [(shop, (3, 0, deposit_data 4 [5; 6])); (shop, (4, 0, withdraw_data 9 [6]))] in
  let call := call_of 1 2 false in
  let s := after call h Erc721.init in
  sane h /\ owned call s 5 4 /\ free call s 6 /\ entitled call s 4 5 /\ handed_back false shop 1 2 9 0 5.
Proof.
  intros h call s.
  assert (Hh : sane h).
  { unfold sane, h. apply List.Forall_cons; [|apply List.Forall_cons; [|apply List.Forall_nil]]; cbn [snd].
    all: split; [split; [lia|reflexivity]|]; split; [lia|].
    all: split; [apply call_bytes|apply batch_size; reflexivity]. }
  assert (U : forall i, i = 5 \/ i = 6 -> is_u256 i) by (intros i [->| ->]; (split; [lia|reflexivity])).
  assert (A4 : is_address 4) by (split; [lia|reflexivity]).
  assert (G1 : Good (all_upd 4 [5; 6] Erc721.init)).
  { apply good_all_upd; [exact A4| |apply good_init]. apply List.Forall_cons; [auto|]. apply List.Forall_cons; [auto|apply List.Forall_nil]. }
  assert (S1 : snd (call shop 3 0 (deposit_data 4 [5; 6]) Erc721.init) = all_upd 4 [5; 6] Erc721.init).
  { refine (proj2 (first_deposit 1 2 false shop 3 4 [5; 6] (proj1 small_batch) (proj2 small_batch) ltac:(discriminate) _)).
    intros n i. split; [exact I|discriminate]. }
  assert (S2 : s = all_upd 0 [6] (all_upd 4 [5; 6] Erc721.init)).
  { unfold s, after, h. cbn [fold_left fst snd]. rewrite S1.
    assert (B : batch_fits 9 [6]) by (split; [split; [lia|reflexivity]|]; split; [apply List.Forall_cons; [auto|apply List.Forall_nil]|reflexivity]).
    destruct (withdraw_call 1 2 false shop 4 9 [6] _ G1 A4 ltac:(discriminate) B) as (H1 & H2 & _). apply H2, H1.
    split; [apply List.NoDup_cons; [intros []|apply List.NoDup_nil]|]. split.
    - intros i [<-|[]]. apply entitled_iff; [exact G1|exact A4|discriminate|auto|]. unfold may. rewrite owner_all_upd. cbn. split; [discriminate|reflexivity].
    - intros n i _. exact I. }
  assert (G2 : Good s) by (rewrite S2; apply good_all_upd; [apply zero_address|apply List.Forall_cons; [auto|apply List.Forall_nil]|exact G1]).
  assert (O : forall i, own_of s i = if in_dec Z.eq_dec i [6] then 0 else if in_dec Z.eq_dec i [5; 6] then 4 else own_of Erc721.init i) by (intros i; rewrite S2, !owner_all_upd; reflexivity).
  clear S1 S2 G1. clearbody s. split; [exact Hh|].
  split; [apply owned_iff; [exact G2|auto|exact A4|]; rewrite O; cbn; split; [reflexivity|discriminate]|].
  split; [apply free_iff; [auto|]; rewrite O; reflexivity|].
  split; [|exact I]. apply entitled_iff; [exact G2|exact A4|discriminate|auto|]. unfold may, Erc721._is_authorized. rewrite O. cbn. split; [discriminate|reflexivity].
Qed.
