From Verif.Base Require Import Prelude Bytes Keccak Maps.
From stdpp Require Import gmap.
From Coq Require Import String List Permutation.
From Verif.Model Require Import Introspection Router Entry EntryErc721.
From Verif.Model Require SolAbi Erc721 Enumerable Pausable Erc721Example.
From Verif.Spec Require Import Router_spec SolAbi_spec LogMeaning_spec Entry_spec.
From Verif.Spec Require EntryNft_spec.
From Verif.Proofs Require Import Router_lemmas Entry_lemmas.
From Verif.Proofs Require SolAbi_lemmas Erc721_lemmas Enumerable_lemmas.
Import SolAbi.
Import EntryNft_spec.
#[global] Open Scope Z_scope.
Local Open Scope list_scope.
Local Open Scope Z_scope.
Opaque keccak256.

(** ** Encodings with dynamic values *)
Definition bytes_val (a : val) : Prop := match a with Octets l => List.Forall is_byte l | _ => True end.
Lemma words_bytes l : List.Forall is_byte (flat_map word l).
Proof. induction l as [|x l IH]; [constructor|]. cbn [flat_map]. apply List.Forall_app. split; [apply be_bytes_byte|exact IH]. Qed.
Lemma tail_bytes a : bytes_val a -> List.Forall is_byte (tail_of a).
Proof.
  destruct a as [v|l|l]; cbn [tail_of bytes_val]; intros H; [constructor|..]; apply List.Forall_app; (split; [apply be_bytes_byte|]).
  - apply words_bytes.
  - apply List.Forall_app. split; [exact H|]. generalize ((32 - length l mod 32) mod 32)%nat. intros n.
    induction n; cbn [repeat]; constructor; [unfold is_byte; lia|assumption].
Qed.
Lemma heads_bytes l : forall off, List.Forall is_byte (heads off l).
Proof.
  induction l as [|a l IH]; intros off; [constructor|]. destruct a; cbn [heads]; apply List.Forall_app; (split; [apply be_bytes_byte|apply IH]).
Qed.
Lemma abi_params_bytes l : List.Forall bytes_val l -> List.Forall is_byte (abi_params l).
Proof.
  intros H. unfold abi_params. apply List.Forall_app. split; [apply heads_bytes|].
  induction H as [|a l Ha _ IH]; [constructor|]. cbn [flat_map]. apply List.Forall_app. split; [apply tail_bytes, Ha|exact IH].
Qed.
Lemma octets_tail_size d : size (tail_of (Octets d)) <= size d + 63.
Proof.
  cbn [tail_of]. rewrite !size_app, size_word. unfold size at 2. rewrite repeat_length.
  pose proof (Nat.mod_upper_bound (32 - length d mod 32) 32 ltac:(discriminate)). lia.
Qed.
Lemma octets_tail_size_ge d : size d <= size (tail_of (Octets d)).
Proof. cbn [tail_of]. rewrite !size_app, size_word. pose proof (size_nonneg (repeat 0 ((32 - length d mod 32) mod 32))). lia. Qed.
Lemma abi_params_size l : size (abi_params l) = 32 * count l + size (flat_map tail_of l).
Proof. unfold abi_params. rewrite size_app, heads_size. reflexivity. Qed.
Lemma words_then_octets_size ws d : size (abi_params (map Word ws ++ [Octets d])) = 32 * (size ws + 1) + size (tail_of (Octets d)).
Proof.
  rewrite abi_params_size. unfold count. rewrite app_length, map_length, Nat2Z.inj_add. fold (size ws).
  change (Z.of_nat (length [Octets d])) with 1. f_equal. rewrite flat_map_app, size_app.
  assert (E : forall ws, flat_map tail_of (map Word ws) = []) by (intros l; induction l; [reflexivity|cbn; assumption]).
  rewrite E. cbn [flat_map]. rewrite app_nil_r. reflexivity.
Qed.

(** ** The register *)
Lemma owner_in_without l id j : owner_in (without l id) j = if j =? id then 0 else owner_in l j.
Proof.
  induction l as [|[i o] l IH]; cbn [without filter owner_in fst].
  - destruct (j =? id); reflexivity.
  - fold (without l id). destruct (i =? id) eqn:E; cbn [negb].
    + rewrite IH. destruct (j =? id) eqn:E2; [reflexivity|]. replace (i =? j) with false by lia. reflexivity.
    + cbn [owner_in]. rewrite IH. destruct (i =? j) eqn:E3; [|reflexivity]. replace (j =? id) with false by lia. reflexivity.
Qed.
Lemma owner_in_0 l id : List.Forall (fun p : Z * Z => snd p <> 0) l -> owner_in l id = 0 <-> ~ In id (map fst l).
Proof.
  induction 1 as [|[i o] l Ho Hl IH]; cbn [owner_in map fst In snd] in *; [tauto|].
  destruct (i =? id) eqn:E.
  - split; [contradiction|]. intros H. exfalso. apply H. left. lia.
  - rewrite IH. split; [|tauto]. intros H [H1|H1]; [lia|contradiction].
Qed.
Lemma owner_in_In l id : owner_in l id <> 0 -> In (id, owner_in l id) l.
Proof.
  induction l as [|[i o] l IH]; cbn [owner_in]; [congruence|]. destruct (i =? id) eqn:E; [|right; auto].
  intros _. left. f_equal. lia.
Qed.
Lemma without_ids l id j : In j (map fst (without l id)) <-> In j (map fst l) /\ j <> id.
Proof.
  unfold without. rewrite !in_map_iff. split.
  - intros (p & <- & H). apply filter_In in H. destruct H as [H1 H2]. split; [exists p; auto|]. lia.
  - intros ((p & <- & H) & Hn). exists p. split; [reflexivity|]. apply filter_In. split; [exact H|]. lia.
Qed.
Lemma without_NoDup l id : List.NoDup (map fst l) -> List.NoDup (map fst (without l id)).
Proof.
  induction l as [|[i o] l IH]; cbn [without filter map fst]; [auto|]. fold (without l id). intros H. inversion H as [|? ? H1 H2]; subst.
  destruct (negb (i =? id)); [|auto]. cbn [map fst]. constructor; [|auto]. rewrite without_ids. tauto.
Qed.
Lemma without_absent l id : ~ In id (map fst l) -> without l id = l.
Proof.
  induction l as [|[i o] l IH]; cbn [without filter map fst In]; [reflexivity|]. fold (without l id). intros H.
  destruct (i =? id) eqn:E; [exfalso; apply H; left; lia|]. cbn [negb]. rewrite IH by tauto. reflexivity.
Qed.
Lemma holding_without l id a : List.NoDup (map fst l) -> a <> 0 ->
  holding (without l id) a = holding l a - (if owner_in l id =? a then 1 else 0).
Proof.
  intros H Ha. induction l as [|[i o] l IH]; cbn [without filter map fst holding owner_in] in *; [replace (0 =? a) with false by lia; reflexivity|].
  fold (without l id). inversion H as [|? ? H1 H2]; subst. destruct (i =? id) eqn:E; cbn [negb].
  - rewrite without_absent; [lia|]. replace id with i by lia. exact H1.
  - cbn [holding]. rewrite IH by exact H2. lia.
Qed.
Lemma without_length l id : List.NoDup (map fst l) -> List.Forall (fun p : Z * Z => snd p <> 0) l ->
  Z.of_nat (length (without l id)) = Z.of_nat (length l) - (if owner_in l id =? 0 then 0 else 1).
Proof.
  intros H Hz. induction Hz as [|[i o] l Ho Hz IH]; cbn [without filter map fst length owner_in snd] in *; [reflexivity|].
  fold (without l id). inversion H as [|? ? H1 H2]; subst. destruct (i =? id) eqn:E; cbn [negb].
  - replace id with i in * by lia. rewrite without_absent by exact H1. replace (o =? 0) with false by lia. lia.
  - cbn [length]. rewrite !Nat2Z.inj_succ, IH by exact H2. lia.
Qed.
Lemma holding_range l a : 0 <= holding l a <= Z.of_nat (length l).
Proof. induction l as [|[i o] l IH]; cbn [holding length]; [lia|]. rewrite Nat2Z.inj_succ. destruct (o =? a); lia. Qed.
Lemma without_Forall (P : Z * Z -> Prop) l id : List.Forall P l -> List.Forall P (without l id).
Proof. intros H. rewrite List.Forall_forall in *. intros p Hp. apply filter_In in Hp. apply H, Hp. Qed.

Lemma given_fits b id to : register_fits b -> is_u256 id -> is_address to -> to <> 0 ->
  Z.of_nat (length (r_tokens b)) + 1 < two256 -> register_fits (given b id to).
Proof.
  intros (H1 & H2 & H3 & H4) Hid Ht Ht0 Hn. split; [|split; [|split]]; cbn [given r_tokens r_approved].
  - cbn [map fst]. constructor; [|apply without_NoDup, H1]. rewrite without_ids. tauto.
  - constructor; [auto|apply without_Forall, H2].
  - cbn [length]. assert (Z.of_nat (length (without (r_tokens b) id)) <= Z.of_nat (length (r_tokens b))); [|lia].
    unfold without. clear. induction (r_tokens b) as [|p l IH]; cbn [filter length]; [lia|]. destruct (negb _); cbn [length]; lia.
  - intros j. unfold at_key. destruct (j =? id); [split; [lia|reflexivity]|apply H4].
Qed.
Lemma destroyed_fits b id : register_fits b -> register_fits (destroyed b id).
Proof.
  intros (H1 & H2 & H3 & H4). split; [|split; [|split]]; cbn [destroyed r_tokens r_approved].
  - apply without_NoDup, H1.
  - apply without_Forall, H2.
  - assert (Z.of_nat (length (without (r_tokens b) id)) <= Z.of_nat (length (r_tokens b))); [|lia].
    unfold without. clear. induction (r_tokens b) as [|p l IH]; cbn [filter length]; [lia|]. destruct (negb _); cbn [length]; lia.
  - intros j. unfold at_key. destruct (j =? id); [split; [lia|reflexivity]|apply H4].
Qed.

(** ** The receiver's answer *)
Lemma hook_data_question c f id d : hook_data c f id d = question c f id d.
Proof.
  unfold hook_data, question, calldata, function_selector, sig_selector.
  replace (signature "onERC721Received" [Address; Address; U256; Bytes]) with "onERC721Received(address,address,uint256,bytes)"%string
    by (vm_compute; reflexivity). reflexivity.
Qed.
Lemma one_word x : abi_params [Word x] = word x.
Proof. change (abi_params [Word x]) with (word x ++ [] ++ []). rewrite !app_nil_r. reflexivity. Qed.
Lemma decode_bytes4 d :
  match decode_params [FixedBytes4] d with
  | Some [Word v] => exists x, 0 <= x < 2 ^ 32 /\ v = x * 2 ^ 224 /\ d = word v
  | _ => forall x, 0 <= x < 2 ^ 32 -> d <> word (x * 2 ^ 224)
  end.
Proof.
  assert (Hw : forall x, 0 <= x < 2 ^ 32 -> decode_params [FixedBytes4] (word (x * 2 ^ 224)) = Some [Word (x * 2 ^ 224)]).
  { intros x Hx. apply decode_params_iff; [apply be_bytes_byte|rewrite size_word; reflexivity|]. split; [|symmetry; apply one_word].
    constructor; [|constructor]. cbn [has_type word_of_type]. exists x. auto. }
  destruct (decode_params [FixedBytes4] d) as [l|] eqn:E.
  - assert (Hd : d = abi_params l).
    { revert E. unfold decode_params. destruct (read_params _ d 0) as [l'|]; [|discriminate].
      destruct (type_checks _ l'); [|discriminate]. cbn [andb]. destruct (List.list_eq_dec BinInt.Z.eq_dec (abi_params l') d) as [E|]; [|intros K; discriminate K].
      intros [= <-]. symmetry. exact E. }
    assert (Hl : length l = 1%nat).
    { revert E. unfold decode_params. destruct (read_params _ d 0) as [l'|]; [|discriminate].
      destruct (type_checks [FixedBytes4] l') eqn:Et; [|discriminate]. cbn [andb].
      destruct (List.list_eq_dec BinInt.Z.eq_dec (abi_params l') d); [|intros K; discriminate K].
      intros [= <-]. destruct l' as [|a [|a' l']]; cbn [type_checks] in Et; try discriminate; [reflexivity|].
      rewrite andb_false_r in Et. discriminate. }
    destruct l as [|a [|a' l]]; try discriminate Hl. destruct a as [v|ws|o].
    + rewrite one_word in Hd. assert (Hb : List.Forall is_byte d) by (rewrite Hd; apply be_bytes_byte).
      assert (Hs : size d < two256) by (rewrite Hd, size_word; reflexivity).
      apply (proj1 (decode_params_iff _ _ _ Hb Hs)) in E. destruct E as [E _]. inversion E as [|? ? ? ? Hv _]; subst.
      cbn [has_type word_of_type] in Hv. destruct Hv as (x & Hx & ->). exists x. auto.
    + intros x Hx Ed. rewrite Ed, (Hw x Hx) in E. discriminate.
    + intros x Hx Ed. rewrite Ed, (Hw x Hx) in E. discriminate.
  - intros x Hx Ed. rewrite Ed, (Hw x Hx) in E. discriminate.
Qed.
(** The check of the code is the one of the register. *)
Definition refused (e : Erc721.error) : refusal :=
  match reason_erc721 e with Some r => Because r | None => Quoting (revert_erc721 e) end.
Lemma reply_cases (a : answer) :
  match a with
  | Returned out => if list_eq_dec BinInt.Z.eq_dec out consent then reply_of a = Erc721.Returned 0x150b7a02
                    else (exists v, reply_of a = Erc721.Returned v /\ v <> 0x150b7a02) \/ reply_of a = Erc721.Failed []
  | Reverted d => reply_of a = Erc721.Failed d
  end.
Proof.
  destruct a as [d|d]; [|reflexivity]. cbn [reply_of]. pose proof (decode_bytes4 d) as H.
  destruct (list_eq_dec BinInt.Z.eq_dec d consent) as [E|E].
  - assert (Hn : 0 <= 0x150b7a02 < 2 ^ 32) by lia.
    destruct (decode_params [FixedBytes4] d) as [[|[v|ws|o] [|a l]]|]; try (exfalso; apply (H _ Hn E)).
    destruct H as (x & Hx & -> & Hd). rewrite Z.div_mul by discriminate.
    f_equal. unfold consent in E. rewrite Hd in E. apply word_inj in E.
    + apply Z.mul_cancel_r in E; [exact E|discriminate].
    + split; [lia|]. change two256 with (2 ^ 32 * 2 ^ 224). apply Z.mul_lt_mono_pos_r; lia.
    + split; [lia|reflexivity].
  - destruct (decode_params [FixedBytes4] d) as [[|[v|ws|o] [|a l]]|]; auto.
    destruct H as (x & Hx & -> & Hd). left. rewrite Z.div_mul by discriminate. exists x. split; [reflexivity|].
    intros ->. apply E. exact Hd.
Qed.
Lemma asking_code w c f t id d (s : Erc721.state) :
  Erc721._check_on_erc721_received (deployed w) (Erc721Example.answers (hook w c f t id d)) c f t id d s =
  match judge (asking w c f t id d) new_register with
  | Granted _ => (Ok tt, s)
  | Denied (Because _) => (Err (Erc721.InvalidReceiver t), s)
  | Denied (Quoting x) => (Err (Erc721.InvalidReceiverWithReason x), s)
  end.
Proof.
  unfold Erc721._check_on_erc721_received, asking, Erc721Example.answers, hook. destruct (deployed w t); cbn [negb]; [|reflexivity].
  rewrite hook_data_question. mred. pose proof (reply_cases (replies w t (question c f id d))) as H.
  destruct (replies w t (question c f id d)) as [out|[|x out]].
  - destruct (list_eq_dec BinInt.Z.eq_dec out consent) as [E|E].
    + rewrite H. reflexivity.
    + destruct H as [(v & -> & Hv)| ->]; [|reflexivity]. cbn [judge]. unfold Erc721.RECEIVER_FN_SELECTOR.
      replace (v =? 0x150b7a02) with false by lia. reflexivity.
  - rewrite H. reflexivity.
  - rewrite H. reflexivity.
Qed.

(** ** States that calls lead to *)
Import Enumerable_lemmas (own_of, bal_of, AP, mkAP, ap_slot, ap_tok, AP_same, AP_add, AP_remove, remove_owner_eq, add_owner_eq, eta).
Import Erc721_lemmas (upd_state, appr_state, all_state, update_eq, owner_upd, approved_upd, balances_upd, balances_upd_range).
Notation approved_of s id := (Erc721._get_approved id (Erc721Example.erc721 s)).
Notation operator_of s o p := (Erc721.is_approved_for_all o p (Erc721Example.erc721 s)).
Notation all_of s := (Enumerable.all_tokens (Erc721Example.enumerable s)).
Notation index_of s := (Enumerable.all_tokens_index (Erc721Example.enumerable s)).
Notation paused_of s := (Pausable.paused (Erc721Example.pausable s)).
Record Good (n : Z) (s : Erc721Example.state) : Prop := mkGood {
  g_ids : forall id, own_of s id <> 0 -> is_u256 id /\ is_address (own_of s id);
  g_bal : forall a, is_u256 (bal_of s a);
  g_ap : AP (own_of s) (all_of s) (index_of s);
  g_appr : forall id, own_of s id = 0 -> approved_of s id = 0;
  g_appr_addr : forall id, is_address (approved_of s id);
  g_op0 : forall p, operator_of s 0 p = false;
  g_len : Z.of_nat (length (all_of s)) <= n
}.
Record agree (s : Erc721Example.state) (b : register) : Prop := mkAgree {
  a_own : forall id, owner_in (r_tokens b) id = own_of s id;
  a_bal : forall a, is_address a -> a <> 0 -> holding (r_tokens b) a = bal_of s a;
  a_appr : forall id, own_of s id <> 0 -> r_approved b id = approved_of s id;
  a_op : forall o p, is_address o -> is_address p -> r_operator b o p = operator_of s o p;
  a_paused : r_paused b = paused_of s
}.
Lemma addr0 : is_address 0. Proof. split; [lia|reflexivity]. Qed.
Lemma addr_u256 a : is_address a -> is_u256 a.
Proof. unfold is_address, is_u256, two256. lia. Qed.
Lemma good_init : Good 0 Erc721Example.init.
Proof.
  split; unfold own_of, bal_of, Erc721._owner_of, Erc721._get_approved, Erc721.is_approved_for_all; cbn;
    intros; rewrite ?mget_empty, ?getd_empty in *; try reflexivity; try lia.
  - split; [lia|reflexivity].
  - split; intros *; rewrite ?mget_empty; [destruct i; discriminate|congruence].
  - exact addr0.
Qed.
Lemma agree_init : agree Erc721Example.init new_register.
Proof.
  split; unfold own_of, bal_of, Erc721._owner_of, Erc721._get_approved, Erc721.is_approved_for_all; cbn;
    intros; rewrite ?mget_empty, ?getd_empty in *; reflexivity.
Qed.
Lemma new_fits : register_fits new_register.
Proof. split; [constructor|]. split; [constructor|]. split; [reflexivity|]. intros id. split; [cbn; lia|reflexivity]. Qed.
Lemma tokens_nonzero b : register_fits b -> List.Forall (fun p : Z * Z => snd p <> 0) (r_tokens b).
Proof. intros (_ & H & _). rewrite List.Forall_forall in *. intros p Hp. apply H, Hp. Qed.
Lemma all_NoDup own l ix : AP own l ix -> List.NoDup l.
Proof.
  intros [H1 _]. apply NoDup_nth_error. intros i j Hi E. destruct (nth_error l i) as [x|] eqn:Ei.
  - destruct (H1 i x Ei) as [_ K1]. symmetry in E. destruct (H1 j x E) as [_ K2]. lia.
  - apply nth_error_None in Ei. lia.
Qed.
Lemma all_In own l ix id : AP own l ix -> In id l <-> own id <> 0.
Proof.
  intros [H1 H2]. split.
  - intros H. apply In_nth_error in H. destruct H as [i H]. apply (H1 i id H).
  - intros H. destruct (H2 id H) as (i & _ & K). eapply nth_error_In, K.
Qed.
Lemma listing n s b : Good n s -> register_fits b -> agree s b -> Permutation (all_of s) (map fst (r_tokens b)).
Proof.
  intros G F A. apply NoDup_Permutation; [eapply all_NoDup, (g_ap _ _ G)|apply F|].
  intros id. rewrite (all_In _ _ _ id (g_ap _ _ G)), <- (a_own _ _ A id), (owner_in_0 _ id (tokens_nonzero b F)).
  destruct (in_dec BinInt.Z.eq_dec id (map fst (r_tokens b))); tauto.
Qed.
Lemma listing_length n s b : Good n s -> register_fits b -> agree s b ->
  Z.of_nat (length (r_tokens b)) = Z.of_nat (length (all_of s)).
Proof. intros G F A. rewrite (Permutation_length (listing n s b G F A)), map_length. reflexivity. Qed.

(** A token changes hands or is destroyed. *)
Lemma upd_agree n s b to id x p : Good n s -> n + 1 < two256 -> register_fits b -> agree s b -> is_u256 id -> is_address to ->
  p = Erc721Example.pausable s ->
  agree (Erc721Example.mk (upd_state to id (Erc721Example.erc721 s)) x p) (if to =? 0 then destroyed b id else given b id to) /\
  register_fits (if to =? 0 then destroyed b id else given b id to).
Proof.
  intros G Hn F A Hid Ht ->. pose proof (listing_length n s b G F A) as L. pose proof (g_len _ _ G) as Ln.
  assert (F' : register_fits (if to =? 0 then destroyed b id else given b id to)).
  { destruct (to =? 0) eqn:E; [apply destroyed_fits, F|apply given_fits; auto; lia]. }
  split; [|exact F']. split; cbn [Erc721Example.erc721 Erc721Example.pausable].
  - intros j. unfold own_of. cbn [Erc721Example.erc721]. rewrite owner_upd. fold (own_of s j). rewrite <- (a_own _ _ A j).
    destruct (to =? 0) eqn:E; cbn [destroyed given r_tokens owner_in]; rewrite owner_in_without.
    + destruct (decide (id = j)) as [->|N]; [rewrite Z.eqb_refl; lia|]. replace (j =? id) with false by lia. reflexivity.
    + destruct (decide (id = j)) as [->|N]; [rewrite Z.eqb_refl; reflexivity|]. replace (id =? j) with false by lia.
      replace (j =? id) with false by lia. reflexivity.
  - intros a Ha Ha0. unfold bal_of. cbn [Erc721Example.erc721].
    pose proof (balances_upd_range to id (Erc721Example.erc721 s) a (g_bal _ _ G a)) as R.
    rewrite <- (Z.mod_small _ _ R), balances_upd by exact Ha0. fold (bal_of s a). fold (own_of s id).
    rewrite <- (a_bal _ _ A a Ha Ha0), <- (a_own _ _ A id).
    pose proof (holding_without (r_tokens b) id a (proj1 F) Ha0) as Hw.
    set (L' := r_tokens (if to =? 0 then destroyed b id else given b id to)).
    assert (E : holding L' a = holding (r_tokens b) a - (if owner_in (r_tokens b) id =? a then 1 else 0) + (if to =? a then 1 else 0)).
    { unfold L'. destruct (to =? 0) eqn:E; cbn [destroyed given r_tokens holding]; rewrite Hw; [|lia]. replace (to =? a) with false by lia. lia. }
    rewrite <- E. symmetry. apply Z.mod_small. pose proof (holding_range L' a). destruct F' as (_ & _ & F3 & _). fold L' in F3. lia.
  - intros j Hj. unfold own_of in Hj. cbn [Erc721Example.erc721] in Hj. rewrite owner_upd in Hj.
    rewrite approved_upd by apply (g_appr _ _ G). destruct (to =? 0) eqn:E; cbn [destroyed given r_approved]; unfold at_key;
      (destruct (decide (id = j)) as [->|N]; [rewrite Z.eqb_refl; reflexivity|]); replace (j =? id) with false by lia;
      apply (a_appr _ _ A j); exact Hj.
  - intros o q Ho Hq. replace (r_operator (if to =? 0 then destroyed b id else given b id to) o q) with (r_operator b o q)
      by (destruct (to =? 0); reflexivity). apply (a_op _ _ A o q Ho Hq).
  - rewrite <- (a_paused _ _ A). destruct (to =? 0); reflexivity.
Qed.
Lemma upd_good n s to id x p : Good n s -> is_u256 id -> is_address to ->
  AP (fun j => if decide (id = j) then to else own_of s j) (Enumerable.all_tokens x) (Enumerable.all_tokens_index x) ->
  Z.of_nat (length (Enumerable.all_tokens x)) <= n + 1 ->
  Good (n + 1) (Erc721Example.mk (upd_state to id (Erc721Example.erc721 s)) x p).
Proof.
  intros G Hid Ht HA HL.
  assert (Ow : forall j, own_of (Erc721Example.mk (upd_state to id (Erc721Example.erc721 s)) x p) j = if decide (id = j) then to else own_of s j).
  { intros j. unfold own_of; cbn [Erc721Example.erc721]. apply owner_upd. }
  split; cbn [Erc721Example.erc721 Erc721Example.enumerable].
  - intros j. rewrite Ow. destruct (decide (id = j)) as [<-|N]; [auto|apply (g_ids _ _ G)].
  - intros a. unfold bal_of. cbn [Erc721Example.erc721]. apply balances_upd_range, (g_bal _ _ G).
  - destruct HA as [H1 H2]. split; [intros i j Hi; rewrite Ow; apply (H1 i j Hi)|intros j Hj; rewrite Ow in Hj; apply (H2 j Hj)].
  - intros j. rewrite Ow, approved_upd by apply (g_appr _ _ G). destruct (decide (id = j)); [reflexivity|apply (g_appr _ _ G)].
  - intros j. rewrite approved_upd by apply (g_appr _ _ G). destruct (decide (id = j)); [exact addr0|apply (g_appr_addr _ _ G)].
  - apply (g_op0 _ _ G).
  - exact HL.
Qed.
Lemma good_weaken n m s : Good n s -> n <= m -> Good m s.
Proof. intros [] H. split; auto. lia. Qed.
Lemma good_same n s s' : Good n s -> Erc721Example.erc721 s' = Erc721Example.erc721 s -> Erc721Example.enumerable s' = Erc721Example.enumerable s ->
  Good n s'.
Proof. intros G E1 E2. destruct G. split; unfold own_of, bal_of in *; rewrite ?E1, ?E2; assumption. Qed.

(** The bookkeeping of the enumeration. *)
Section tails.
  Import Erc721Example.
  Lemma transfer_tail s f t i e : f <> 0 -> t <> 0 ->
    exists x, (on_enum (Enumerable._remove_token_from_owner_enumeration f i) ;;;
      on_enum (Enumerable._add_token_to_owner_enumeration t i)) (mk e (enumerable s) (pausable s)) = (Ok tt, mk e x (pausable s)) /\
      Enumerable.all_tokens x = all_of s /\ Enumerable.all_tokens_index x = index_of s.
  Proof.
    intros Hf Ht. unfold bind at 1, on_enum at 1, map_err, zoom. cbn [erc721 enumerable]. rewrite remove_owner_eq by exact Hf.
    unfold on_enum, map_err, zoom. cbn [erc721 enumerable]. rewrite add_owner_eq by exact Ht. eexists. repeat split; reflexivity.
  Qed.
  Lemma mint_tail s t i e : t <> 0 ->
    exists x, (on_enum (fun _ => Enumerable._add_token_to_all_tokens_enumeration i) ;;;
      on_enum (Enumerable._add_token_to_owner_enumeration t i)) (mk e (enumerable s) (pausable s)) = (Ok tt, mk e x (pausable s)) /\
      Enumerable.all_tokens x = all_of s ++ [i] /\ Enumerable.all_tokens_index x = mset (index_of s) i (Z.of_nat (length (all_of s))).
  Proof.
    intros Ht. unfold bind at 1, on_enum at 1, Enumerable._add_token_to_all_tokens_enumeration. mred. cbn [erc721 enumerable].
    unfold on_enum, map_err, zoom. cbn [erc721 enumerable]. rewrite add_owner_eq by exact Ht. eexists. repeat split; reflexivity.
  Qed.
  Lemma burn_tail n s i e : Good n s -> own_of s i <> 0 ->
    exists x lid, (on_enum (Enumerable._remove_token_from_owner_enumeration (own_of s i) i) ;;;
      on_enum (fun _ => Enumerable._remove_token_from_all_tokens_enumeration i)) (mk e (enumerable s) (pausable s)) = (Ok tt, mk e x (pausable s)) /\
      nth_error (all_of s) (length (all_of s) - 1) = Some lid /\
      Enumerable.all_tokens x = removelast (<[Z.to_nat (mget (index_of s) i) := lid]> (all_of s)) /\
      Enumerable.all_tokens_index x = mset (mset (index_of s) lid (mget (index_of s) i)) i 0.
  Proof.
    intros G Hi. unfold bind at 1, on_enum at 1, map_err, zoom. cbn [erc721 enumerable]. rewrite remove_owner_eq by exact Hi.
    cbn zeta. unfold on_enum, Enumerable._remove_token_from_all_tokens_enumeration, Enumerable.total_supply. mred.
    cbn [Enumerable.all_tokens Enumerable.all_tokens_index enumerable erc721 pausable].
    destruct (ap_tok _ _ _ (g_ap _ _ G) i Hi) as (k & E1 & E2).
    assert (Lk : (k < length (all_of s))%nat) by (apply nth_error_Some; congruence).
    set (L := all_of s) in *. set (X := index_of s) in *.
    replace (Z.of_nat (length L) =? 0) with false by lia. unfold Enumerable.vget, Enumerable.vset.
    replace (Z.of_nat (length L) - 1 <? 0) with false by lia.
    replace (Z.to_nat (Z.of_nat (length L) - 1)) with (length L - 1)%nat by lia.
    destruct (nth_error L (length L - 1)) as [x|] eqn:E3.
    - cbn [Enumerable.all_tokens Enumerable.all_tokens_index enumerable]. fold L X. rewrite E3, E1.
      cbn [Enumerable.all_tokens]. replace ((Z.of_nat k <? 0) || (Z.of_nat (length L) <=? Z.of_nat k)) with false by lia.
      eexists. exists x. repeat split; reflexivity.
    - apply nth_error_None in E3. lia.
  Qed.
End tails.

(** ** The verdict on a request is what the code does *)
Definition op_of (w : world) (c : Z) (r : request) : Erc721Example.op :=
  match r with
  | Burn i => Erc721Example.Burn i
  | Mint t i => Erc721Example.Mint t i
  | SafeMint t i d => Erc721Example.SafeMint t i d (hook w c 0 t i d)
  | TransferFrom f t i => Erc721Example.TransferFrom f t i
  | SafeTransferFrom f t i => Erc721Example.SafeTransferFrom f t i [] (hook w c f t i [])
  | SafeTransferFromData f t i d => Erc721Example.SafeTransferFrom f t i d (hook w c f t i d)
  | Approve t i => Erc721Example.Approve t i
  | SetApprovalForAll p v => Erc721Example.SetApprovalForAll p v
  | Pause => Erc721Example.Pause
  | Unpause => Erc721Example.Unpause
  end.
(** What an error says to the caller. *)
Definition says (e : Erc721Example.error) (why : refusal) : Prop :=
  match why with
  | Because r => reason_fits r /\
      match e with
      | Erc721Example.EnumerableError e => reason_enumerable e = r
      | Erc721Example.Erc721Error e => reason_erc721 e = Some r
      | Erc721Example.PausableError e => reason_pausable e = r
      end
  | Quoting d => revert_erc721_example e = d
  end.
Definition outcome_is (n : Z) (v : verdict) (r : res Erc721Example.error unit * Erc721Example.state) : Prop :=
  match v with
  | Granted b => exists s', r = (Ok tt, s') /\ Good (n + 1) s' /\ agree s' b /\ register_fits b
  | Denied why => exists e, fst r = Err e /\ says e why
  end.
Lemma judge_app l l' b : judge (l ++ l') b = match judge l b with Granted _ => judge l' b | Denied r => Denied r end.
Proof. induction l as [|[[] r] l IH]; cbn [app judge]; [reflexivity|reflexivity|exact IH]. Qed.
Lemma judge_any l b b' : match judge l b with Granted _ => judge l b' = Granted b' | Denied r => judge l b' = Denied r end.
Proof. induction l as [|[[] r] l IH]; cbn [judge]; [reflexivity|reflexivity|exact IH]. Qed.

Section steps.
  Import Erc721Example.
  Lemma when_running s A (k : MX A) : (on_pausable Pausable.when_not_paused ;;; k) s =
     if Pausable.paused (pausable s) then (Err (PausableError Pausable.EnforcedPause), s) else k s.
  Proof. unfold on_pausable, Pausable.when_not_paused. mred. destruct (Pausable.paused (pausable s)); rewrite eta; reflexivity. Qed.
  Lemma on_erc721_bind s A B (m : M Erc721.state Erc721.error A) (k : A -> MX B) : bind (on_erc721 m) k s =
     match m (erc721 s) with
     | (Ok a, e) => k a (mk e (enumerable s) (pausable s))
     | (Err x, e) => (Err (Erc721Error x), mk e (enumerable s) (pausable s))
     | (Panic, e) => (Panic, mk e (enumerable s) (pausable s))
     end.
  Proof. unfold on_erc721. mred. destruct (m (erc721 s)) as [[?|?|] ?]; reflexivity. Qed.
  Lemma bind_ret_tt {S E} (m : M S E unit) s : (m ;;; ret tt) s = m s.
  Proof. mred. destruct (m s) as [[[]|e|] s']; reflexivity. Qed.
  Lemma owner_of_eq s i : Erc721.owner_of i (erc721 s) =
     ((if own_of s i =? 0 then Err (Erc721.NonexistentToken i) else Ok (own_of s i)), erc721 s).
  Proof. unfold Erc721.owner_of, Erc721._require_owned, own_of. mred. destruct (Erc721._owner_of i (erc721 s) =? 0); reflexivity. Qed.
  Lemma transfer_from_eq c f t id e : c <> 0 ->
    Erc721.transfer_from c f t id e =
    if t =? 0 then (Err (Erc721.InvalidReceiver 0), e) else
    let o := Erc721._owner_of id e in
    if Erc721._is_authorized o c id e then
      if negb (o =? f) then (Err (Erc721.IncorrectOwner f id o), upd_state t id e) else (Ok tt, upd_state t id e)
    else (Err (if o =? 0 then Erc721.NonexistentToken id else Erc721.InsufficientApproval c id), e).
  Proof.
    intros Hc. unfold Erc721.transfer_from. mred. destruct (t =? 0); [reflexivity|]. rewrite update_eq. replace (c =? 0) with false by lia. cbn [orb].
    destruct (Erc721._is_authorized (Erc721._owner_of id e) c id e); [|reflexivity]. destruct (Erc721._owner_of id e =? f); reflexivity.
  Qed.
  Lemma burn_eq c id e : c <> 0 ->
    Erc721.burn c id e =
    let o := Erc721._owner_of id e in
    if Erc721._is_authorized o c id e then (Ok tt, upd_state 0 id e)
    else (Err (if o =? 0 then Erc721.NonexistentToken id else Erc721.InsufficientApproval c id), e).
  Proof.
    intros Hc. unfold Erc721.burn. mred. rewrite update_eq. replace (c =? 0) with false by lia. cbn [orb].
    destruct (Erc721._is_authorized (Erc721._owner_of id e) c id e); reflexivity.
  Qed.
  Lemma mint_eq t id e :
    Erc721._mint t id e =
    if t =? 0 then (Err (Erc721.InvalidReceiver 0), e) else
    if negb (Erc721._owner_of id e =? 0) then (Err (Erc721.InvalidSender 0), upd_state t id e) else (Ok tt, upd_state t id e).
  Proof.
    unfold Erc721._mint. mred. destruct (t =? 0); [reflexivity|]. rewrite update_eq. cbn [Z.eqb orb].
    destruct (Erc721._owner_of id e =? 0); reflexivity.
  Qed.
  Lemma authorized_eq s b c id : agree s b -> is_address c -> c <> 0 -> own_of s id <> 0 -> is_address (own_of s id) ->
    Erc721._is_authorized (Erc721._owner_of id (erc721 s)) c id (erc721 s) =
    ((c =? own_of s id) || r_operator b (own_of s id) c || (c =? r_approved b id)).
  Proof.
    intros A Hc Hc0 Ho Ha. unfold Erc721._is_authorized. fold (own_of s id). replace (c =? 0) with false by lia. cbn [negb andb].
    rewrite (a_op _ _ A _ _ Ha Hc), (a_appr _ _ A id Ho), (Z.eqb_sym c (own_of s id)), (Z.eqb_sym c (Erc721._get_approved _ _)). reflexivity.
  Qed.

  Ltac fit := unfold reason_fits; cbn [numbers]; repeat (apply List.Forall_cons; [solve [auto using addr_u256, addr0]|]); apply List.Forall_nil.
  Ltac deny e := exists e; split; [reflexivity|]; split; [fit|reflexivity].

  (** Transfers, with or without a question to the receiver. *)
  Lemma move_ok n w s b c f t id (ask : bool) d : Good n s -> n + 1 < two256 -> register_fits b -> agree s b -> caller_ok c ->
    is_address f -> is_address t -> is_u256 id ->
    outcome_is n (judge (moving b c f t id ++ (if ask then asking w c f t id d else [])) (given b id t))
      (if ask then safe_transfer_from_with_data (deployed w) c f t id d (hook w c f t id d) s else transfer_from c f t id s).
  Proof.
    intros G Hn F A [Hc Hc0] Hf Ht Hid.
    assert (Eq : (if ask then safe_transfer_from_with_data (deployed w) c f t id d (hook w c f t id d) s else transfer_from c f t id s) =
      (on_pausable Pausable.when_not_paused ;;;
       previous_owner <~ on_erc721 (Erc721.owner_of id) ;;
       on_erc721 (Erc721.transfer_from c f t id ;;;
         (if ask then Erc721._check_on_erc721_received (deployed w) (answers (hook w c f t id d)) c f t id d else ret tt)) ;;;
       on_enum (Enumerable._remove_token_from_owner_enumeration previous_owner id) ;;;
       on_enum (Enumerable._add_token_to_owner_enumeration t id)) s).
    { destruct ask; [reflexivity|]. unfold transfer_from. rewrite !when_running. destruct (Pausable.paused (pausable s)); [reflexivity|].
      rewrite !on_erc721_bind, owner_of_eq. destruct (own_of s id =? 0); [reflexivity|]. rewrite !eta, !on_erc721_bind, bind_ret_tt. reflexivity. }
    rewrite Eq. clear Eq. rewrite when_running. unfold moving, running, existing, entitled. rewrite (a_own _ _ A id). cbn [app judge].
    rewrite (a_paused _ _ A). destruct (Pausable.paused (pausable s)); [deny (PausableError Pausable.EnforcedPause)|].
    rewrite on_erc721_bind, owner_of_eq. destruct (own_of s id =? 0) eqn:Eo; [deny (Erc721Error (Erc721.NonexistentToken id))|].
    assert (Ho : own_of s id <> 0) by lia. destruct (g_ids _ _ G id Ho) as [_ Hoa].
    rewrite eta, on_erc721_bind. unfold bind at 1. rewrite (transfer_from_eq c f t id _ Hc0). fold (own_of s id).
    destruct (t =? 0) eqn:Et; [deny (Erc721Error (Erc721.InvalidReceiver 0))|]. cbn zeta.
    pose proof (authorized_eq s b c id A Hc Hc0 Ho Hoa) as Ea. fold (own_of s id) in Ea. rewrite Ea.
    destruct ((c =? own_of s id) || r_operator b (own_of s id) c || (c =? r_approved b id)); cbn [negb];
      [|rewrite Eo; deny (Erc721Error (Erc721.InsufficientApproval c id))].
    destruct (own_of s id =? f) eqn:Ef; cbn [negb];
      [|deny (Erc721Error (Erc721.IncorrectOwner f id (own_of s id)))].
    assert (Ht0 : t <> 0) by lia.
    assert (Fin : outcome_is n (Granted (given b id t))
      ((on_enum (Enumerable._remove_token_from_owner_enumeration (own_of s id) id) ;;;
        on_enum (Enumerable._add_token_to_owner_enumeration t id)) (mk (upd_state t id (erc721 s)) (enumerable s) (pausable s)))).
    { destruct (transfer_tail s (own_of s id) t id (upd_state t id (erc721 s)) Ho Ht0) as (x & -> & X1 & X2).
      exists (mk (upd_state t id (erc721 s)) x (pausable s)). split; [reflexivity|].
      destruct (upd_agree n s b t id x (pausable s) G Hn F A Hid Ht eq_refl) as [A' F']. rewrite Et in A', F'. split; [|split; assumption].
      apply upd_good; auto; rewrite X1; [|pose proof (g_len _ _ G); lia]. rewrite X2. eapply AP_same; [apply (g_ap _ _ G)|].
      intros j. destruct (decide (id = j)) as [<-|]; tauto. }
    destruct ask; [|exact Fin]. rewrite asking_code.
    pose proof (judge_any (asking w c f t id d) new_register (given b id t)) as J.
    destruct (judge (asking w c f t id d) new_register) as [b'|[why|out]] eqn:Ej; rewrite J.
    - exact Fin.
    - exists (Erc721Error (Erc721.InvalidReceiver t)). split; [reflexivity|].
      assert (why = ERC721InvalidReceiver t) as ->.
      { revert Ej. unfold asking. destruct (deployed w t); [|discriminate]. destruct (replies w t _) as [o|[|y o]]; cbn [judge]; try congruence.
        destruct (list_eq_dec _ _ _); cbn [judge]; congruence. }
      split; [fit|reflexivity].
    - exists (Erc721Error (Erc721.InvalidReceiverWithReason out)). split; reflexivity.
  Qed.
  Lemma mint_step n w s b c t id (ask : bool) d : Good n s -> n + 1 < two256 -> register_fits b -> agree s b ->
    is_address t -> is_u256 id ->
    outcome_is n (judge (minting b t id ++ (if ask then asking w c 0 t id d else [])) (given b id t))
      (if ask then safe_mint (deployed w) c t id d (hook w c 0 t id d) s else mint t id s).
  Proof.
    intros G Hn F A Ht Hid.
    assert (Eq : (if ask then safe_mint (deployed w) c t id d (hook w c 0 t id d) s else mint t id s) =
      (on_pausable Pausable.when_not_paused ;;;
       on_erc721 (Erc721._mint t id ;;;
         (if ask then Erc721._check_on_erc721_received (deployed w) (answers (hook w c 0 t id d)) c 0 t id d else ret tt)) ;;;
       on_enum (fun _ => Enumerable._add_token_to_all_tokens_enumeration id) ;;;
       on_enum (Enumerable._add_token_to_owner_enumeration t id)) s).
    { destruct ask; [reflexivity|]. unfold mint. rewrite !when_running. destruct (Pausable.paused (pausable s)); [reflexivity|].
      rewrite !on_erc721_bind, bind_ret_tt. reflexivity. }
    rewrite Eq. clear Eq. rewrite when_running. unfold minting, running. rewrite (a_own _ _ A id). cbn [app judge].
    rewrite (a_paused _ _ A). destruct (Pausable.paused (pausable s)); [deny (PausableError Pausable.EnforcedPause)|].
    rewrite on_erc721_bind. unfold bind at 1. rewrite mint_eq. fold (own_of s id).
    destruct (t =? 0) eqn:Et; [deny (Erc721Error (Erc721.InvalidReceiver 0))|].
    destruct (own_of s id =? 0) eqn:Eo; cbn [negb]; [|deny (Erc721Error (Erc721.InvalidSender 0))].
    assert (Ht0 : t <> 0) by lia. assert (Ho : own_of s id = 0) by lia.
    assert (Fin : outcome_is n (Granted (given b id t))
      ((on_enum (fun _ => Enumerable._add_token_to_all_tokens_enumeration id) ;;;
        on_enum (Enumerable._add_token_to_owner_enumeration t id)) (mk (upd_state t id (erc721 s)) (enumerable s) (pausable s)))).
    { destruct (mint_tail s t id (upd_state t id (erc721 s)) Ht0) as (x & -> & X1 & X2).
      exists (mk (upd_state t id (erc721 s)) x (pausable s)). split; [reflexivity|].
      destruct (upd_agree n s b t id x (pausable s) G Hn F A Hid Ht eq_refl) as [A' F']. rewrite Et in A', F'. split; [|split; assumption].
      apply upd_good; auto; rewrite X1; [|rewrite app_length; cbn [length]; pose proof (g_len _ _ G); lia]. rewrite X2.
      apply (AP_add _ _ _ _ t id (g_ap _ _ G) Ho Ht0). reflexivity. }
    destruct ask; [|exact Fin]. rewrite asking_code.
    pose proof (judge_any (asking w c 0 t id d) new_register (given b id t)) as J.
    destruct (judge (asking w c 0 t id d) new_register) as [b'|[why|out]] eqn:Ej; rewrite J.
    - exact Fin.
    - exists (Erc721Error (Erc721.InvalidReceiver t)). split; [reflexivity|].
      assert (why = ERC721InvalidReceiver t) as ->.
      { revert Ej. unfold asking. destruct (deployed w t); [|discriminate]. destruct (replies w t _) as [o|[|y o]]; cbn [judge]; try congruence.
        destruct (list_eq_dec _ _ _); cbn [judge]; congruence. }
      split; [fit|reflexivity].
    - exists (Erc721Error (Erc721.InvalidReceiverWithReason out)). split; reflexivity.
  Qed.
  Lemma step_ok n w s b c r : Good n s -> n + 1 < two256 -> register_fits b -> agree s b -> caller_ok c -> request_fits r ->
    outcome_is n (ideal w c r b) (exec (deployed w) c (op_of w c r) s).
  Proof.
    intros G Hn F A Hcc Hr. pose proof Hcc as [Hc Hc0].
    destruct r as [id|t id|t id d|f t id|f t id|f t id d|t id|q v| |]; cbn [ideal op_of exec request_fits] in *.
    - (* burn *) unfold burn. rewrite when_running. unfold running, existing, entitled. rewrite (a_own _ _ A id). cbn [app judge].
      rewrite (a_paused _ _ A). destruct (Pausable.paused (pausable s)); [deny (PausableError Pausable.EnforcedPause)|].
      rewrite on_erc721_bind, owner_of_eq. destruct (own_of s id =? 0) eqn:Eo; [deny (Erc721Error (Erc721.NonexistentToken id))|].
      assert (Ho : own_of s id <> 0) by lia. destruct (g_ids _ _ G id Ho) as [_ Hoa].
      rewrite eta, on_erc721_bind, (burn_eq c id _ Hc0). cbn zeta. rewrite (authorized_eq s b c id A Hc Hc0 Ho Hoa). fold (own_of s id).
      destruct ((c =? own_of s id) || r_operator b (own_of s id) c || (c =? r_approved b id)); cbn [negb];
        [|rewrite Eo; deny (Erc721Error (Erc721.InsufficientApproval c id))].
      destruct (burn_tail n s id (upd_state 0 id (erc721 s)) G Ho) as (x & lid & E & X0 & X1 & X2).
      exists (mk (upd_state 0 id (erc721 s)) x (pausable s)). split; [exact E|].
      destruct (upd_agree n s b 0 id x (pausable s) G Hn F A Hr addr0 eq_refl) as [A' F']. cbn [Z.eqb] in A', F'. split; [|split; assumption].
      apply upd_good; auto using addr0.
      + rewrite X1, X2. apply (AP_remove _ _ _ _ id lid (g_ap _ _ G) Ho); [reflexivity|exact X0].
      + rewrite X1. pose proof (g_len _ _ G). assert (K : (length (removelast (<[Z.to_nat (mget (index_of s) id):=lid]> (all_of s))) <= length (all_of s))%nat); [|lia].
        rewrite <- (insert_length (all_of s) (Z.to_nat (mget (index_of s) id)) lid). generalize (<[Z.to_nat (mget (index_of s) id):=lid]> (all_of s)).
        clear. intros l. induction l as [|y [|z l] IH]; cbn [removelast length] in *; lia.
    - pose proof (mint_step n w s b c t id false [] G Hn F A (proj1 Hr) (proj2 Hr)) as K. rewrite app_nil_r in K. exact K.
    - destruct Hr as (Ht & Hid & _). exact (mint_step n w s b c t id true d G Hn F A Ht Hid).
    - destruct Hr as (Hf & Ht & Hid). pose proof (move_ok n w s b c f t id false [] G Hn F A Hcc Hf Ht Hid) as K. rewrite app_nil_r in K. exact K.
    - destruct Hr as (Hf & Ht & Hid). exact (move_ok n w s b c f t id true [] G Hn F A Hcc Hf Ht Hid).
    - destruct Hr as (Hf & Ht & Hid & _). exact (move_ok n w s b c f t id true d G Hn F A Hcc Hf Ht Hid).
    - (* approve *) destruct Hr as [Ht Hid]. unfold existing. rewrite (a_own _ _ A id). cbn [app judge].
      unfold on_erc721, Erc721.approve, Erc721._approve, Erc721._require_owned, Erc721.emit. mred. cbn [orb]. fold (own_of s id).
      destruct (own_of s id =? 0) eqn:Eo; [deny (Erc721Error (Erc721.NonexistentToken id))|].
      assert (Ho : own_of s id <> 0) by lia. destruct (g_ids _ _ G id Ho) as [_ Hoa].
      replace (c =? 0) with false by lia. cbn [negb andb]. rewrite (a_op _ _ A _ _ Hoa Hc).
      destruct ((own_of s id =? c) || operator_of s (own_of s id) c) eqn:Ea.
      + replace (negb (own_of s id =? c) && negb (operator_of s (own_of s id) c)) with false
          by (symmetry; destruct (own_of s id =? c), (operator_of s (own_of s id) c); try reflexivity; discriminate). cbn [negb].
        exists (mk (appr_state t id (erc721 s)) (enumerable s) (pausable s)). split; [reflexivity|].
        assert (Ap : forall j, approved_of (mk (appr_state t id (erc721 s)) (enumerable s) (pausable s)) j = if decide (id = j) then t else approved_of s j).
        { intros j. unfold Erc721._get_approved, appr_state. cbn. apply mget_set. }
        split; [|split].
        * apply (good_weaken n); [|lia]. destruct G. split; auto; intros j; rewrite Ap.
          -- intros Hj. destruct (decide (id = j)) as [<-|]; [contradiction|]. apply g_appr0, Hj.
          -- destruct (decide (id = j)); auto.
        * destruct A. split; auto. intros j Hj. rewrite Ap. cbn [approved_for r_approved]. unfold at_key.
          destruct (decide (id = j)) as [<-|N]; [rewrite Z.eqb_refl; reflexivity|]. replace (j =? id) with false by lia. apply a_appr0, Hj.
        * destruct F as (F1 & F2 & F3 & F4). split; [exact F1|]. split; [exact F2|]. split; [exact F3|]. intros j. cbn [approved_for r_approved]. unfold at_key.
          destruct (j =? id); [apply addr_u256, Ht|apply F4].
      + replace (negb (own_of s id =? c) && negb (operator_of s (own_of s id) c)) with true
          by (symmetry; destruct (own_of s id =? c), (operator_of s (own_of s id) c); try reflexivity; discriminate). cbn [negb].
        deny (Erc721Error (Erc721.InvalidApprover c)).
    - (* set_approval_for_all *) cbn [judge]. unfold on_erc721, Erc721.set_approval_for_all, Erc721._set_approval_for_all, Erc721.emit. mred.
      destruct (q =? 0) eqn:Eq; [replace q with 0 by lia; deny (Erc721Error (Erc721.InvalidOperator 0))|].
      exists (mk (all_state c q v (erc721 s)) (enumerable s) (pausable s)). split; [reflexivity|].
      assert (Op : forall o p, operator_of (mk (all_state c q v (erc721 s)) (enumerable s) (pausable s)) o p = if (o =? c) && (p =? q) then v else operator_of s o p).
      { intros o p. unfold Erc721.is_approved_for_all, all_state. cbn. rewrite getd_set.
        destruct (decide ((c, q) = (o, p))) as [E|E].
        - inversion E; subst. rewrite !Z.eqb_refl. reflexivity.
        - replace ((o =? c) && (p =? q)) with false; [reflexivity|]. symmetry. apply andb_false_iff.
          destruct (Z.eqb_spec o c); [|auto]. right. apply Z.eqb_neq. congruence. }
      split; [|split].
      + apply (good_weaken n); [|lia]. destruct G. split; auto. intros p. rewrite Op. replace (0 =? c) with false by lia. apply g_op1.
      + destruct A. split; auto. intros o p Ho Hp. rewrite Op. cbn [operated_by r_operator]. rewrite (a_op0 o p Ho Hp). reflexivity.
      + exact F.
    - (* pause *) unfold running. cbn [judge]. rewrite (a_paused _ _ A). unfold pause, on_pausable, Pausable.pause, Pausable.when_not_paused. mred.
      destruct (Pausable.paused (pausable s)) eqn:Ep; [deny (PausableError Pausable.EnforcedPause)|].
      eexists. split; [reflexivity|]. split; [apply (good_weaken n); [|lia]; eapply good_same; [exact G|reflexivity..]|]. split; [|exact F].
      destruct A. split; auto.
    - (* unpause *) cbn [judge]. rewrite (a_paused _ _ A). unfold unpause, on_pausable, Pausable.unpause, Pausable.when_paused. mred.
      destruct (Pausable.paused (pausable s)) eqn:Ep; cbn [negb]; [|deny (PausableError Pausable.ExpectedPause)].
      eexists. split; [reflexivity|]. split; [apply (good_weaken n); [|lia]; eapply good_same; [exact G|reflexivity..]|]. split; [|exact F].
      destruct A. split; auto.
  Qed.
End steps.
