From Verif.Base Require Import Prelude Maps.
From Verif.Model Require Erc721 Enumerable Pausable Erc721Example.
From Verif.Spec Require Import Erc721_spec Enumerable_spec.
From Verif.Proofs Require Import Erc721_lemmas.
From stdpp Require Import gmap.
Import Erc721Example.
#[global] Open Scope Z_scope.

(** ** The owner lists, pointwise *)
Record OP (own bal : Z -> Z) (ot : gmap (Z * Z) Z) (ix : gmap Z Z) : Prop := mkOP {
  op_slot : forall a i, a <> 0 -> 0 <= i < bal a -> own (mget ot (a, i)) = a /\ mget ix (mget ot (a, i)) = i;
  op_tok : forall id, own id <> 0 -> 0 <= mget ix id < bal (own id) /\ mget ot (own id, mget ix id) = id;
  op_out : forall a i, a <> 0 -> ~ (0 <= i < bal a) -> mget ot (a, i) = 0
}.
Ltac dec := repeat match goal with |- context [decide (?a = ?b)] => destruct (decide (a = b)) end.
Lemma OP_add own bal ot ix own' bal' to id :
  OP own bal ot ix -> own id = 0 -> to <> 0 -> 0 <= bal to ->
  (forall j, own' j = if decide (id = j) then to else own j) ->
  (forall a, a <> 0 -> bal' a = if decide (to = a) then bal a + 1 else bal a) ->
  OP own' bal' (mset ot (to, bal to) id) (mset ix id (bal to)).
Proof.
  intros [H1 H2 H3] Hid Hto Hb Ho Hbl. split.
  - intros a i Ha Hi. rewrite (Hbl a Ha) in Hi. rewrite (mget_set ot).
    destruct (decide ((to, bal to) = (a, i))) as [E|E].
    + inversion E; subst. rewrite Ho, decide_True, mget_set_eq by reflexivity. auto.
    + assert (Hi' : 0 <= i < bal a).
      { destruct (decide (to = a)) as [->|]; [|lia]. assert (i <> bal a) by congruence. lia. }
      destruct (H1 a i Ha Hi') as [X Y]. assert (id <> mget ot (a, i)) by congruence.
      rewrite Ho, decide_False, mget_set_ne by assumption. auto.
  - intros j Hj. rewrite Ho in Hj. rewrite !Ho. rewrite (mget_set ix). destruct (decide (id = j)) as [->|Hne].
    + rewrite (Hbl to Hto), decide_True, mget_set_eq by reflexivity. lia.
    + destruct (H2 j Hj) as [X Y]. rewrite (Hbl _ Hj). split; [dec; lia|].
      rewrite mget_set_ne; [exact Y|]. intros E. inversion E as [[E1 E2]]. rewrite <- E2, <- E1 in X. lia.
  - intros a i Ha Hi. rewrite (Hbl a Ha) in Hi. rewrite mget_set_ne.
    + apply H3; [exact Ha|]. destruct (decide (to = a)); lia.
    + intros E. inversion E; subst. rewrite decide_True in Hi by reflexivity. lia.
Qed.
(** The swap and pop. *)
Definition rem_ot (from id last : Z) (ot : gmap (Z * Z) Z) (ix : gmap Z Z) : gmap (Z * Z) Z :=
  mset (if mget ix id =? last then ot else mset ot (from, mget ix id) (mget ot (from, last))) (from, last) 0.
Definition rem_ix (from id last : Z) (ot : gmap (Z * Z) Z) (ix : gmap Z Z) : gmap Z Z :=
  mset (if mget ix id =? last then ix else mset ix (mget ot (from, last)) (mget ix id)) id 0.
Lemma OP_remove own bal ot ix own' bal' id :
  OP own bal ot ix -> own id <> 0 ->
  (forall j, own' j = if decide (id = j) then 0 else own j) ->
  (forall a, a <> 0 -> bal' a = if decide (own id = a) then bal a - 1 else bal a) ->
  OP own' bal' (rem_ot (own id) id (bal (own id) - 1) ot ix) (rem_ix (own id) id (bal (own id) - 1) ot ix).
Proof.
  intros [H1 H2 H3] Hid Ho Hbl. set (f := own id) in *. destruct (H2 id Hid) as [Hr Hs]. fold f in Hr, Hs.
  set (k := mget ix id) in *. set (last := bal f - 1) in *.
  destruct (H1 f last Hid ltac:(unfold last; lia)) as [HL1 HL2]. set (lid := mget ot (f, last)) in *.
  unfold rem_ot, rem_ix. fold k lid.
  assert (Hl : k = last -> lid = id) by (unfold lid; intros <-; exact Hs).
  assert (Hl' : lid = id -> k = last) by (intros E; unfold k; rewrite <- E; exact HL2).
  assert (Got : forall a i, mget (mset (if k =? last then ot else mset ot (f, k) lid) (f, last) 0) (a, i) =
     if decide ((f, last) = (a, i)) then 0 else if decide ((f, k) = (a, i)) then lid else mget ot (a, i)).
  { intros a i. rewrite mget_set. destruct (decide ((f, last) = (a, i))) as [E|E]; [reflexivity|].
    destruct (Z.eqb_spec k last) as [E2|E2]; [|apply mget_set].
    destruct (decide ((f, k) = (a, i))); [congruence|reflexivity]. }
  assert (Gix : forall j, mget (mset (if k =? last then ix else mset ix lid k) id 0) j =
     if decide (id = j) then 0 else if decide (lid = j) then k else mget ix j).
  { intros j. rewrite mget_set. destruct (decide (id = j)) as [E|E]; [reflexivity|].
    destruct (Z.eqb_spec k last) as [E2|E2]; [|apply mget_set].
    destruct (decide (lid = j)); [|reflexivity]. specialize (Hl E2). congruence. }
  split.
  - intros a i Ha Hi. rewrite (Hbl a Ha) in Hi. rewrite !Got, !Gix, !Ho.
    destruct (decide ((f, last) = (a, i))) as [E|E].
    { inversion E; subst a i. rewrite decide_True in Hi by reflexivity. unfold last in Hi. lia. }
    destruct (decide ((f, k) = (a, i))) as [E2|E2].
    + inversion E2; subst a i. rewrite (decide_True _ _ (eq_refl lid)).
      rewrite !(decide_False (P := id = lid)) by (intros X; apply E; rewrite Hl'; [reflexivity|congruence]).
      auto.
    + assert (Hi' : 0 <= i < bal a) by (destruct (decide (f = a)); lia).
      destruct (H1 a i Ha Hi') as [X Y].
      assert (id <> mget ot (a, i)). { intros E3. apply E2. rewrite <- E3 in X, Y. fold k in Y. fold f in X. congruence. }
      rewrite !decide_False by assumption. split; [exact X|].
      rewrite decide_False; [exact Y|]. intros E3. apply E. rewrite <- E3 in X, Y. congruence.
  - intros j Hj. rewrite Ho in Hj. rewrite !Gix, !Ho. destruct (decide (id = j)) as [|Hne]; [congruence|].
    destruct (H2 j Hj) as [X Y]. rewrite (Hbl _ Hj), !Got.
    destruct (decide (lid = j)) as [<-|Hlj].
    + fold f in HL1. rewrite HL1. rewrite (decide_True (P := f = f)) by reflexivity.
      assert (k <> last) by (intros E; apply Hne; symmetry; auto).
      rewrite (decide_False (P := (f, last) = (f, k))) by congruence. rewrite decide_True by reflexivity.
      split; [unfold last in *; lia|reflexivity].
    + assert (mget ix j <> last \/ own j <> f).
      { destruct (Z.eq_dec (own j) f) as [E1|E1]; [|auto]. left. intros E2. apply Hlj. unfold lid. rewrite <- E1, <- E2. exact Y. }
      assert (mget ix j <> k \/ own j <> f).
      { destruct (Z.eq_dec (own j) f) as [E1|E1]; [|auto]. left. intros E2. apply Hne. rewrite <- Hs, <- Y, E1, E2. reflexivity. }
      rewrite (decide_False (P := (f, last) = _)) by (intros E; inversion E; intuition congruence).
      rewrite (decide_False (P := (f, k) = _)) by (intros E; inversion E; intuition congruence).
      split; [|exact Y]. destruct (decide (f = own j)) as [E|E]; [|exact X].
      unfold last in *. rewrite E in *. destruct H; [lia|congruence].
  - intros a i Ha Hi. rewrite (Hbl a Ha) in Hi. rewrite Got.
    destruct (decide ((f, last) = (a, i))) as [E|E]; [reflexivity|].
    destruct (decide ((f, k) = (a, i))) as [E2|E2].
    + inversion E2; subst a i. rewrite decide_True in Hi by reflexivity. exfalso.
      assert (k <> last) by congruence. unfold last in *. lia.
    + apply H3; [exact Ha|]. intros X. apply Hi. destruct (decide (f = a)) as [->|]; [|exact X].
      assert (i <> last) by congruence. unfold last in *. lia.
Qed.

(** ** The global list *)
Record AP (own : Z -> Z) (l : list Z) (ix : gmap Z Z) : Prop := mkAP {
  ap_slot : forall i id, nth_error l i = Some id -> own id <> 0 /\ mget ix id = Z.of_nat i;
  ap_tok : forall id, own id <> 0 -> exists i, mget ix id = Z.of_nat i /\ nth_error l i = Some id
}.
Lemma AP_same own own' l ix : AP own l ix -> (forall j, own j <> 0 <-> own' j <> 0) -> AP own' l ix.
Proof.
  intros [H1 H2] H. split.
  - intros i id Hi. destruct (H1 i id Hi). split; [apply H|]; assumption.
  - intros id Hi. apply H2, H. exact Hi.
Qed.
Lemma AP_add own l ix own' to id :
  AP own l ix -> own id = 0 -> to <> 0 -> (forall j, own' j = if decide (id = j) then to else own j) ->
  AP own' (l ++ [id]) (mset ix id (Z.of_nat (length l))).
Proof.
  intros [H1 H2] Hid Hto Ho. split.
  - intros i j Hi. rewrite Ho. destruct (Nat.lt_ge_cases i (length l)) as [L|L].
    + rewrite nth_error_app1 in Hi by exact L. destruct (H1 i j Hi) as [X Y].
      assert (id <> j) by congruence. rewrite decide_False, mget_set_ne by assumption. auto.
    + rewrite nth_error_app2 in Hi by exact L. destruct (i - length l)%nat as [|m] eqn:E; cbn in Hi.
      * inversion Hi; subst j. rewrite decide_True, mget_set_eq by reflexivity. split; [exact Hto|lia].
      * destruct m; discriminate.
  - intros j Hj. rewrite Ho in Hj. rewrite mget_set. destruct (decide (id = j)) as [<-|Hne].
    + exists (length l). split; [reflexivity|]. rewrite nth_error_app2, Nat.sub_diag by lia. reflexivity.
    + destruct (H2 j Hj) as (i & X & Y). exists i. split; [exact X|].
      rewrite nth_error_app1; [exact Y|]. apply nth_error_Some. congruence.
Qed.
Lemma nth_error_insert (l : list Z) i j v :
  nth_error (<[i := v]> l) j = if decide (i = j) then (if (j <? length l)%nat then Some v else None) else nth_error l j.
Proof.
  revert i j. induction l as [|x l IH]; intros i j.
  - cbn. destruct (decide (i = j)), j; reflexivity.
  - destruct i, j; cbn; try reflexivity. rewrite IH. destruct (decide (i = j)), (decide (S i = S j)); congruence || reflexivity.
Qed.
Lemma nth_error_removelast (l : list Z) j :
  nth_error (removelast l) j = if (j <? length l - 1)%nat then nth_error l j else None.
Proof.
  revert j. induction l as [|x l IH]; intros j; [destruct j; reflexivity|].
  destruct l as [|y l]; [destruct j; reflexivity|].
  change (removelast (x :: y :: l)) with (x :: removelast (y :: l)).
  destruct j; [reflexivity|]. cbn [nth_error]. rewrite IH. cbn [length].
  replace (S (length l) - 1)%nat with (length l) by lia. replace (S (S (length l)) - 1)%nat with (S (length l)) by lia. reflexivity.
Qed.
Lemma AP_remove own l ix own' id lid :
  AP own l ix -> own id <> 0 -> (forall j, own' j = if decide (id = j) then 0 else own j) ->
  nth_error l (length l - 1) = Some lid ->
  AP own' (removelast (<[Z.to_nat (mget ix id) := lid]> l)) (mset (mset ix lid (mget ix id)) id 0).
Proof.
  intros [H1 H2] Hid Ho Hlid. destruct (H2 id Hid) as (k & Ek & Hk). rewrite Ek, Nat2Z.id.
  assert (Lk : (k < length l)%nat) by (apply nth_error_Some; congruence).
  destruct (H1 _ _ Hlid) as [HL1 HL2].
  assert (Hl : forall i, nth_error (removelast (<[k := lid]> l)) i =
    if (i <? length l - 1)%nat then if decide (k = i) then Some lid else nth_error l i else None).
  { intros i. rewrite nth_error_removelast, insert_length. destruct (Nat.ltb_spec i (length l - 1)); [|reflexivity].
    rewrite nth_error_insert. destruct (decide (k = i)); [|reflexivity].
    rewrite (proj2 (Nat.ltb_lt _ _)) by lia. reflexivity. }
  split.
  - intros i j. rewrite Hl. destruct (Nat.ltb_spec i (length l - 1)) as [L|]; [|discriminate].
    rewrite Ho, !mget_set. destruct (decide (k = i)) as [->|Hne].
    + intros E. inversion E; subst j. assert (id <> lid).
      { intros ->. assert (i = (length l - 1)%nat) by lia. lia. }
      rewrite decide_False by assumption. rewrite decide_False by assumption. rewrite decide_True by reflexivity. auto.
    + intros E. destruct (H1 i j E) as [X Y]. assert (id <> j) by (intros ->; lia).
      rewrite decide_False by assumption. rewrite decide_False by assumption.
      rewrite decide_False; [auto|]. intros ->. lia.
  - intros j Hj. rewrite Ho in Hj. rewrite !mget_set. destruct (decide (id = j)) as [|Hne]; [congruence|].
    destruct (H2 j Hj) as (i & X & Y). assert (i < length l)%nat by (apply nth_error_Some; congruence).
    destruct (decide (lid = j)) as [<-|Hlj].
    + exists k. split; [reflexivity|]. rewrite Hl, decide_True by reflexivity.
      rewrite (proj2 (Nat.ltb_lt _ _)); [reflexivity|]. assert (k <> (length l - 1)%nat) by (intros ->; congruence). lia.
    + exists i. split; [exact X|]. rewrite Hl. assert (i <> (length l - 1)%nat) by (intros ->; congruence).
      rewrite (proj2 (Nat.ltb_lt _ _)) by lia. rewrite decide_False; [exact Y|]. intros ->. congruence.
Qed.

(** ** The invariant of the example contract *)
Definition own_of (s : state) (id : Z) : Z := Erc721._owner_of id (erc721 s).
Definition bal_of (s : state) (a : Z) : Z := mget (Erc721.balances (erc721 s)) a.
Record EInv (n : Z) (s : state) : Prop := mkEInv {
  e_n : 0 <= n < two256;
  e_bal : forall a, a <> 0 -> 0 <= bal_of s a <= n;
  e_op : OP (own_of s) (bal_of s) (Enumerable.owned_tokens (enumerable s)) (Enumerable.owned_tokens_index (enumerable s));
  e_ap : AP (own_of s) (Enumerable.all_tokens (enumerable s)) (Enumerable.all_tokens_index (enumerable s));
  e_appr : forall id, own_of s id = 0 -> Erc721._get_approved id (erc721 s) = 0;
  e_op0 : forall p, Erc721.is_approved_for_all 0 p (erc721 s) = false
}.
Lemma EInv_init : EInv 0 init.
Proof.
  split; unfold own_of, bal_of, Erc721._owner_of, Erc721._get_approved, Erc721.is_approved_for_all; cbn;
    intros; rewrite ?mget_empty, ?getd_empty in *; try reflexivity; try lia.
  - pose proof two256_pos. lia.
  - split; intros *; rewrite ?mget_empty; try reflexivity; try lia; try congruence.
  - split; intros *; rewrite ?mget_empty; [destruct i; discriminate|congruence].
Qed.
Lemma EInv_weaken n m s : EInv n s -> n <= m < two256 -> EInv m s.
Proof. intros [] H. split; auto; [lia|]. intros a Ha. specialize (e_bal0 a Ha). lia. Qed.

(** Balances after an update, exactly. *)
Lemma upd_bal n s to id a :
  EInv n s -> n + 1 < two256 -> a <> 0 ->
  mget (Erc721.balances (upd_state to id (erc721 s))) a =
  bal_of s a - (if decide (own_of s id = a) then 1 else 0) + (if decide (to = a) then 1 else 0).
Proof.
  intros H Hn Ha. pose proof (e_bal _ _ H a Ha) as Hb. unfold bal_of in *.
  assert (Hr : is_u256 (mget (Erc721.balances (upd_state to id (erc721 s))) a)) by (apply balances_upd_range; unfold is_u256; lia).
  rewrite <- (Z.mod_small _ _ Hr), balances_upd by exact Ha. unfold own_of.
  destruct (Z.eqb_spec (Erc721._owner_of id (erc721 s)) a) as [E|E]; destruct (decide (Erc721._owner_of id (erc721 s) = a)); try congruence;
  destruct (Z.eqb_spec to a); destruct (decide (to = a)); try congruence; apply Z.mod_small; try lia.
  - pose proof (op_tok _ _ _ _ (e_op _ _ H) id) as X. unfold own_of, bal_of in X. rewrite E in X. specialize (X Ha). lia.
Qed.

Lemma e_appr_upd s to id : (forall i, own_of s i = 0 -> Erc721._get_approved i (erc721 s) = 0) ->
  forall i, (if decide (id = i) then to else own_of s i) = 0 -> Erc721._get_approved i (upd_state to id (erc721 s)) = 0.
Proof.
  intros H i. rewrite approved_upd by apply H. destruct (decide (id = i)); [reflexivity|apply H].
Qed.

Lemma bal_in e a x : a <> 0 -> Enumerable.balance_in e a x = (Ok (mget (Erc721.balances e) a), x).
Proof.
  intros Ha. unfold Enumerable.balance_in, Erc721.balance_of. mred. rewrite (proj2 (Z.eqb_neq a 0) Ha). reflexivity.
Qed.
Lemma remove_owner_eq f id e x :
  f <> 0 -> Enumerable._remove_token_from_owner_enumeration f id e x =
  let last := mget (Erc721.balances e) f in
  (Ok tt, Enumerable.mk (rem_ot f id last (Enumerable.owned_tokens x) (Enumerable.owned_tokens_index x))
            (rem_ix f id last (Enumerable.owned_tokens x) (Enumerable.owned_tokens_index x))
            (Enumerable.all_tokens x) (Enumerable.all_tokens_index x)).
Proof.
  intros Hf. unfold Enumerable._remove_token_from_owner_enumeration. unfold bind at 1. rewrite (bal_in e f x Hf).
  unfold rem_ot, rem_ix. mred. destruct (mget (Enumerable.owned_tokens_index x) id =? mget (Erc721.balances e) f); reflexivity.
Qed.
Lemma add_owner_eq t id e x :
  t <> 0 -> Enumerable._add_token_to_owner_enumeration t id e x =
  let len := wsub (mget (Erc721.balances e) t) 1 in
  (Ok tt, Enumerable.mk (mset (Enumerable.owned_tokens x) (t, len) id) (mset (Enumerable.owned_tokens_index x) id len)
            (Enumerable.all_tokens x) (Enumerable.all_tokens_index x)).
Proof.
  intros Hf. unfold Enumerable._add_token_to_owner_enumeration. unfold bind at 1. rewrite (bal_in e t x Hf). reflexivity.
Qed.

(** A transfer, between different accounts. *)
Lemma transfer_keeps n s to id e x :
  EInv n s -> n + 1 < two256 -> own_of s id <> 0 -> to <> 0 -> own_of s id <> to ->
  let f := own_of s id in
  let en := enumerable s in
  e = upd_state to id (erc721 s) ->
  let ot' := rem_ot f id (mget (Erc721.balances e) f) (Enumerable.owned_tokens en) (Enumerable.owned_tokens_index en) in
  let ix' := rem_ix f id (mget (Erc721.balances e) f) (Enumerable.owned_tokens en) (Enumerable.owned_tokens_index en) in
  let len := wsub (mget (Erc721.balances e) to) 1 in
  x = Enumerable.mk (mset ot' (to, len) id) (mset ix' id len) (Enumerable.all_tokens en) (Enumerable.all_tokens_index en) ->
  EInv (n + 1) (mk e x (pausable s)).
Proof.
  intros H Hn Hf Ht Hne f en -> ot' ix' len ->. fold f in Hf, Hne.
  pose proof (e_bal _ _ H to Ht) as Bt. pose proof (e_bal _ _ H f Hf) as Bf.
  assert (EB := fun a => upd_bal n s to id a H Hn).
  assert (Ef : mget (Erc721.balances (upd_state to id (erc721 s))) f = bal_of s f - 1).
  { rewrite EB by exact Hf. fold f. rewrite decide_True by reflexivity. rewrite decide_False by congruence. lia. }
  assert (Et : mget (Erc721.balances (upd_state to id (erc721 s))) to = bal_of s to + 1).
  { rewrite EB by exact Ht. fold f. rewrite decide_False by congruence. rewrite decide_True by reflexivity. lia. }
  unfold len, ot', ix'. rewrite Ef, Et. unfold wsub.
  replace (bal_of s to + 1 - 1) with (bal_of s to) by lia. rewrite Z.mod_small by lia.
  (* remove, then add *)
  pose proof (OP_remove _ _ _ _ (fun j => if decide (id = j) then 0 else own_of s j)
     (fun a => if decide (f = a) then bal_of s a - 1 else bal_of s a) id (e_op _ _ H) Hf
     ltac:(reflexivity) ltac:(reflexivity)) as R1. fold f in R1.
  split; cbn [erc721 enumerable].
  - lia.
  - intros a Ha. unfold bal_of. cbn [erc721]. rewrite EB by exact Ha. pose proof (e_bal _ _ H a Ha).
    pose proof (op_tok _ _ _ _ (e_op _ _ H) id Hf) as [X _]. fold f in X. fold f. unfold bal_of in *.
    destruct (decide (f = a)) as [E|]; [rewrite E in *|]; dec; lia.
  - replace (bal_of s to) with ((fun a => if decide (f = a) then bal_of s a - 1 else bal_of s a) to)
      by (cbn beta; rewrite decide_False by exact Hne; reflexivity).
    apply (OP_add _ _ _ _ _ _ to id R1).
    + cbn beta. rewrite decide_True by reflexivity. reflexivity.
    + exact Ht.
    + cbn beta. rewrite decide_False by exact Hne. lia.
    + intros j. unfold own_of; cbn [erc721]. rewrite owner_upd. dec; reflexivity.
    + intros a Ha. unfold bal_of at 1; cbn [erc721]. rewrite EB by exact Ha. fold f. cbn beta. dec; try congruence; lia.
  - cbn. eapply AP_same; [apply (e_ap _ _ H)|]. intros j. unfold own_of; cbn [erc721]. rewrite owner_upd.
    destruct (decide (id = j)) as [<-|]; [|tauto]. unfold own_of in Hf. tauto.
  - intros i. unfold own_of; cbn [erc721]. rewrite owner_upd. apply e_appr_upd. apply (e_appr _ _ H).
  - apply (e_op0 _ _ H).
Qed.

Section ops.
  Context (has_code : Z -> bool).

  Lemma on_erc721_ok {A} (m : M Erc721.state Erc721.error A) s a s' :
    on_erc721 m s = (Ok a, s') -> exists e, m (erc721 s) = (Ok a, e) /\ s' = mk e (enumerable s) (pausable s).
  Proof.
    unfold on_erc721. mred. destruct (m (erc721 s)) as [[x|y|] e]; intros H; inversion H; subst. eauto.
  Qed.
  Lemma on_pausable_ok {A} (m : M Pausable.state Pausable.error A) s a s' :
    on_pausable m s = (Ok a, s') -> exists p, s' = mk (erc721 s) (enumerable s) p.
  Proof.
    unfold on_pausable. mred. destruct (m (pausable s)) as [[x|y|] e]; intros H; inversion H; subst. eauto.
  Qed.
  Lemma on_enum_ok {A} (m : Erc721.state -> M Enumerable.state Erc721.error A) s a s' :
    on_enum m s = (Ok a, s') -> exists x, m (erc721 s) (enumerable s) = (Ok a, x) /\ s' = mk (erc721 s) x (pausable s).
  Proof.
    unfold on_enum. mred. destruct (m (erc721 s) (enumerable s)) as [[z|y|] e]; intros H; inversion H; subst. eauto.
  Qed.
  Lemma answers_ok fin op f t id d (s s' : Erc721.state) :
    Erc721._check_on_erc721_received has_code (answers fin) op f t id d s = (Ok tt, s') -> s' = s.
  Proof. intros H. apply check_received_ok in H. destruct H as [[_ H]|[_ H]]; [exact H|]. inversion H. reflexivity. Qed.

  Lemma EInv_pausable n s p : EInv n s -> EInv n (mk (erc721 s) (enumerable s) p).
  Proof. intros []. split; auto. Qed.

  (** The common tail of the transfers. *)
  Lemma transfer_tail n s to id s' :
    EInv n s -> n + 1 < two256 -> own_of s id <> 0 -> to <> 0 -> own_of s id <> to ->
    (on_enum (Enumerable._remove_token_from_owner_enumeration (own_of s id) id) ;;;
     on_enum (Enumerable._add_token_to_owner_enumeration to id)) (mk (upd_state to id (erc721 s)) (enumerable s) (pausable s))
    = (Ok tt, s') -> EInv (n + 1) s'.
  Proof.
    intros H Hn Hf Ht Hne X. apply bind_ok in X. destruct X as ([] & s1 & X1 & X2).
    apply on_enum_ok in X1. destruct X1 as (x1 & X1 & ->). cbn [erc721 enumerable pausable] in X1.
    rewrite remove_owner_eq in X1 by exact Hf. inversion X1; subst x1. clear X1.
    apply on_enum_ok in X2. destruct X2 as (x2 & X2 & ->). cbn [erc721 enumerable pausable] in X2.
    rewrite add_owner_eq in X2 by exact Ht. inversion X2; subst x2. clear X2.
    cbn [erc721 enumerable pausable]. eapply transfer_keeps; eauto.
  Qed.

  Lemma mint_keeps n s to id s' :
    EInv n s -> n + 1 < two256 -> own_of s id = 0 -> to <> 0 ->
    (on_enum (fun _ => Enumerable._add_token_to_all_tokens_enumeration id) ;;;
     on_enum (Enumerable._add_token_to_owner_enumeration to id)) (mk (upd_state to id (erc721 s)) (enumerable s) (pausable s))
    = (Ok tt, s') -> EInv (n + 1) s'.
  Proof.
    intros H Hn Hf Ht X. apply bind_ok in X. destruct X as ([] & s1 & X1 & X2).
    apply on_enum_ok in X1. destruct X1 as (x1 & X1 & ->). cbn [erc721 enumerable pausable] in X1.
    inversion X1; subst x1. clear X1.
    apply on_enum_ok in X2. destruct X2 as (x2 & X2 & ->). cbn [erc721 enumerable pausable] in X2.
    rewrite add_owner_eq in X2 by exact Ht. cbn zeta in X2. cbn [erc721 pausable].
    pose proof (e_bal _ _ H to Ht) as Bt. assert (EB := fun a => upd_bal n s to id a H Hn).
    assert (Et : mget (Erc721.balances (upd_state to id (erc721 s))) to = bal_of s to + 1).
    { rewrite EB by exact Ht. rewrite Hf, decide_False by congruence. rewrite decide_True by reflexivity. lia. }
    rewrite Et in X2. unfold wsub in X2. replace (bal_of s to + 1 - 1) with (bal_of s to) in X2 by lia.
    rewrite Z.mod_small in X2 by lia. inversion X2; subst x2. clear X2.
    assert (Ow : forall j, own_of (mk (upd_state to id (erc721 s)) (enumerable s) (pausable s)) j = if decide (id = j) then to else own_of s j).
    { intros j. unfold own_of; cbn [erc721]. apply owner_upd. }
    split; cbn [erc721 enumerable].
    - lia.
    - intros a Ha. unfold bal_of; cbn [erc721]. rewrite EB by exact Ha. pose proof (e_bal _ _ H a Ha).
      rewrite Hf, decide_False by congruence. dec; lia.
    - apply (OP_add _ _ _ _ _ _ to id (e_op _ _ H) Hf Ht); [lia|exact Ow|].
      intros a Ha. unfold bal_of at 1; cbn [erc721]. rewrite EB by exact Ha. rewrite Hf, (decide_False (P := 0 = a)) by congruence. dec; lia.
    - apply (AP_add _ _ _ _ to id (e_ap _ _ H) Hf Ht Ow).
    - intros i. unfold own_of; cbn [erc721]. rewrite owner_upd. apply e_appr_upd. apply (e_appr _ _ H).
    - apply (e_op0 _ _ H).
  Qed.

  Lemma burn_keeps n s id s' :
    EInv n s -> n + 1 < two256 -> own_of s id <> 0 ->
    (on_enum (Enumerable._remove_token_from_owner_enumeration (own_of s id) id) ;;;
     on_enum (fun _ => Enumerable._remove_token_from_all_tokens_enumeration id)) (mk (upd_state 0 id (erc721 s)) (enumerable s) (pausable s))
    = (Ok tt, s') -> EInv (n + 1) s'.
  Proof.
    intros H Hn Hf X. apply bind_ok in X. destruct X as ([] & s1 & X1 & X2).
    apply on_enum_ok in X1. destruct X1 as (x1 & X1 & ->). cbn [erc721 enumerable pausable] in X1.
    rewrite remove_owner_eq in X1 by exact Hf. cbn zeta in X1.
    apply on_enum_ok in X2. destruct X2 as (x2 & X2 & ->). cbn [erc721 enumerable pausable] in X2.
    set (f := own_of s id) in *. assert (EB := fun a => upd_bal n s 0 id a H Hn).
    pose proof (e_bal _ _ H f Hf) as Bf. pose proof (op_tok _ _ _ _ (e_op _ _ H) id Hf) as [Xr _]. fold f in Xr.
    assert (Ef : mget (Erc721.balances (upd_state 0 id (erc721 s))) f = bal_of s f - 1).
    { rewrite EB by exact Hf. fold f. rewrite decide_True by reflexivity. rewrite decide_False by congruence. lia. }
    rewrite Ef in X1. inversion X1; subst x1. clear X1.
    unfold Enumerable._remove_token_from_all_tokens_enumeration, Enumerable.total_supply in X2. mred_in X2.
    cbn [Enumerable.all_tokens Enumerable.all_tokens_index Enumerable.set_all Enumerable.set_all_index
         Enumerable.owned_tokens Enumerable.owned_tokens_index] in X2.
    set (l := Enumerable.all_tokens (enumerable s)) in *.
    destruct (Z.eqb_spec (Z.of_nat (length l)) 0) as [|L0]; [discriminate|].
    unfold Enumerable.vget, Enumerable.vset in X2. rewrite (proj2 (Z.ltb_ge _ 0)) in X2 by lia.
    replace (Z.to_nat (Z.of_nat (length l) - 1)) with (length l - 1)%nat in X2 by lia.
    cbn [Enumerable.all_tokens Enumerable.all_tokens_index Enumerable.set_all Enumerable.set_all_index Enumerable.owned_tokens Enumerable.owned_tokens_index] in X2.
    destruct (nth_error l (length l - 1)) as [lid|] eqn:Elid; [|discriminate].
    cbn [Enumerable.all_tokens Enumerable.all_tokens_index Enumerable.set_all Enumerable.set_all_index Enumerable.owned_tokens Enumerable.owned_tokens_index] in X2.
    destruct (_ || _) in X2; [discriminate|]. cbn [Enumerable.all_tokens Enumerable.all_tokens_index Enumerable.set_all Enumerable.set_all_index Enumerable.owned_tokens Enumerable.owned_tokens_index] in X2. inversion X2; subst x2. clear X2. cbn [pausable erc721].
    assert (Ow : forall j, own_of (mk (upd_state 0 id (erc721 s)) (enumerable s) (pausable s)) j = if decide (id = j) then 0 else own_of s j).
    { intros j. unfold own_of; cbn [erc721]. apply owner_upd. }
    split; cbn [erc721 enumerable Enumerable.owned_tokens Enumerable.owned_tokens_index Enumerable.all_tokens Enumerable.all_tokens_index].
    - lia.
    - intros a Ha. unfold bal_of; cbn [erc721]. rewrite EB by exact Ha. pose proof (e_bal _ _ H a Ha). fold f.
      rewrite (decide_False (P := 0 = a)) by congruence. destruct (decide (f = a)) as [E|]; [rewrite <- E in *|]; lia.
    - apply (OP_remove _ _ _ _ _ _ id (e_op _ _ H) Hf Ow).
      intros a Ha. unfold bal_of at 1; cbn [erc721]. rewrite EB by exact Ha. fold f. rewrite (decide_False (P := 0 = a)) by congruence. dec; lia.
    - apply (AP_remove _ _ _ _ id lid (e_ap _ _ H) Hf Ow Elid).
    - intros i. unfold own_of; cbn [erc721]. rewrite owner_upd. apply e_appr_upd. apply (e_appr _ _ H).
    - apply (e_op0 _ _ H).
  Qed.

  Lemma owner_of_ok id (e e' : Erc721.state) a :
    Erc721.owner_of id e = (Ok a, e') -> a = Erc721._owner_of id e /\ a <> 0 /\ e' = e.
  Proof.
    unfold Erc721.owner_of, Erc721._require_owned. mred. destruct (Z.eqb_spec (Erc721._owner_of id e) 0); intros H; inversion H; subst; auto.
  Qed.
  Lemma eta s : mk (erc721 s) (enumerable s) (pausable s) = s. Proof. destruct s; reflexivity. Qed.

  Lemma EInv_step n s c o s' :
    EInv n s -> n + 1 < two256 -> op_wf (c, o) -> no_self (c, o) ->
    exec has_code c o s = (Ok tt, s') -> EInv (n + 1) s'.
  Proof.
    intros H Hn [Hc Hw] Hns X. cbn [fst snd] in *. unfold no_self in Hns; cbn [snd] in Hns.
    assert (Pz : forall s1, on_pausable Pausable.when_not_paused s = (Ok tt, s1) -> s1 = s).
    { intros s1 Y. unfold on_pausable, Pausable.when_not_paused in Y. mred_in Y.
      destruct (Pausable.paused (pausable s)); inversion Y; subst. apply eta. }
    destruct o; cbn [exec] in X.
    - unfold burn in X. apply bind_ok in X. destruct X as ([] & s1 & X1 & X). apply Pz in X1. subst s1.
      apply bind_ok in X. destruct X as (w & s1 & X1 & X). apply on_erc721_ok in X1. destruct X1 as (e & X1 & ->).
      apply owner_of_ok in X1. destruct X1 as (-> & W & ->). rewrite eta in X.
      apply bind_ok in X. destruct X as ([] & s1 & X1 & X). apply on_erc721_ok in X1. destruct X1 as (e & X1 & ->).
      apply burn_ok in X1; [|exact Hc]. destruct X1 as [_ ->]. eapply burn_keeps; eauto.
    - unfold mint in X. apply bind_ok in X. destruct X as ([] & s1 & X1 & X). apply Pz in X1. subst s1.
      apply bind_ok in X. destruct X as ([] & s1 & X1 & X). apply on_erc721_ok in X1. destruct X1 as (e & X1 & ->).
      apply mint_ok in X1. destruct X1 as (A1 & A2 & ->). eapply mint_keeps; eauto.
    - unfold safe_mint, Erc721._safe_mint in X. apply bind_ok in X. destruct X as ([] & s1 & X1 & X). apply Pz in X1. subst s1.
      apply bind_ok in X. destruct X as ([] & s1 & X1 & X). apply on_erc721_ok in X1. destruct X1 as (e & X1 & ->).
      apply bind_ok in X1. destruct X1 as ([] & e1 & X1 & X2). apply answers_ok in X2. subst e1.
      apply mint_ok in X1. destruct X1 as (A1 & A2 & ->). eapply mint_keeps; eauto.
    - unfold transfer_from in X. apply bind_ok in X. destruct X as ([] & s1 & X1 & X). apply Pz in X1. subst s1.
      apply bind_ok in X. destruct X as (w & s1 & X1 & X). apply on_erc721_ok in X1. destruct X1 as (e & X1 & ->).
      apply owner_of_ok in X1. destruct X1 as (-> & W & ->). rewrite eta in X.
      apply bind_ok in X. destruct X as ([] & s1 & X1 & X). apply on_erc721_ok in X1. destruct X1 as (e & X1 & ->).
      apply transfer_from_ok in X1; [|exact Hc]. destruct X1 as (A1 & A2 & _ & ->).
      eapply transfer_tail; eauto. unfold own_of. congruence.
    - unfold safe_transfer_from_with_data, Erc721.safe_transfer_from_with_data in X.
      apply bind_ok in X. destruct X as ([] & s1 & X1 & X). apply Pz in X1. subst s1.
      apply bind_ok in X. destruct X as (w & s1 & X1 & X). apply on_erc721_ok in X1. destruct X1 as (e & X1 & ->).
      apply owner_of_ok in X1. destruct X1 as (-> & W & ->). rewrite eta in X.
      apply bind_ok in X. destruct X as ([] & s1 & X1 & X). apply on_erc721_ok in X1. destruct X1 as (e & X1 & ->).
      apply bind_ok in X1. destruct X1 as ([] & e1 & X1 & X2). apply answers_ok in X2. subst e1.
      apply transfer_from_ok in X1; [|exact Hc]. destruct X1 as (A1 & A2 & _ & ->).
      eapply transfer_tail; eauto. unfold own_of. congruence.
    - apply on_erc721_ok in X. destruct X as (e & X & ->). apply approve_ok in X; [|exact Hc]. destruct X as [[W _] ->].
      destruct (EInv_weaken _ (n + 1) _ H ltac:(lia)). split; auto.
      intros i. unfold own_of, Erc721._get_approved, appr_state; cbn. intros E.
      assert (token_id <> i). { intros ->. apply W. exact E. }
      rewrite mget_set_ne by assumption. apply e_appr0. exact E.
    - apply on_erc721_ok in X. destruct X as (e & X & ->). apply set_all_ok in X. destruct X as [W ->].
      destruct (EInv_weaken _ (n + 1) _ H ltac:(lia)). split; auto.
      intros p. unfold Erc721.is_approved_for_all, all_state; cbn. rewrite getd_set. rewrite decide_False by congruence. apply e_op2.
    - apply on_pausable_ok in X. destruct X as (p & ->). apply EInv_pausable. eapply EInv_weaken; [exact H|lia].
    - apply on_pausable_ok in X. destruct X as (p & ->). apply EInv_pausable. eapply EInv_weaken; [exact H|lia].
  Qed.

  Lemma EInv_run l : forall n s,
    EInv n s -> Forall op_wf l -> Forall no_self l -> n + Z.of_nat (length l) < two256 ->
    EInv (n + Z.of_nat (length l)) (run has_code l s).
  Proof.
    induction l as [|[c o] l IH]; intros n s H Hw Hns Hn.
    - cbn. rewrite Z.add_0_r. exact H.
    - inversion Hw; subst. inversion Hns; subst. cbn [length] in *.
      change (run has_code ((c, o) :: l) s) with (run has_code l (step has_code s (c, o))).
      replace (n + Z.of_nat (S (length l))) with ((n + 1) + Z.of_nat (length l)) by lia.
      apply IH; auto; [|lia]. unfold step, tx. cbn [fst snd].
      destruct (exec has_code c o s) as [[[]|e|] s'] eqn:E; cbn [snd]; [|eapply EInv_weaken; [exact H|lia]..].
      eapply EInv_step; eauto. lia.
  Qed.
End ops.

(** From the invariant to the getters. *)
Lemma nth_error_map_seq (f : Z -> Z) n i :
  nth_error (map (fun k => f (Z.of_nat k)) (seq 0 n)) i = if (i <? n)%nat then Some (f (Z.of_nat i)) else None.
Proof.
  destruct (Nat.ltb_spec i n) as [L|L].
  - apply (map_nth_error (fun k => f (Z.of_nat k))). rewrite (nth_error_nth' _ 0%nat) by (rewrite seq_length; exact L). rewrite seq_nth by exact L. reflexivity.
  - apply nth_error_None. rewrite map_length, seq_length. exact L.
Qed.
Lemma EInv_exact n s : EInv n s -> exact_enumeration s.
Proof.
  intros H. split.
  - intros a Ha. pose proof (e_bal _ _ H a Ha) as Hb. destruct (e_op _ _ H) as [H1 H2 H3].
    set (ot := Enumerable.owned_tokens (enumerable s)) in *. set (ix := Enumerable.owned_tokens_index (enumerable s)) in *.
    set (L := map (fun k => mget ot (a, Z.of_nat k)) (seq 0 (Z.to_nat (bal_of s a)))).
    assert (NL : forall i, nth_error L i = if (i <? Z.to_nat (bal_of s a))%nat then Some (mget ot (a, Z.of_nat i)) else None).
    { intros i. unfold L. apply (nth_error_map_seq (fun k => mget ot (a, k))). }
    assert (LL : length L = Z.to_nat (bal_of s a)) by (unfold L; rewrite map_length, seq_length; reflexivity).
    exists L. split; [|split].
    + split.
      * apply NoDup_ListNoDup, NoDup_nth_error. intros i j Hi E. rewrite LL in Hi. rewrite !NL in E.
        rewrite (proj2 (Nat.ltb_lt _ _) Hi) in E. destruct (Nat.ltb_spec j (Z.to_nat (bal_of s a))); [|discriminate].
        inversion E as [E']. destruct (H1 a (Z.of_nat i) Ha ltac:(lia)) as [_ X]. destruct (H1 a (Z.of_nat j) Ha ltac:(lia)) as [_ Y].
        rewrite E' in X. lia.
      * intros id. rewrite owner_iff. rewrite elem_of_list_In. split.
        -- intros Hin. apply In_nth_error in Hin. destruct Hin as [i Hi]. rewrite NL in Hi.
           destruct (Nat.ltb_spec i (Z.to_nat (bal_of s a))); [|discriminate]. inversion Hi.
           destruct (H1 a (Z.of_nat i) Ha ltac:(lia)) as [X _]. split; [exact Ha|]. exact X.
        -- intros [_ E]. assert (W : own_of s id <> 0) by (unfold own_of; congruence). destruct (H2 id W) as [X Y].
           unfold own_of in X, Y. rewrite E in X, Y. apply (nth_error_In _ (Z.to_nat (mget ix id))). rewrite NL.
           rewrite (proj2 (Nat.ltb_lt _ _)) by lia. rewrite Z2Nat.id by lia. rewrite Y. reflexivity.
    + apply balance_iff. split; [exact Ha|]. rewrite LL, Z2Nat.id by lia. reflexivity.
    + intros i Hi. unfold Enumerable.token_of_owner_by_index. fold ot. rewrite NL.
      destruct (Nat.ltb_spec (Z.to_nat i) (Z.to_nat (bal_of s a))); [rewrite Z2Nat.id by lia; reflexivity|].
      rewrite H3 by lia. reflexivity.
  - destruct (e_ap _ _ H) as [H1 H2]. exists (Enumerable.all_tokens (enumerable s)). split; [|split; [|split]].
    + apply NoDup_ListNoDup, NoDup_nth_error. intros i j Hi E. destruct (nth_error (Enumerable.all_tokens (enumerable s)) i) as [x|] eqn:Ei.
      * symmetry in E. pose proof (H1 i x Ei). pose proof (H1 j x E). lia.
      * apply nth_error_None in Ei. lia.
    + intros id. rewrite exists_iff, elem_of_list_In. split.
      * intros Hin. apply In_nth_error in Hin. destruct Hin as [i Hi]. apply (H1 i id Hi).
      * intros W. destruct (H2 id W) as (i & _ & Hi). apply (nth_error_In _ _ Hi).
    + reflexivity.
    + intros i Hi. unfold Enumerable.token_by_index, Enumerable.vget. rewrite (proj2 (Z.ltb_ge i 0)) by lia. reflexivity.
Qed.
