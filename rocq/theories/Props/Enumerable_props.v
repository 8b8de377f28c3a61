(** ERC-721 Enumerable, through the shipped example contract: properties C40 and C41. *)
From Verif.Base Require Import Prelude Maps.
From Verif.Model Require Erc721 Enumerable Pausable Erc721Example.
From Verif.Spec Require Import Erc721_spec Enumerable_spec.
From Verif.Proofs Require Import Erc721_lemmas Enumerable_lemmas.
From stdpp Require Import gmap.
Import Erc721Example.
#[global] Open Scope Z_scope.

(** ** C40: after every history without self transfers, the owners' lists and the global
    list are exact: no token missing, repeated or foreign, and nothing beyond the end.
    The one exception is visible in [owner_listing]: id 0 (see C41). *)
Theorem c40_enumeration_exact has_code l :
  Forall op_wf l -> Forall no_self l -> Z.of_nat (length l) < two256 ->
  exact_enumeration (run has_code l init).
Proof.
  intros Hw Hn Hl. eapply EInv_exact. apply (EInv_run has_code l 0); auto. apply EInv_init.
Qed.
Print Assumptions c40_enumeration_exact.

(** The list of an owner without token 0 is what the getter returns for 0 .. balance - 1,
    and every index from the balance on is an error. *)
Theorem c40_index_below_balance has_code l a n :
  Forall op_wf l -> Forall no_self l -> Z.of_nat (length l) < two256 -> a <> 0 ->
  let s := run has_code l init in
  balance (erc721 s) a n -> ~ owner (erc721 s) 0 a ->
  (forall i, 0 <= i < n -> exists id, Enumerable.token_of_owner_by_index a i (enumerable s) = Ok id /\ owner (erc721 s) id a) /\
  (forall i, n <= i -> Enumerable.token_of_owner_by_index a i (enumerable s) = Err (Enumerable.OutOfBoundsIndex a i)) /\
  (forall id, owner (erc721 s) id a -> exists i, 0 <= i < n /\ Enumerable.token_of_owner_by_index a i (enumerable s) = Ok id).
Proof.
  intros Hw Hn Hl Ha s Hb H0. destruct (proj1 (c40_enumeration_exact has_code l Hw Hn Hl) a Ha) as (L & [_ HL] & Hb' & HI).
  fold s in HL, Hb', HI. unfold balance in *. rewrite Hb in Hb'. inversion Hb'; subst n. clear Hb' Hb.
  assert (Get : forall i id, nth_error L i = Some id -> Enumerable.token_of_owner_by_index a (Z.of_nat i) (enumerable s) = Ok id).
  { intros i id E. rewrite HI by lia. rewrite Nat2Z.id, E. assert (owner (erc721 s) id a).
    { apply HL, elem_of_list_In, (nth_error_In _ _ E). }
    destruct (Z.eqb_spec id 0); [congruence|reflexivity]. }
  split; [|split].
  - intros i Hi. destruct (nth_error L (Z.to_nat i)) as [id|] eqn:E.
    + exists id. split; [|apply HL, elem_of_list_In, (nth_error_In _ _ E)]. apply Get in E. rewrite Z2Nat.id in E by lia. exact E.
    + apply nth_error_None in E. lia.
  - intros i Hi. rewrite HI by lia. rewrite (proj2 (nth_error_None L (Z.to_nat i))) by lia. reflexivity.
  - intros id Hid. apply HL, elem_of_list_In, In_nth_error in Hid. destruct Hid as [i E].
    exists (Z.of_nat i). assert (i < length L)%nat by (apply nth_error_Some; congruence). split; [lia|]. apply Get, E.
Qed.
Print Assumptions c40_index_below_balance.

(** The hooks never fail or panic: a call succeeds exactly when the contract is not
    paused and the underlying ERC-721 call does. *)
Definition base_call (has_code : Z -> bool) (c : Z) (o : op) : option (M Erc721.state Erc721.error unit) :=
  match o with
  | Burn i => Some (Erc721.burn c i)
  | Mint t i => Some (Erc721._mint t i)
  | SafeMint t i d f => Some (Erc721._safe_mint has_code (answers f) c t i d)
  | TransferFrom f t i => Some (Erc721.transfer_from c f t i)
  | SafeTransferFrom f t i d r => Some (Erc721.safe_transfer_from_with_data has_code (answers r) c f t i d)
  | _ => None
  end.
Theorem c40_hooks_never_fail has_code l c o m :
  Forall op_wf l -> Forall no_self l -> Z.of_nat (length l) < two256 ->
  op_wf (c, o) -> base_call has_code c o = Some m ->
  let s := run has_code l init in
  is_ok (fst (exec has_code c o s)) = negb (Pausable.paused (pausable s)) && is_ok (fst (m (erc721 s))) /\
  fst (exec has_code c o s) <> Panic /\
  (is_ok (fst (exec has_code c o s)) = true -> erc721 (snd (exec has_code c o s)) = snd (m (erc721 s))).
Proof.
  intros Hw Hns Hl [Hc Ho] Hm s. assert (H : EInv (Z.of_nat (length l)) s) by (apply (EInv_run has_code l 0); auto; apply EInv_init).
  clearbody s. cbn [fst snd] in *.
  assert (Own : forall i, Erc721.owner_of i (erc721 s) =
     ((if own_of s i =? 0 then Err (Erc721.NonexistentToken i) else Ok (own_of s i)), erc721 s)).
  { intros i. unfold Erc721.owner_of, Erc721._require_owned, own_of. mred. destruct (Erc721._owner_of i (erc721 s) =? 0); reflexivity. }
  assert (Auth0 : forall i, own_of s i = 0 -> Erc721._is_authorized 0 c i (erc721 s) = false).
  { intros i E. unfold Erc721._is_authorized. rewrite (proj2 (Z.eqb_neq c 0) Hc), (e_op0 _ _ H), (e_appr _ _ H i E).
    rewrite (proj2 (Z.eqb_neq 0 c)) by congruence. reflexivity. }
  assert (Ltail : forall i, own_of s i <> 0 -> forall e, exists e', (on_enum (Enumerable._remove_token_from_owner_enumeration (own_of s i) i) ;;;
     on_enum (fun _ => Enumerable._remove_token_from_all_tokens_enumeration i)) (mk e (enumerable s) (pausable s)) = (Ok tt, mk e e' (pausable s))).
  { intros i Hi e. unfold bind at 1, on_enum at 1, map_err, zoom. cbn [erc721 enumerable]. rewrite remove_owner_eq by exact Hi.
    cbn zeta. unfold on_enum, Enumerable._remove_token_from_all_tokens_enumeration, Enumerable.total_supply. mred.
    cbn [Enumerable.all_tokens Enumerable.all_tokens_index enumerable erc721 pausable].
    destruct (ap_tok _ _ _ (e_ap _ _ H) i Hi) as (k & E1 & E2).
    assert (Lk : (k < length (Enumerable.all_tokens (enumerable s)))%nat) by (apply nth_error_Some; congruence).
    set (L := Enumerable.all_tokens (enumerable s)) in *.
    replace (Z.of_nat (length L) =? 0) with false by lia. unfold Enumerable.vget, Enumerable.vset.
    replace (Z.of_nat (length L) - 1 <? 0) with false by lia.
    destruct (nth_error L (Z.to_nat (Z.of_nat (length L) - 1))) as [x|] eqn:E3.
    - cbn [Enumerable.all_tokens Enumerable.all_tokens_index enumerable]. fold L. rewrite E3, E1. cbn [Enumerable.all_tokens]. replace ((Z.of_nat k <? 0) || (Z.of_nat (length L) <=? Z.of_nat k)) with false by lia.
      eexists. reflexivity.
    - apply nth_error_None in E3. lia. }
  assert (Ttail : forall i f t, f <> 0 -> t <> 0 -> forall e, exists e', (on_enum (Enumerable._remove_token_from_owner_enumeration f i) ;;;
     on_enum (Enumerable._add_token_to_owner_enumeration t i)) (mk e (enumerable s) (pausable s)) = (Ok tt, mk e e' (pausable s))).
  { intros i f t Hf Ht e. unfold bind at 1, on_enum at 1, map_err, zoom. cbn [erc721 enumerable]. rewrite remove_owner_eq by exact Hf.
    unfold on_enum, map_err, zoom. cbn [erc721 enumerable]. rewrite add_owner_eq by exact Ht. eexists. reflexivity. }
  assert (Mtail : forall i t, t <> 0 -> forall e, exists e', (on_enum (fun _ => Enumerable._add_token_to_all_tokens_enumeration i) ;;;
     on_enum (Enumerable._add_token_to_owner_enumeration t i)) (mk e (enumerable s) (pausable s)) = (Ok tt, mk e e' (pausable s))).
  { intros i t Ht e. unfold bind at 1, on_enum at 1, Enumerable._add_token_to_all_tokens_enumeration. mred. cbn [erc721 enumerable].
    unfold on_enum, map_err, zoom. cbn [erc721 enumerable]. rewrite add_owner_eq by exact Ht. eexists. reflexivity. }
  assert (Pz : forall A (k : MX A), (on_pausable Pausable.when_not_paused ;;; k) s =
     if Pausable.paused (pausable s) then (Err (PausableError Pausable.EnforcedPause), s) else k s).
  { intros A k. unfold on_pausable, Pausable.when_not_paused. mred. destruct (Pausable.paused (pausable s)); rewrite eta; reflexivity. }
  assert (OnE : forall A B (m : M Erc721.state Erc721.error A) (k : A -> MX B), bind (on_erc721 m) k s =
     match m (erc721 s) with
     | (Ok a, e) => k a (mk e (enumerable s) (pausable s))
     | (Err x, e) => (Err (Erc721Error x), mk e (enumerable s) (pausable s))
     | (Panic, e) => (Panic, mk e (enumerable s) (pausable s))
     end).
  { intros A B m' k. unfold on_erc721. mred. destruct (m' (erc721 s)) as [[?|?|] ?]; reflexivity. }
  assert (NP : fst (m (erc721 s)) <> Panic).
  { assert (Chk : forall f op a t i d e, fst (Erc721._check_on_erc721_received has_code (answers f) op a t i d e) <> Panic).
    { intros. unfold Erc721._check_on_erc721_received, answers. destruct (has_code t); cbn [negb]; [|discriminate]. mred.
      destruct f as [v|[|x r]]; [destruct (negb _)|..]; discriminate. }
    assert (Mi : forall t i e, fst (Erc721._mint t i e) <> Panic).
    { intros. unfold Erc721._mint. mred. destruct (t =? 0); [discriminate|]. rewrite update_eq. cbn [Z.eqb orb].
      destruct (negb _); discriminate. }
    assert (Ti : forall f t i e, fst (Erc721.transfer_from c f t i e) <> Panic).
    { intros. unfold Erc721.transfer_from. mred. destruct (t =? 0); [discriminate|]. rewrite update_eq.
      destruct (_ || _); [|discriminate]. destruct (negb _); discriminate. }
    assert (Bi : forall A B (a : M Erc721.state Erc721.error A) (b : A -> M Erc721.state Erc721.error B) e,
      fst (a e) <> Panic -> (forall x e', fst (b x e') <> Panic) -> fst (bind a b e) <> Panic).
    { intros A B a b e H1 H2. unfold bind. destruct (a e) as [[?|?|] ?]; cbn in *; auto; discriminate. }
    destruct o; cbn in Hm; inversion Hm; subst m; auto.
    - unfold Erc721.burn. mred. rewrite update_eq. destruct (_ || _); discriminate.
    - apply Bi; auto.
    - apply Bi; auto. }
  destruct o; cbn [base_call] in Hm; inversion Hm; subst m; clear Hm; cbn [exec].
  - unfold burn. rewrite Pz. destruct (Pausable.paused (pausable s)); cbn [negb andb fst snd is_ok]; [repeat split; discriminate|].
    rewrite OnE, Own. destruct (Z.eqb_spec (own_of s token_id) 0) as [E|E]; cbn [fst snd is_ok].
    + assert (E' : Erc721.burn c token_id (erc721 s) = (Err (Erc721.NonexistentToken token_id), erc721 s)).
      { unfold Erc721.burn. mred. rewrite update_eq. fold (own_of s token_id). rewrite E, Auth0 by exact E.
        rewrite (proj2 (Z.eqb_neq c 0) Hc). reflexivity. }
      rewrite E'. repeat split; discriminate.
    + rewrite eta, OnE. destruct (Erc721.burn c token_id (erc721 s)) as [[[]|x|] e]; cbn [fst snd is_ok] in *; try (repeat split; discriminate); [|congruence].
      destruct (Ltail token_id E e) as [e' ->]. repeat split; discriminate.
  - unfold mint. rewrite Pz. destruct (Pausable.paused (pausable s)); cbn [negb andb fst snd is_ok]; [repeat split; discriminate|].
    rewrite OnE. destruct (Erc721._mint to token_id (erc721 s)) as [[[]|x|] e] eqn:Em; cbn [fst snd is_ok] in *; try (repeat split; discriminate); [|congruence].
    apply mint_ok in Em. destruct (Mtail token_id to (proj1 Em) e) as [e' ->]. repeat split; discriminate.
  - unfold safe_mint. rewrite Pz. destruct (Pausable.paused (pausable s)); cbn [negb andb fst snd is_ok]; [repeat split; discriminate|].
    rewrite OnE. destruct (Erc721._safe_mint has_code (answers fin) c to token_id data (erc721 s)) as [[[]|x|] e] eqn:Em;
      cbn [fst snd is_ok] in *; try (repeat split; discriminate); [|congruence].
    apply bind_ok in Em. destruct Em as ([] & e1 & Em & _). apply mint_ok in Em.
    destruct (Mtail token_id to (proj1 Em) e) as [e' ->]. repeat split; discriminate.
  - unfold transfer_from. rewrite Pz. destruct (Pausable.paused (pausable s)); cbn [negb andb fst snd is_ok]; [repeat split; discriminate|].
    rewrite OnE, Own. destruct (Z.eqb_spec (own_of s token_id) 0) as [E|E]; cbn [fst snd is_ok].
    + destruct (Erc721.transfer_from c from to token_id (erc721 s)) as [[[]|x|] e] eqn:Em; cbn [fst snd is_ok] in *; try (repeat split; discriminate).
      apply transfer_from_ok in Em; [|exact Hc]. destruct Em as (_ & <- & Em & _). fold (own_of s token_id) in Em. rewrite E, Auth0 in Em by exact E. discriminate.
    + rewrite eta, OnE. destruct (Erc721.transfer_from c from to token_id (erc721 s)) as [[[]|x|] e] eqn:Em;
        cbn [fst snd is_ok] in *; try (repeat split; discriminate); [|congruence].
      apply transfer_from_ok in Em; [|exact Hc]. destruct (Ttail token_id _ _ E (proj1 Em) e) as [e' ->]. repeat split; discriminate.
  - unfold safe_transfer_from_with_data. rewrite Pz. destruct (Pausable.paused (pausable s)); cbn [negb andb fst snd is_ok]; [repeat split; discriminate|].
    rewrite OnE, Own. destruct (Z.eqb_spec (own_of s token_id) 0) as [E|E]; cbn [fst snd is_ok].
    + destruct (Erc721.safe_transfer_from_with_data has_code (answers fin) c from to token_id data (erc721 s)) as [[[]|x|] e] eqn:Em;
        cbn [fst snd is_ok] in *; try (repeat split; discriminate).
      apply bind_ok in Em. destruct Em as ([] & e1 & Em & _).
      apply transfer_from_ok in Em; [|exact Hc]. destruct Em as (_ & <- & Em & _). fold (own_of s token_id) in Em. rewrite E, Auth0 in Em by exact E. discriminate.
    + rewrite eta, OnE. destruct (Erc721.safe_transfer_from_with_data has_code (answers fin) c from to token_id data (erc721 s)) as [[[]|x|] e] eqn:Em;
        cbn [fst snd is_ok] in *; try (repeat split; discriminate); [|congruence].
      apply bind_ok in Em. destruct Em as ([] & e1 & Em & _).
      apply transfer_from_ok in Em; [|exact Hc]. destruct (Ttail token_id _ _ E (proj1 Em) e) as [e' ->]. repeat split; discriminate.
Qed.
Print Assumptions c40_hooks_never_fail.

Definition demo : list (Z * op) :=
  [(1, Mint 5 10); (1, Mint 5 11); (1, Mint 5 12); (1, SafeMint 6 20 [] (Erc721.Failed []));
   (5, TransferFrom 5 6 10); (5, Burn 11); (6, Approve 7 20); (7, SafeTransferFrom 6 5 20 [] (Erc721.Returned 0x150b7a02));
   (9, Burn 12)].
Example c40_demo :
  Forall op_wf demo /\ Forall no_self demo /\
  let s := run (fun a => a =? 5) demo init in
  map (fun i => Enumerable.token_of_owner_by_index 5 i (enumerable s)) [0; 1; 2]
    = [Ok 12; Ok 20; Err (Enumerable.OutOfBoundsIndex 5 2)] /\
  map (fun i => Enumerable.token_by_index i (enumerable s)) [0; 1; 2; 3]
    = [Ok 10; Ok 20; Ok 12; Err (Enumerable.OutOfBoundsIndex 0 3)].
Proof.
  assert (two256 > 1000) by reflexivity.
  split; [|split].
  - unfold demo. repeat apply Forall_cons_2; try apply Forall_nil_2; unfold op_wf, is_u256; cbn; split; try discriminate; try exact I; lia.
  - unfold demo. repeat apply Forall_cons_2; try apply Forall_nil_2; unfold no_self; cbn; try discriminate; exact I.
  - split; vm_compute; reflexivity.
Qed.

(** ** C41 fails, first part: an owned token with id 0 is not enumerable. *)
Theorem c41_id_zero_refuted :
  exists l a, Forall op_wf l /\ Forall no_self l /\
    let s := run (fun _ => false) l init in
    owner (erc721 s) 0 a /\ balance (erc721 s) a 1 /\
    Enumerable.token_of_owner_by_index a 0 (enumerable s) = Err (Enumerable.OutOfBoundsIndex a 0).
Proof.
  exists [(1, Mint 5 0)], 5. assert (two256 > 1000) by reflexivity. split; [|split].
  - repeat apply Forall_cons_2; try apply Forall_nil_2; unfold op_wf, is_u256; cbn; split; try discriminate; lia.
  - repeat apply Forall_cons_2; try apply Forall_nil_2; exact I.
  - repeat split; vm_compute; reflexivity.
Qed.
Print Assumptions c41_id_zero_refuted.

(** Second part: after a successful transfer of a token to its own owner, one of the
    owner's indices is out of bounds and another token of theirs is lost from the list. *)
Theorem c41_self_transfer_refuted :
  exists l a, Forall op_wf l /\
    let s := run (fun _ => false) l init in
    let r := tx (transfer_from a a a 10) s in
    Enumerable.token_of_owner_by_index a 0 (enumerable s) = Ok 10 /\
    Enumerable.token_of_owner_by_index a 1 (enumerable s) = Ok 11 /\
    fst r = Ok tt /\ owner (erc721 (snd r)) 11 a /\ balance (erc721 (snd r)) a 2 /\
    Enumerable.token_of_owner_by_index a 0 (enumerable (snd r)) = Err (Enumerable.OutOfBoundsIndex a 0) /\
    (forall i, Enumerable.token_of_owner_by_index a i (enumerable (snd r)) <> Ok 11).
Proof.
  exists [(1, Mint 5 10); (1, Mint 5 11)], 5. assert (two256 > 1000) by reflexivity. split.
  - repeat apply Forall_cons_2; try apply Forall_nil_2; unfold op_wf, is_u256; cbn; split; try discriminate; lia.
  - intros s r.
    assert (Er : Enumerable.owned_tokens (enumerable (snd r)) =
      mset (mset (mset (mset (mset ∅ (5, 0) 10) (5, 1) 11) (5, 0) 0) (5, 2) 0) (5, 1) 10) by (vm_compute; reflexivity).
    split; [vm_compute; reflexivity|]. split; [vm_compute; reflexivity|]. split; [vm_compute; reflexivity|].
    split; [vm_compute; reflexivity|]. split; [vm_compute; reflexivity|]. split; [vm_compute; reflexivity|].
    intros i. unfold Enumerable.token_of_owner_by_index. rewrite Er.
    rewrite mget_set. destruct (decide ((5, 1) = (5, i))); [discriminate|].
    rewrite mget_set. destruct (decide ((5, 2) = (5, i))); [discriminate|].
    rewrite mget_set. destruct (decide ((5, 0) = (5, i))); [discriminate|].
    rewrite mget_set. destruct (decide ((5, 1) = (5, i))); [congruence|].
    rewrite mget_set. destruct (decide ((5, 0) = (5, i))); [congruence|]. rewrite mget_empty. discriminate.
Qed.
Print Assumptions c41_self_transfer_refuted.

(** What does hold of C41: the only index of an owner's list that is refused below the
    balance is the one holding id 0. *)
Theorem c41_only_zero_hidden_partial has_code l a n i :
  Forall op_wf l -> Forall no_self l -> Z.of_nat (length l) < two256 -> a <> 0 ->
  let s := run has_code l init in
  balance (erc721 s) a n -> 0 <= i < n ->
  Enumerable.token_of_owner_by_index a i (enumerable s) = Err (Enumerable.OutOfBoundsIndex a i) ->
  owner (erc721 s) 0 a /\
  forall j, 0 <= j < n -> j <> i -> exists id, Enumerable.token_of_owner_by_index a j (enumerable s) = Ok id.
Proof.
  intros Hw Hn Hl Ha s Hb Hi He. destruct (proj1 (c40_enumeration_exact has_code l Hw Hn Hl) a Ha) as (L & [Hnd HL] & Hb' & HI).
  fold s in HL, Hb', HI. unfold balance in *. rewrite Hb in Hb'. inversion Hb'; subst n. clear Hb' Hb.
  rewrite HI in He by lia. destruct (nth_error L (Z.to_nat i)) as [id|] eqn:E.
  2: { apply nth_error_None in E. lia. }
  destruct (Z.eqb_spec id 0) as [->|]; [|discriminate]. split; [apply HL, elem_of_list_In, (nth_error_In _ _ E)|].
  intros j Hj Hne. rewrite HI by lia. destruct (nth_error L (Z.to_nat j)) as [id|] eqn:E2.
  2: { apply nth_error_None in E2. lia. }
  destruct (Z.eqb_spec id 0) as [->|]; [|eauto]. exfalso. apply Hne.
  apply NoDup_ListNoDup in Hnd. assert (Z.to_nat j = Z.to_nat i); [|lia].
  eapply (proj1 (NoDup_nth_error L) Hnd); [lia|congruence].
Qed.
Print Assumptions c41_only_zero_hidden_partial.
