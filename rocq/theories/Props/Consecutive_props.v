(** ERC-721 consecutive extension: properties C38 and C39.

    The reference semantics [ideal_run] (Spec/Consecutive_spec.v) is ownership as a plain
    function: a batch gives the next [n] ids to its recipient, transfers and burns change
    one id. *)
From Verif.Base Require Import Prelude Maps.
From Verif.Model Require Erc721 Consecutive.
From Verif.Spec Require Import Consecutive_spec.
From Verif.Proofs Require Erc721_lemmas.
From Verif.Proofs Require Import Consecutive_lemmas.
From stdpp Require Import gmap.
Import Consecutive.
#[global] Open Scope Z_scope.

Section props.
  Context (first max : Z) (Hfirst : 0 <= first < two96).

  (** What "the extension behaves like the reference" means, through the getters. *)
  Definition agrees (s : state) (i : ideal) : Prop :=
    (forall id a, owner first s id a <-> a <> 0 /\ iown i id = a) /\
    (forall id, iown i id = 0 -> no_owner first s id) /\
    (forall a, a <> 0 -> exists l, tokens_of first s a l /\
       balance s a (Z.of_nat (length l) mod two256) /\
       ((exists j, is_u256 j /\ ~ owner first s j a) -> balance s a (Z.of_nat (length l)))).

  Lemma R_agrees fr n s i : R first fr n s i -> agrees s i.
  Proof.
    intros H. pose proof (r_sorted _ _ _ _ _ H) as Hs. pose proof (r_len_ok _ _ _ _ _ H) as Hl.
    assert (Eo : forall id, owner_of first id s =
      (if iown i id =? 0 then Err (ErrErc721 (Erc721.NonexistentToken id)) else Ok (iown i id), s)).
    { intros id. unfold owner_of, _require_owned. rewrite bindr, (owner_eq first s id Hs Hl), (r_own _ _ _ _ _ H). mred.
      destruct (iown i id =? 0); reflexivity. }
    assert (Ow : forall id a, owner first s id a <-> a <> 0 /\ iown i id = a).
    { intros id a. unfold owner. rewrite Eo. cbn [fst]. destruct (Z.eqb_spec (iown i id) 0).
      - split; [discriminate|]. intros [? ?]. congruence.
      - split; [intros E; inversion E; subst; auto|intros [_ ->]; reflexivity]. }
    split; [exact Ow|]. split.
    { intros id E. unfold no_owner. rewrite Eo, E. reflexivity. }
    intros a Ha. destruct (r_count _ _ _ _ _ H a Ha) as (l & Hn & Hll & Hb). exists l.
    assert (B : forall n, balance s a n <-> mget (Erc721.balances (erc721 s)) a = n).
    { intros m. unfold balance, balance_of, on_base, Erc721.balance_of. mred.
      rewrite (proj2 (Z.eqb_neq a 0) Ha). cbn. split; [intros E; inversion E; reflexivity|intros ->; reflexivity]. }
    split; [split; [exact Hn|intros id; rewrite Hll, Ow; tauto]|]. split; [apply B; exact Hb|].
    intros (j & Hj & Hnj). apply B. rewrite Hb. apply Z.mod_small. split; [lia|].
    apply (Erc721_lemmas.ids_bound_strict l j); auto.
    - intros x Hx. apply (r_ids _ _ _ _ _ H). apply Hll in Hx. congruence.
    - rewrite Hll. intros E. apply Hnj, Ow. auto.
  Qed.

  (** ** C39, corrected: single mints interleaved with batches.
      Provided single mints stay off the ids that later batches will take, ownership is
      exactly the reference's and balances count owned ids. *)
  Theorem c39_disciplined_interleaving_partial l :
    Forall op_wf l -> Z.of_nat (length l) < two64 ->
    let i := ideal_run first max l init (istart first) in
    disciplined first max l init (istart first) -> inext i < two96 ->
    agrees (run first max l init) i.
  Proof.
    intros Hw Hlen i Hd Hx. eapply R_agrees. apply (R_run first max Hfirst l 0); auto. apply R_init; auto.
  Qed.

  Lemma not_mint_disciplined l : forall s i, Forall not_mint l -> disciplined first max l s i.
  Proof.
    induction l as [|[c o] l IH]; intros s i H; cbn [disciplined]; [exact I|].
    inversion H as [|? ? H1 H2]; subst. split; [destruct o; cbn in *; tauto|].
    destruct (tx _ s) as [[x|e|] s']; apply IH; assumption.
  Qed.

  (** ** C38, as long as the 96-bit id space is not exhausted. *)
  Theorem c38_batches_assign_exactly_partial l :
    Forall op_wf l -> Forall not_mint l -> Z.of_nat (length l) < two64 ->
    let i := ideal_run first max l init (istart first) in
    inext i < two96 -> agrees (run first max l init) i.
  Proof.
    intros Hw Hm Hlen i Hx. apply c39_disciplined_interleaving_partial; auto. apply not_mint_disciplined. exact Hm.
  Qed.

  (** One more batch after any such history: when it succeeds, which ids it returns and
      assigns, and that nothing else changes. *)
  Theorem c38_batch_effect l to n :
    Forall op_wf l -> disciplined first max l init (istart first) -> Z.of_nat (length l) + 1 < two64 ->
    let s := run first max l init in
    let next := inext (ideal_run first max l init (istart first)) in
    0 < n -> next + n < two96 ->
    ((exists r s', tx (_mint_consecutive first max to n) s = (Ok r, s')) <-> to <> 0 /\ n <= max) /\
    forall r s', tx (_mint_consecutive first max to n) s = (Ok r, s') ->
      r = next /\
      (forall id, next <= id < next + n -> no_owner first s id /\ owner first s' id to) /\
      (forall id a, ~ (next <= id < next + n) -> owner first s' id a <-> owner first s id a) /\
      (forall a m, a <> to -> balance s' a m <-> balance s a m) /\
      (forall m, balance s to m -> balance s' to ((m + n) mod two256)) /\
      clog s' = clog s ++ [ConsecutiveTransfer next (next + n - 1) 0 to].
  Proof.
    intros Hw Hd Hlen s next Hn Hx.
    assert (HR : R first true (Z.of_nat (length l)) s (ideal_run first max l init (istart first))).
    { apply (R_run first max Hfirst l 0); auto; try (unfold next in *; lia). apply R_init; auto. }
    set (i := ideal_run first max l init (istart first)) in *. clearbody i s.
    assert (E := mint_consecutive_eq first max Hfirst _ _ s i to n HR ltac:(lia) Hx).
    rewrite (proj2 (Z.eqb_neq n 0)) in E by lia. split.
    - split.
      + intros (r & s' & H). rewrite tx_ok, E in H. destruct (Z.eqb_spec to 0); [discriminate|].
        destruct (Z.ltb_spec max n); [discriminate|]. auto.
      + intros [Ht Hm]. exists next. eexists. rewrite tx_ok, E, (proj2 (Z.eqb_neq to 0) Ht).
        replace (max <? n) with false by lia. reflexivity.
    - intros r s' H. rewrite tx_ok, E in H. destruct (Z.eqb_spec to 0) as [|Ht]; [discriminate|].
      destruct (max <? n); [discriminate|]. inversion H; subst r s'. clear H E.
      pose proof (R_batch first Hfirst _ s i to n HR Hn Hx Ht ltac:(lia)) as HR'.
      destruct (R_agrees _ _ _ _ HR) as (O1 & N1 & _). destruct (R_agrees _ _ _ _ HR') as (O2 & N2 & _).
      pose proof (r_next _ _ _ _ _ HR) as NX.
      split; [reflexivity|]. split; [|split; [|split; [|split]]].
      + intros id Hid. split.
        * apply N1. rewrite <- (r_own _ _ _ _ _ HR), (own_val_free first _ _ s i id HR) by lia.
          apply (r_free _ _ _ _ _ HR); [reflexivity|unfold next in *; lia].
        * apply O2. split; [exact Ht|]. cbn. fold next. replace ((next <=? id) && (id <? next + n)) with true by lia. reflexivity.
      + intros id a Hid. rewrite O1, O2. cbn. fold next.
        replace ((next <=? id) && (id <? next + n)) with false by lia. tauto.
      + intros a m Ha. unfold balance, balance_of, on_base, Erc721.balance_of, batched; cbn. mred.
        destruct (a =? 0); cbn; [tauto|]. rewrite mget_set_ne by congruence. tauto.
      + intros m. unfold balance, balance_of, on_base, Erc721.balance_of, batched; cbn. mred.
        rewrite (proj2 (Z.eqb_neq to 0) Ht). cbn. rewrite mget_set_eq. intros X; inversion X. reflexivity.
      + unfold batched; cbn. rewrite (r_next_val first Hfirst _ _ _ _ HR). fold next. f_equal. f_equal. f_equal.
        unfold wsub96, wadd96. rewrite (Z.mod_small (next + n)) by (unfold next in *; lia).
        apply Z.mod_small. unfold next in *. lia.
  Qed.

  (** A token keeps its owner through every later history that does not transfer, burn
      or mint that very id. *)
  Theorem c38_owner_until_moved l l' id a :
    Forall op_wf (l ++ l') -> disciplined first max (l ++ l') init (istart first) ->
    Z.of_nat (length (l ++ l')) < two64 ->
    inext (ideal_run first max (l ++ l') init (istart first)) < two96 ->
    Forall (fun co => match snd co with
                      | Mint _ j | Burn j | ITransfer _ _ j | TransferFrom _ _ j => j <> id
                      | _ => True end) l' ->
    id < inext (ideal_run first max l init (istart first)) ->
    owner first (run first max l init) id a <-> owner first (run first max (l ++ l') init) id a.
  Proof.
    intros Hw Hd Hlen Hx Hl' Hid.
    assert (App : forall l1 l2 s i,
      ideal_run first max (l1 ++ l2) s i = ideal_run first max l2 (run first max l1 s) (ideal_run first max l1 s i) /\
      (disciplined first max (l1 ++ l2) s i -> disciplined first max l1 s i)).
    { clear. induction l1 as [|[c o] l1 IH]; intros l2 s i; cbn [app ideal_run disciplined]; [split; [reflexivity|auto]|].
      rewrite run_cons. destruct (tx (exec first max c o) s) as [[x|e|] s'] eqn:E; cbn [snd].
      - destruct (IH l2 s' (istep o i)) as [-> H]. split; [reflexivity|]. tauto.
      - assert (s' = s) as -> by (apply (tx_not_ok _ _ _ _ E); reflexivity).
        destruct (IH l2 s i) as [-> H]. split; [reflexivity|]. tauto.
      - assert (s' = s) as -> by (apply (tx_not_ok _ _ _ _ E); reflexivity).
        destruct (IH l2 s i) as [-> H]. split; [reflexivity|]. tauto. }
    destruct (App l l' init (istart first)) as [Ea Da].
    pose proof Hw as Hw'. apply Forall_app in Hw'. destruct Hw' as [W1 W2].
    pose proof (c39_disciplined_interleaving_partial (l ++ l') Hw Hlen Hd Hx) as (O2 & _).
    assert (Hx1 : inext (ideal_run first max l init (istart first)) < two96).
    { rewrite Ea in Hx. eapply Z.le_lt_trans; [|exact Hx]. apply inext_run; exact W2. }
    assert (Hlen1 : Z.of_nat (length l) < two64) by (rewrite app_length in Hlen; lia).
    pose proof (c39_disciplined_interleaving_partial l W1 Hlen1 (Da Hd) Hx1) as (O1 & _).
    rewrite O1, O2, Ea. rewrite (ideal_untouched first max id l' _ _ W2 Hid Hl'). tauto.
  Qed.
End props.
Print Assumptions c39_disciplined_interleaving_partial.
Print Assumptions c38_batches_assign_exactly_partial.
Print Assumptions c38_batch_effect.
Print Assumptions c38_owner_until_moved.

(** ** Non-vacuity: two batches, a transfer, a burn, a re-mint of the burned id. *)
Definition demo : list (Z * op) :=
  [(1, Batch 5 3); (1, Batch 6 2); (5, TransferFrom 5 7 11); (1, Burn 13); (1, Mint 8 13); (1, Mint 9 2); (3, Burn 99)].
Example c38_demo :
  Forall op_wf demo /\ disciplined 10 100 demo init (istart 10) /\
  inext (ideal_run 10 100 demo init (istart 10)) = 15 /\
  let s := run 10 100 demo init in
  map (fun id => fst (owner_of 10 id s)) [10; 11; 12; 13; 14; 2] = [Ok 5; Ok 7; Ok 5; Ok 8; Ok 6; Ok 9] /\
  map (fun a => fst (balance_of a s)) [5; 6; 7; 8; 9] = [Ok 2; Ok 1; Ok 1; Ok 1; Ok 1] /\
  no_owner 10 s 15.
Proof.
  assert (two256 > 1000) by reflexivity. assert (two96 > 1000) by reflexivity.
  split.
  { unfold demo. repeat apply Forall_cons_2; try apply Forall_nil_2; unfold op_wf, is_u256; cbn; split; try discriminate; lia. }
  split; [vm_compute; repeat split; left; reflexivity|].
  split; [vm_compute; reflexivity|]. split; [vm_compute; reflexivity|]. split; vm_compute; reflexivity.
Qed.

(** ** C38 fails when a batch ends at the last 96-bit id: [_next_consecutive_id] wraps to
    0 (consecutive.rs:418), burns are no longer recorded (consecutive.rs:396-400), and a
    burned token still has its owner. *)
Theorem c38_refuted :
  exists first max l id a,
    0 <= first < two96 /\ Forall op_wf l /\ Forall not_mint l /\
    let s := run first max l init in
    let s' := snd (tx (_burn first id) s) in
    owner first s id a /\ fst (tx (_burn first id) s) = Ok tt /\
    owner first s' id a /\ balance s a 3 /\ balance s' a 2.
Proof.
  exists (two96 - 3), 5000, [(1, Batch 5 3)], (two96 - 2), 5.
  split; [split; vm_compute; congruence|].
  split; [repeat apply Forall_cons_2; try apply Forall_nil_2; unfold op_wf; cbn; split; [discriminate|split; [lia|reflexivity]]|].
  split; [repeat apply Forall_cons_2; try apply Forall_nil_2; exact I|].
  repeat split; vm_compute; reflexivity.
Qed.
Print Assumptions c38_refuted.

(** A first batch running past the last 96-bit id is accepted and credits a balance
    without creating any token. *)
Theorem c38_overflowing_first_batch_refuted :
  exists first max to n,
    0 <= first < two96 /\ 0 < n < two96 /\
    let s := snd (tx (_mint_consecutive first max to n) init) in
    is_ok (fst (tx (_mint_consecutive first max to n) init)) = true /\
    balance s to n /\ forall id, ~ owner first s id to.
Proof.
  exists (two96 - 1), 5000, 5, 2. split; [split; vm_compute; congruence|]. split; [split; vm_compute; congruence|].
  set (s := snd _).
  assert (Es : s = mk (Erc721.mk ∅ (mset ∅ 5 2) ∅ ∅ []) [(0, 5)] BitMap.init
                      [ConsecutiveTransfer (two96 - 1) 0 0 5]) by (vm_compute; reflexivity).
  split; [reflexivity|]. split; [rewrite Es; vm_compute; reflexivity|].
  intros id H. rewrite Es in H. unfold owner, owner_of, _require_owned in H. rewrite bindr in H.
  rewrite owner_eq in H.
  - unfold own_val in H. cbn [erc721 sequential_burn sequential_ownership] in H. unfold Erc721._owner_of in H.
    cbn [Erc721.owners] in H. rewrite mget_empty in H. cbn [Z.eqb negb orb] in H.
    destruct (Z.ltb_spec id (two96 - 1)); cbn [orb] in H; [discriminate|].
    destruct (U96_MAX <? id); [discriminate|]. destruct (BitMap.get BitMap.init id); [discriminate|].
    assert (two96 > 5) by reflexivity.
    rewrite first_from_none in H; [discriminate|]. intros c [<-|[]]. cbn. lia.
  - intros a b H1 H2 H3. unfold Checkpoints.length in H3. cbn in H3. lia.
  - reflexivity.
Qed.
Print Assumptions c38_overflowing_first_batch_refuted.

(** ** C39 fails: nothing keeps a single mint off the ids of the next batch
    ([ERC721ForbiddenMint] and [ERC721ForbiddenBatchMint] are never raised).  Id 10 is
    minted to 7; the batch of two to 5 then counts 10 and 11 although 10 is 7's. *)
Theorem c39_refuted :
  exists first max l a n,
    0 <= first < two96 /\ Forall op_wf l /\ a <> 0 /\
    let s := run first max l init in
    balance s a n /\ forall l', tokens_of first s a l' -> Z.of_nat (length l') <> n.
Proof.
  assert (two256 > 1000) by reflexivity. assert (two96 > 1000) by reflexivity.
  exists 10, 5000, [(1, Mint 7 10); (1, Batch 5 2)], 5, 2.
  split; [lia|]. split.
  { repeat apply Forall_cons_2; try apply Forall_nil_2; unfold op_wf, is_u256; cbn; split; try discriminate; lia. }
  split; [discriminate|]. split; [vm_compute; reflexivity|].
  intros l' [Hn Hl]. set (s := run _ _ _ _) in *.
  assert (Ho : forall id, owner 10 s id 5 -> id = 11).
  { intros id H1. assert (Es : s = mk (Erc721.mk (mset ∅ 10 7) (mset (mset ∅ 7 1) 5 2) ∅ ∅ [Erc721.Transfer 0 7 10])
       [(11, 5)] BitMap.init [ConsecutiveTransfer 10 11 0 5]) by (vm_compute; reflexivity).
    rewrite Es in H1. unfold owner, owner_of, _require_owned in H1. rewrite bindr, owner_eq in H1.
    - unfold own_val in H1. cbn [erc721 sequential_burn sequential_ownership] in H1. unfold Erc721._owner_of in H1.
      cbn [Erc721.owners] in H1. rewrite mget_set in H1. destruct (decide (10 = id)) as [E|E]; [discriminate H1|].
      rewrite mget_empty in H1. cbn [Z.eqb negb orb] in H1.
      destruct (Z.ltb_spec id 10); [discriminate|]. cbn [orb] in H1.
      destruct (U96_MAX <? id); [discriminate|]. destruct (BitMap.get BitMap.init id); [discriminate|].
      unfold Structs_spec.first_from in H1. cbn [find fst] in H1. destruct (Z.leb_spec id 11); [lia|discriminate].
    - intros a b X1 X2 X3. unfold Checkpoints.length in X3. cbn in X3. lia.
    - reflexivity. }
  destruct l' as [|x [|y l']]; cbn [length]; try lia.
  exfalso. assert (x = 11) by (apply Ho, Hl; left). assert (y = 11) by (apply Ho, Hl; right; left).
  subst. inversion Hn as [|? ? N _]. apply N. left.
Qed.
Print Assumptions c39_refuted.
