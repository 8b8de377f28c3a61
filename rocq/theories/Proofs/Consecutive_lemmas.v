From Verif.Base Require Import Prelude Maps.
From Verif.Model Require Erc721 Checkpoints BitMap Consecutive.
From Verif.Spec Require Import Structs_spec Consecutive_spec.
From Verif.Proofs Require Structs_lemmas Erc721_lemmas.
From stdpp Require Import gmap.
Import Consecutive.
#[global] Open Scope Z_scope.
Notation sorted := Structs_lemmas.sorted.
Notation len_ok := Structs_lemmas.len_ok.

(** ** The trace *)
Lemma first_from_snoc id t k v :
  (forall c, In c t -> fst c < k) ->
  first_from id (t ++ [(k, v)]) =
  match first_from id t with
  | Some x => Some x
  | None => if id <=? k then Some v else None
  end.
Proof.
  intros Hk. unfold first_from.
  assert (F : find (fun c => id <=? fst c) (t ++ [(k, v)]) =
              match find (fun c => id <=? fst c) t with Some c => Some c | None => if id <=? k then Some (k, v) else None end).
  { clear Hk. induction t as [|c t IH]; cbn; [reflexivity|]. destruct (id <=? fst c); auto. }
  rewrite F. destruct (find (fun c => id <=? fst c) t) as [c|] eqn:E.
  - apply find_some in E. destruct E as [Hin _]. pose proof (Hk c Hin).
    rewrite Structs_lemmas.last_with_snoc. cbn [fst].
    replace (k =? fst c) with false by lia.
    destruct (last_with (fun k' => k' =? fst c) t) eqn:L; [reflexivity|].
    exfalso. clear -Hin L. induction t as [|c' t IH] using rev_ind; [inversion Hin|].
    rewrite Structs_lemmas.last_with_snoc in L. apply in_app_or in Hin. destruct Hin as [Hin|[->|[]]].
    + destruct (fst c' =? fst c); [discriminate|]. apply IH; assumption.
    + rewrite Z.eqb_refl in L. discriminate.
  - destruct (id <=? k); [|reflexivity]. cbn [fst]. rewrite Structs_lemmas.last_with_snoc. cbn [fst snd].
    rewrite Z.eqb_refl. reflexivity.
Qed.
Lemma first_from_none id t : (forall c, In c t -> fst c < id) -> first_from id t = None.
Proof.
  intros H. unfold first_from. destruct (find (fun c => id <=? fst c) t) as [c|] eqn:E; [|reflexivity].
  apply find_some in E. destruct E as [Hin Hle]. pose proof (H c Hin). lia.
Qed.
Lemma first_from_some id t c : In c t -> id <= fst c -> exists v, first_from id t = Some v.
Proof.
  intros Hin Hle. unfold first_from. destruct (find (fun c => id <=? fst c) t) as [c'|] eqn:E.
  - apply find_some in E. destruct E as [Hin' _].
    destruct (last_with (fun k' => k' =? fst c') t) eqn:L; [eauto|].
    exfalso. clear -Hin' L. induction t as [|x t IH] using rev_ind; [inversion Hin'|].
    rewrite Structs_lemmas.last_with_snoc in L. apply in_app_or in Hin'. destruct Hin' as [Hin'|[->|[]]].
    + destruct (fst x =? fst c'); [discriminate|]. apply IH; assumption.
    + rewrite Z.eqb_refl in L. discriminate.
  - exfalso. pose proof (find_none _ _ E c Hin) as X. cbn in X. lia.
Qed.

Section lemmas.
  Context (first max : Z) (Hfirst : 0 <= first < two96).

  Definition own_val (s : state) (id : Z) : Z :=
    let o := Erc721._owner_of id (erc721 s) in
    if negb (o =? 0) || (id <? first) || (U96_MAX <? id) then o
    else if BitMap.get (sequential_burn s) id then 0
    else or_zero (first_from id (sequential_ownership s)).
  Definition next_val (s : state) : Z :=
    match rev (sequential_ownership s) with [] => first | (k, _) :: _ => wadd96 k 1 end.

  Lemma owner_eq s id :
    sorted (sequential_ownership s) -> len_ok (sequential_ownership s) ->
    _owner_of first id s = (Ok (own_val s id), s).
  Proof.
    intros Hs Hl. unfold _owner_of, own_val. mred.
    destruct (negb _ || _ || _); [reflexivity|]. destruct (BitMap.get _ _); [reflexivity|].
    rewrite (Structs_lemmas.lower_lookup_sorted _ _ Hs Hl). reflexivity.
  Qed.
  Lemma next_eq s : len_ok (sequential_ownership s) -> _next_consecutive_id first s = (Ok (next_val s), s).
  Proof.
    intros Hl. unfold _next_consecutive_id, next_val, Checkpoints.latest_checkpoint. mred.
    set (t := sequential_ownership s) in *. clearbody t.
    destruct t as [|[k v] t _] using rev_ind; [reflexivity|].
    rewrite rev_app_distr. cbn [rev app]. unfold Checkpoints.length in *. unfold Structs_lemmas.len_ok, Checkpoints.length in Hl.
    rewrite app_length in *. cbn [List.length] in *.
    replace (Z.of_nat (List.length t + 1) =? 0) with false by lia.
    rewrite Structs_lemmas.wsub_pos by lia. unfold Checkpoints._index.
    replace (Z.of_nat (List.length t + 1) - 1 <? 0) with false by lia.
    replace (Z.to_nat (Z.of_nat (List.length t + 1) - 1)) with (List.length t) by lia.
    rewrite nth_error_app2 by lia. rewrite Nat.sub_diag. reflexivity.
  Qed.

  (** Balances when one token goes from [from] to [to]. *)
  Definition bal_move (from to : Z) (b : gmap Z Z) : gmap Z Z :=
    let b1 := if from =? 0 then b else mset b from (wsub (mget b from) 1) in
    if to =? 0 then b1 else mset b1 to (wadd (mget b1 to) 1).
  Lemma bal_move_mod from to b a :
    a <> 0 -> mget (bal_move from to b) a mod two256 =
    (mget b a - (if from =? a then 1 else 0) + (if to =? a then 1 else 0)) mod two256.
  Proof.
    intros Ha. pose proof (Erc721_lemmas.balances_upd to 0
      (Erc721.mk (mset ∅ 0 from) b ∅ ∅ []) a Ha) as H.
    unfold Erc721_lemmas.upd_state, Erc721._owner_of in H. cbn [Erc721.owners Erc721.balances] in H.
    rewrite !mget_set_eq in H. exact H.
  Qed.
  Lemma bal_move_range from to b a : is_u256 (mget b a) -> is_u256 (mget (bal_move from to b) a).
  Proof.
    intros H. unfold bal_move. case_all; rewrite ?mget_set; case_all; auto;
      try apply wadd_range; apply wsub_range.
  Qed.

  (** [_update] in closed form. *)
  Definition upd (to id : Z) (s : state) : state :=
    let b := erc721 s in
    let from := own_val s id in
    mk (Erc721.mk (mset (Erc721.owners b) id to) (bal_move from to (Erc721.balances b))
          (if from =? 0 then Erc721.token_approvals b else mset (Erc721.token_approvals b) id 0)
          (Erc721.operator_approvals b) (Erc721.log b ++ [Erc721.Transfer from to id]))
       (sequential_ownership s)
       (if (to =? 0) && ((id <? next_val s) && negb (BitMap.get (sequential_burn s) id))
        then BitMap.set id (sequential_burn s) else sequential_burn s)
       (clog s).
  Lemma update_eq to id auth s :
    sorted (sequential_ownership s) -> len_ok (sequential_ownership s) ->
    _update first to id auth s =
    if (auth =? 0) || Erc721._is_authorized (own_val s id) auth id (erc721 s)
    then (Ok (own_val s id), upd to id s)
    else (Err (ErrErc721 (if own_val s id =? 0 then Erc721.NonexistentToken id else Erc721.InsufficientApproval auth id)), s).
  Proof.
    intros Hs Hl. unfold _update, _update_base, _approve. cbn [orb negb Z.eqb]. unfold bind at 1 2.
    rewrite (owner_eq s id Hs Hl).
    assert (SE : set_erc721 (erc721 s) s = s) by (destruct s; reflexivity).
    set (f := own_val s id).
    unfold upd. fold f. unfold bal_move, on_base, Erc721._check_authorized, Erc721.emit. mred.
    assert (NX : forall s', sequential_ownership s' = sequential_ownership s ->
              _next_consecutive_id first s' = (Ok (next_val s), s')).
    { intros s' E. rewrite next_eq by (rewrite E; exact Hl). unfold next_val. rewrite E. reflexivity. }
    destruct (auth =? 0) eqn:Ha; cbn [negb orb].
    - destruct (f =? 0), (to =? 0) eqn:Et; cbn [negb andb]; try reflexivity.
      all: rewrite NX by reflexivity; cbn [sequential_burn set_erc721];
        destruct ((id <? next_val s) && negb (BitMap.get (sequential_burn s) id)); reflexivity.
    - destruct (Erc721._is_authorized f auth id (erc721 s)).
      + rewrite SE. destruct (f =? 0), (to =? 0) eqn:Et; cbn [negb andb]; try reflexivity.
        all: rewrite NX by reflexivity; cbn [sequential_burn set_erc721];
          destruct ((id <? next_val s) && negb (BitMap.get (sequential_burn s) id)); reflexivity.
      + destruct (f =? 0); rewrite SE; reflexivity.
  Qed.

  (** ** The simulation relation; [fr]: batches are still to come, ids beyond the last are
      free *)
  Record R (fr : bool) (n : Z) (s : state) (i : ideal) : Prop := mkR {
    r_next : first <= inext i < two96;
    r_sorted : sorted (sequential_ownership s);
    r_len : Checkpoints.length (sequential_ownership s) <= n;
    r_n : n < two64;
    r_keys : forall c, In c (sequential_ownership s) -> fst c < inext i;
    r_last : match rev (sequential_ownership s) with [] => inext i = first | (k, _) :: _ => k = inext i - 1 end;
    r_free : fr = true -> forall id, inext i <= id < two96 ->
       Erc721._owner_of id (erc721 s) = 0 /\ BitMap.get (sequential_burn s) id = false;
    r_own : forall id, own_val s id = iown i id;
    r_ids : forall id, iown i id <> 0 -> is_u256 id;
    r_count : forall a, a <> 0 -> exists l : list Z, NoDup l /\ (forall id, id ∈ l <-> iown i id = a) /\
       mget (Erc721.balances (erc721 s)) a = Z.of_nat (length l) mod two256;
    r_appr : forall id, iown i id = 0 -> Erc721._get_approved id (erc721 s) = 0;
    r_op0 : forall p, Erc721.is_approved_for_all 0 p (erc721 s) = false;
    r_log : fr = false -> forall id, owner_by_logs s id = iown i id
  }.
  Lemma r_len_ok fr n s i : R fr n s i -> len_ok (sequential_ownership s).
  Proof. intros H. unfold Structs_lemmas.len_ok. pose proof (r_len _ _ _ _ H). pose proof (r_n _ _ _ _ H). lia. Qed.
  Lemma r_next_val fr n s i : R fr n s i -> next_val s = inext i.
  Proof.
    intros H. unfold next_val. pose proof (r_last _ _ _ _ H) as L. pose proof (r_next _ _ _ _ H) as X.
    destruct (rev _) as [|[k v] r]; [congruence|]. subst k. unfold wadd96. rewrite Z.mod_small; lia.
  Qed.
  Lemma r_weaken fr n m s i : R fr n s i -> n <= m < two64 -> R fr m s i.
  Proof. intros [] Hm. split; auto; lia. Qed.

  Lemma own_val_free fr n s i id : R fr n s i -> inext i <= id -> 0 <= id -> own_val s id = Erc721._owner_of id (erc721 s).
  Proof.
    intros H Hid H0. unfold own_val.
    destruct (Z.eqb_spec (Erc721._owner_of id (erc721 s)) 0) as [E|E]; cbn [negb orb]; [|reflexivity].
    rewrite E. destruct (id <? first); [reflexivity|]. destruct (U96_MAX <? id); [reflexivity|].
    cbn [orb]. destruct (BitMap.get _ _); [reflexivity|].
    rewrite first_from_none; [reflexivity|]. intros c Hc. pose proof (r_keys _ _ _ _ H c Hc). lia.
  Qed.

  Lemma R_init fr : R fr 0 init (istart first).
  Proof.
    split; cbn; try lia; try reflexivity.
    - intros a b H1 H2 H3. unfold Checkpoints.length in H3. cbn in H3. lia.
    - intros _ id _. split; [unfold Erc721._owner_of; cbn; apply mget_empty|].
      rewrite Structs_lemmas.get_testbit. unfold BitMap.init; cbn [BitMap.data]. rewrite mget_empty. apply Z.bits_0.
    - intros id. unfold own_val; cbn. unfold Erc721._owner_of; cbn. rewrite mget_empty. cbn.
      case_all; reflexivity.
    - intros a Ha. exists []. split; [constructor|]. split; [|cbn; rewrite mget_empty; reflexivity].
      intros id. split; [intros Hin; inversion Hin|congruence].
  Qed.

  (** One token changes hands. *)
  Lemma R_upd fr n s i to id :
    R fr n s i -> is_u256 id ->
    (to <> 0 -> fr = true -> id < inext i \/ two96 <= id) -> (to = 0 -> iown i id <> 0) ->
    R fr n (upd to id s) (iset id to i).
  Proof.
    intros H Hid Hto Hto0. unfold is_u256 in Hid.
    assert (Hdom : fr = true -> id < inext i \/ two96 <= id).
    { intros Hfr. destruct (Z.eq_dec to 0) as [E|E]; [|auto]. apply Hto0 in E.
      destruct (Z_lt_le_dec id (inext i)); [auto|]. destruct (Z_lt_le_dec id two96); [|auto].
      exfalso. apply E. rewrite <- (r_own _ _ _ _ H), (own_val_free _ n s i id H) by lia.
      apply (r_free _ _ _ _ H Hfr). lia. }
    pose proof (r_next_val _ _ _ _ H) as NV. pose proof (r_next _ _ _ _ H) as NX.
    assert (Eo : forall j, Erc721._owner_of j (erc721 (upd to id s)) = if decide (id = j) then to else Erc721._owner_of j (erc721 s)).
    { intros j. unfold Erc721._owner_of, upd; cbn. apply mget_set. }
    assert (Eb : forall j, BitMap.get (sequential_burn (upd to id s)) j =
       if (to =? 0) && (id <? inext i) && (id =? j) then true else BitMap.get (sequential_burn s) j).
    { intros j. unfold upd; cbn [sequential_burn]. rewrite NV. destruct (to =? 0); cbn [andb]; [|reflexivity].
      destruct (id <? inext i); cbn [andb]; [|reflexivity].
      destruct (BitMap.get (sequential_burn s) id) eqn:B; cbn [negb].
      - destruct (Z.eqb_spec id j) as [->|]; congruence.
      - pose proof (Structs_lemmas.step_get (sequential_burn s) (BitMap.OSet id) j) as X. exact X. }
    split; cbn [inext iset].
    - exact NX.
    - apply (r_sorted _ _ _ _ H).
    - apply (r_len _ _ _ _ H).
    - apply (r_n _ _ _ _ H).
    - apply (r_keys _ _ _ _ H).
    - apply (r_last _ _ _ _ H).
    - intros Hfr j Hj. specialize (Hdom Hfr). rewrite Eo, Eb, decide_False by lia. replace (id =? j) with false by lia. rewrite andb_false_r.
      apply (r_free _ _ _ _ H Hfr). exact Hj.
    - intros j. cbn [iown iset ibatch]. rewrite <- (r_own _ _ _ _ H). unfold own_val. rewrite Eo, Eb.
      change (sequential_ownership (upd to id s)) with (sequential_ownership s).
      destruct (Z.eqb_spec j id) as [->|Hne].
      + rewrite decide_True by reflexivity. rewrite Z.eqb_refl, andb_true_r.
        destruct (Z.eqb_spec to 0) as [E|E]; cbn [negb orb andb]; [|reflexivity].
        destruct (Z.ltb_spec id first) as [L1|L1]; cbn [orb]; [reflexivity|].
        destruct (Z.ltb_spec U96_MAX id) as [L2|L2]; cbn [orb]; [reflexivity|].
        destruct (Z.ltb_spec id (inext i)) as [L3|L3]; [congruence|].
        destruct (BitMap.get _ _); [congruence|]. rewrite first_from_none; [cbn; congruence|].
        intros c Hc. pose proof (r_keys _ _ _ _ H c Hc). lia.
      + rewrite decide_False by congruence. replace (id =? j) with false by lia. rewrite andb_false_r. reflexivity.
    - intros j. cbn [iown iset ibatch]. destruct (Z.eqb_spec j id) as [->|]; [auto|apply (r_ids _ _ _ _ H)].
    - intros a Ha. destruct (r_count _ _ _ _ H a Ha) as (l & Hn & Hl & Hb).
      destruct (Erc721_lemmas.list_upd l (iown i) id to a Hn Hl) as (l' & Hn' & Hl' & Hlen).
      exists l'. split; [exact Hn'|]. split.
      + intros j. rewrite Hl'. cbn [iown iset ibatch]. destruct (decide (id = j)), (Z.eqb_spec j id); try congruence; tauto.
      + unfold upd; cbn [erc721 Erc721.balances]. pose proof two256_pos.
        assert (Rg : is_u256 (mget (bal_move (own_val s id) to (Erc721.balances (erc721 s))) a)).
        { apply bal_move_range. rewrite Hb. apply Z.mod_pos_bound. lia. }
        rewrite <- (Z.mod_small _ _ Rg), bal_move_mod by exact Ha. rewrite Hlen, Hb, (r_own _ _ _ _ H).
        rewrite <- (Z.add_mod_idemp_l (_ - _)) by lia. rewrite Zminus_mod_idemp_l.
        rewrite Z.add_mod_idemp_l by lia. reflexivity.
    - intros j. cbn [iown iset]. unfold Erc721._get_approved, upd; cbn [erc721 Erc721.token_approvals].
      rewrite (r_own _ _ _ _ H). destruct (Z.eqb_spec j id) as [->|Hne].
      + intros ->. rewrite (proj2 (Z.eqb_neq (iown i id) 0)) by auto. apply mget_set_eq.
      + intros Hj. destruct (iown i id =? 0); [|rewrite mget_set_ne by congruence]; apply (r_appr _ _ _ _ H j Hj).
    - apply (r_op0 _ _ _ _ H).
    - intros Hfr j. cbn [iown iset]. unfold owner_by_logs, transfer_logs. unfold upd at 1. cbn [erc721 Erc721.log].
      rewrite fold_left_app. cbn [fold_left]. rewrite (Z.eqb_sym j id). destruct (id =? j); [reflexivity|].
      apply (r_log _ _ _ _ H Hfr).
  Qed.

  (** A batch. *)
  Definition batched (to k : Z) (s : state) : state :=
    let next := next_val s in
    let last := wsub96 (wadd96 next k) 1 in
    let b := erc721 s in
    mk (Erc721.set_balances (fun m => mset m to (wadd (mget m to) k)) b)
       (sequential_ownership s ++ [(last, to)]) (sequential_burn s)
       (clog s ++ [ConsecutiveTransfer next last 0 to]).
  Lemma mint_consecutive_eq fr n s i to k :
    R fr n s i -> 0 <= k -> inext i + k < two96 ->
    _mint_consecutive first max to k s =
    if k =? 0 then (Ok (inext i), s)
    else if to =? 0 then (Err (ErrErc721 (Erc721.InvalidReceiver 0)), s)
    else if max <? k then (Err (ExceededMaxBatchMint k max), s)
    else (Ok (inext i), batched to k s).
  Proof.
    intros H Hk Hf. pose proof (r_next _ _ _ _ H) as NX.
    unfold _mint_consecutive. unfold bind at 1. rewrite (next_eq s (r_len_ok _ _ _ _ H)), (r_next_val _ _ _ _ H).
    unfold batched. rewrite (r_next_val _ _ _ _ H). mred.
    destruct (Z.eqb_spec k 0) as [->|Hk0]; [reflexivity|]. replace (0 <? k) with true by lia.
    destruct (to =? 0); [reflexivity|]. destruct (max <? k); [reflexivity|].
    unfold wsub96, wadd96. rewrite (Z.mod_small (inext i + k)) by lia. rewrite (Z.mod_small (inext i + k - 1)) by lia.
    rewrite (Structs_lemmas.push_eq _ _ _ (r_len_ok _ _ _ _ H)).
    pose proof (r_last _ _ _ _ H) as L. destruct (rev (sequential_ownership s)) as [|[lk lv] r] eqn:E.
    - assert (E' : sequential_ownership s = []) by (rewrite <- (rev_involutive (sequential_ownership s)), E; reflexivity).
      rewrite E'. reflexivity.
    - subst lk. replace (inext i + k - 1 <? inext i - 1) with false by lia.
      replace (inext i - 1 =? inext i + k - 1) with false by lia. reflexivity.
  Qed.

  Lemma R_batch n s i to k :
    R true n s i -> 0 < k -> inext i + k < two96 -> to <> 0 -> n + 1 < two64 ->
    R true (n + 1) (batched to k s) (ibatch to k i).
  Proof.
    intros H Hk Hf Hto Hn. pose proof (r_next _ _ _ _ H) as NX.
    assert (EL : wsub96 (wadd96 (next_val s) k) 1 = inext i + k - 1).
    { rewrite (r_next_val _ _ _ _ H). unfold wsub96, wadd96. rewrite (Z.mod_small (inext i + k)) by lia.
      apply Z.mod_small. lia. }
    assert (T96 : two96 < two256) by reflexivity.
    split; unfold batched; cbn [inext ibatch sequential_ownership sequential_burn erc721]; rewrite ?EL.
    - lia.
    - apply Structs_lemmas.sorted_snoc; [apply (r_sorted _ _ _ _ H)|].
      intros c Hc. pose proof (r_keys _ _ _ _ H c Hc). lia.
    - unfold Checkpoints.length. rewrite app_length. cbn [List.length].
      pose proof (r_len _ _ _ _ H) as L. unfold Checkpoints.length in L. lia.
    - exact Hn.
    - intros c Hc. apply in_app_or in Hc. destruct Hc as [Hc|[<-|[]]]; [pose proof (r_keys _ _ _ _ H c Hc); lia|cbn; lia].
    - rewrite rev_app_distr. cbn. lia.
    - intros _ id Hid. apply (r_free _ _ _ _ H); [reflexivity|lia].
    - intros id. cbn [iown iset ibatch]. rewrite <- (r_own _ _ _ _ H). unfold own_val. cbn [erc721 sequential_burn sequential_ownership].
      change (Erc721._owner_of id (Erc721.set_balances _ (erc721 s))) with (Erc721._owner_of id (erc721 s)).
      rewrite ?EL, first_from_snoc by (intros c Hc; pose proof (r_keys _ _ _ _ H c Hc); lia).
      destruct ((inext i <=? id) && (id <? inext i + k)) eqn:B.
      + apply andb_prop in B. destruct B as [B1 B2]. destruct (r_free _ _ _ _ H eq_refl id ltac:(lia)) as [F1 F2].
        rewrite F1, F2. cbn [Z.eqb negb orb]. replace (id <? first) with false by lia.
        replace (U96_MAX <? id) with false by (unfold U96_MAX; lia). cbn [orb].
        rewrite first_from_none by (intros c Hc; pose proof (r_keys _ _ _ _ H c Hc); lia).
        replace (id <=? inext i + k - 1) with true by lia. reflexivity.
      + destruct (negb _ || _ || _) eqn:G; [reflexivity|]. destruct (BitMap.get _ _); [reflexivity|].
        destruct (first_from id (sequential_ownership s)) eqn:FF; [reflexivity|].
        destruct (Z.leb_spec id (inext i + k - 1)) as [L|L]; [|reflexivity].
        (* then id < inext, inside an old batch: the lookup cannot have failed *)
        exfalso. apply orb_false_elim in G. destruct G as [G G3]. apply orb_false_elim in G. destruct G as [G1 G2].
        pose proof (r_last _ _ _ _ H) as RL. destruct (rev (sequential_ownership s)) as [|[lk lv] r] eqn:E; [lia|].
        destruct (first_from_some id (sequential_ownership s) (lk, lv)) as [v Hv]; [|cbn; lia|congruence].
        rewrite <- (rev_involutive (sequential_ownership s)), E. apply in_rev. rewrite rev_involutive. left. reflexivity.
    - intros id. cbn [iown iset ibatch]. destruct ((inext i <=? id) && (id <? inext i + k)) eqn:B; [|apply (r_ids _ _ _ _ H)].
      intros _. unfold is_u256. lia.
    - intros a Ha. destruct (r_count _ _ _ _ H a Ha) as (l & Hnd & Hl & Hb). cbn [Erc721.set_balances Erc721.balances].
      rewrite mget_set.
      assert (Z0 : forall id, inext i <= id < inext i + k -> iown i id = 0).
      { intros id Hid. rewrite <- (r_own _ _ _ _ H), (own_val_free _ n s i id H) by lia. apply (r_free _ _ _ _ H); [reflexivity|lia]. }
      destruct (decide (to = a)) as [->|Hne].
      + exists (l ++ seqZ (inext i) k). split; [|split].
        * apply NoDup_app. split; [exact Hnd|]. split; [|apply NoDup_seqZ].
          intros x Hx Hx'. apply elem_of_seqZ in Hx'. apply Hl in Hx. rewrite Z0 in Hx by lia. congruence.
        * intros id. rewrite elem_of_app, Hl, elem_of_seqZ. cbn [iown iset ibatch].
          destruct ((inext i <=? id) && (id <? inext i + k)) eqn:B.
          -- split; [reflexivity|]. intros _. right. lia.
          -- split; [|auto]. intros [X|X]; [exact X|lia].
        * rewrite Hb, app_length, Nat2Z.inj_add, seqZ_length, Z2Nat.id by lia. unfold wadd.
          apply Z.add_mod_idemp_l. discriminate.
      + exists l. split; [exact Hnd|]. split; [|exact Hb]. intros id. rewrite Hl. cbn [iown iset ibatch].
        destruct ((inext i <=? id) && (id <? inext i + k)) eqn:B; [|tauto].
        rewrite Z0 by lia. split; intros; congruence.
    - intros id. cbn [iown iset ibatch]. destruct ((inext i <=? id) && (id <? inext i + k)); [congruence|].
      apply (r_appr _ _ _ _ H).
    - apply (r_op0 _ _ _ _ H).
    - discriminate.
  Qed.

  (** Calls that do not move tokens. *)
  Lemma R_same fr n s s' i :
    R fr n s i ->
    Erc721.owners (erc721 s') = Erc721.owners (erc721 s) ->
    Erc721.balances (erc721 s') = Erc721.balances (erc721 s) ->
    sequential_ownership s' = sequential_ownership s -> sequential_burn s' = sequential_burn s ->
    (forall id, iown i id = 0 -> Erc721._get_approved id (erc721 s') = 0) ->
    (forall p, Erc721.is_approved_for_all 0 p (erc721 s') = false) ->
    (forall id, owner_by_logs s' id = owner_by_logs s id) ->
    R fr n s' i.
  Proof.
    intros [] E1 E2 E3 E4 E5 E6 E7.
    assert (EO : forall id, Erc721._owner_of id (erc721 s') = Erc721._owner_of id (erc721 s))
      by (intros; unfold Erc721._owner_of; rewrite E1; reflexivity).
    split; rewrite ?E2, ?E3; auto.
    - intros Hfr id Hid. rewrite EO, E4. auto.
    - intros id. unfold own_val. rewrite EO, E3, E4. apply r_own0.
    - intros Hfr id. rewrite E7. auto.
  Qed.

  Lemma bindr {S E A B} (m : M S E A) (k : A -> M S E B) s :
    bind m k s = match m s with (Ok a, s') => k a s' | (Err e, s') => (Err e, s') | (Panic, s') => (Panic, s') end.
  Proof. reflexivity. Qed.

  Definition cost (o : op) : Z := match o with Batch _ _ => 1 | _ => 0 end.
  Lemma R_exec fr n s i c o s' :
    R fr n s i -> op_wf (c, o) ->
    match o with Mint _ id => fr = true -> id < inext i \/ two96 <= id | Batch _ _ => fr = true | _ => True end ->
    exec first max c o s = (Ok tt, s') -> inext (istep o i) < two96 -> n + cost o < two64 ->
    R fr (n + cost o) s' (istep o i).
  Proof.
    intros H [Hc Hw] Hd He Hx Hn. cbn [fst snd] in *.
    pose proof (r_sorted _ _ _ _ H) as Hs. pose proof (r_len_ok _ _ _ _ H) as Hl.
    assert (Wk : R fr (n + cost o) s i) by (eapply r_weaken; [exact H|destruct o; cbn [cost] in *; lia]).
    assert (Dom : forall id, iown i id <> 0 -> 0 <= id -> fr = true -> id < inext i \/ two96 <= id).
    { intros id X P Hfr. destruct (Z_lt_le_dec id (inext i)); [auto|]. destruct (Z_lt_le_dec id two96); [|auto].
      exfalso. apply X. rewrite <- (r_own _ _ _ _ H), (own_val_free _ n s i id H) by lia. apply (r_free _ _ _ _ H Hfr). lia. }
    assert (Auth0 : forall id, own_val s id = 0 -> Erc721._is_authorized (own_val s id) c id (erc721 s) <> true).
    { intros id E. rewrite E. unfold Erc721._is_authorized. rewrite (proj2 (Z.eqb_neq c 0) Hc), (r_op0 _ _ _ _ H).
      rewrite (r_appr _ _ _ _ H) by (rewrite <- (r_own _ _ _ _ H); exact E).
      rewrite (proj2 (Z.eqb_neq 0 c)) by congruence. discriminate. }
    destruct o; cbn [exec istep cost] in *; rewrite ?Z.add_0_r in *.
    - (* batch *)
      unfold ignore in He. rewrite bindr, (mint_consecutive_eq fr n s i to size H) in He by (cbn in Hx; lia).
      destruct (Z.eqb_spec size 0) as [->|Hk].
      + mred_in He. inversion He; subst s'. (* a batch of size 0 *)
        destruct Wk. split; cbn [inext iown ibatch]; rewrite ?Z.add_0_r; auto.
        * intros id. rewrite r_own0. replace ((inext i <=? id) && (id <? inext i)) with false by lia. reflexivity.
        * intros id. replace ((inext i <=? id) && (id <? inext i)) with false by lia. apply r_ids0.
        * intros a Ha. destruct (r_count0 a Ha) as (l & A1 & A2 & A3). exists l. split; [exact A1|]. split; [|exact A3].
          intros id. replace ((inext i <=? id) && (id <? inext i)) with false by lia. apply A2.
        * intros id. replace ((inext i <=? id) && (id <? inext i)) with false by lia. apply r_appr0.
        * congruence.
      + destruct (Z.eqb_spec to 0); [discriminate|]. destruct (max <? size); [discriminate|].
        mred_in He. inversion He; subst s' fr. apply R_batch; auto; cbn in Hx; lia.
    - (* mint *)
      unfold _mint in He. rewrite bindr in He. unfold fail_if at 1 in He. destruct (Z.eqb_spec to 0); [discriminate|].
      rewrite bindr, (update_eq to token_id 0 s Hs Hl) in He. cbn [Z.eqb orb] in He. unfold fail_if in He.
      destruct (Z.eqb_spec (own_val s token_id) 0); cbn [negb] in He; [|discriminate].
      inversion He; subst s'. apply R_upd; auto; congruence.
    - (* burn *)
      unfold _burn in He. rewrite bindr, (update_eq 0 token_id 0 s Hs Hl) in He. cbn [Z.eqb orb] in He. unfold fail_if in He.
      destruct (Z.eqb_spec (own_val s token_id) 0); [discriminate|].
      inversion He; subst s'. apply R_upd; auto; [intros X; congruence|]. intros _. rewrite <- (r_own _ _ _ _ H). assumption.
    - (* internal transfer *)
      unfold _transfer in He. rewrite bindr in He. unfold fail_if at 1 in He. destruct (Z.eqb_spec to 0); [discriminate|].
      rewrite bindr, (update_eq to token_id 0 s Hs Hl) in He. cbn [Z.eqb orb] in He. unfold fail_if in He.
      destruct (Z.eqb_spec (own_val s token_id) 0) as [|E0]; [discriminate|]. destruct (Z.eqb_spec (own_val s token_id) from); [|discriminate].
      inversion He; subst s'. apply R_upd; auto. intros _. apply Dom; [rewrite <- (r_own _ _ _ _ H); exact E0|apply Hw].
    - (* transfer_from *)
      unfold transfer_from in He. rewrite bindr in He. unfold fail_if at 1 in He. destruct (Z.eqb_spec to 0); [discriminate|].
      rewrite bindr, (update_eq to token_id c s Hs Hl) in He. rewrite (proj2 (Z.eqb_neq c 0) Hc) in He. cbn [orb] in He.
      destruct (Erc721._is_authorized (own_val s token_id) c token_id (erc721 s)) eqn:Ea; [|discriminate].
      unfold fail_if in He. destruct (Z.eqb_spec (own_val s token_id) from) as [E1|]; [|discriminate].
      inversion He; subst s'. apply R_upd; auto. intros _ Hfr.
      destruct (Z_lt_le_dec token_id (inext i)); [auto|]. destruct (Z_lt_le_dec token_id two96); [|auto].
      (* a free id: nobody is authorised *)
      exfalso. apply (Auth0 token_id); [|exact Ea]. rewrite (own_val_free _ n s i token_id H) by (unfold is_u256 in Hw; lia).
      apply (r_free _ _ _ _ H Hfr). lia.
    - (* approve *)
      assert (Q : exists w, w <> 0 /\ own_val s token_id = w /\ s' = set_erc721 (Erc721.set_token_approvals
         (fun m => mset m token_id to) (Erc721.mk (Erc721.owners (erc721 s)) (Erc721.balances (erc721 s))
          (Erc721.token_approvals (erc721 s)) (Erc721.operator_approvals (erc721 s))
          (Erc721.log (erc721 s) ++ [Erc721.Approval w to token_id]))) s).
      { unfold approve, _approve, _require_owned, on_base, Erc721.emit in He. cbn [orb] in He. rewrite !bindr in He.
        rewrite (owner_eq s token_id Hs Hl) in He. mred_in He.
        destruct (Z.eqb_spec (own_val s token_id) 0) as [E|E]; [discriminate|].
        destruct (_ && _) in He; [discriminate|]. inversion He. exists (own_val s token_id). auto. }
      destruct Q as (w & Hw0 & Hw1 & ->). apply (R_same fr n s); try reflexivity; auto.
      + intros id Hid. unfold Erc721._get_approved; cbn. rewrite mget_set_ne; [apply (r_appr _ _ _ _ H id Hid)|].
        intros <-. rewrite (r_own _ _ _ _ H) in Hw1. congruence.
      + apply (r_op0 _ _ _ _ H).
      + intros id. unfold owner_by_logs, transfer_logs; cbn. rewrite fold_left_app. reflexivity.
    - (* set_approval_for_all *)
      unfold set_approval_for_all, Erc721.set_approval_for_all, Erc721._set_approval_for_all, on_base, Erc721.emit in He.
      mred_in He. destruct (operator =? 0); [discriminate|]. inversion He; subst s'.
      apply (R_same fr n s); try reflexivity; auto.
      + apply (r_appr _ _ _ _ H).
      + intros p. unfold Erc721.is_approved_for_all; cbn. rewrite getd_set, decide_False by congruence.
        apply (r_op0 _ _ _ _ H).
      + intros id. unfold owner_by_logs, transfer_logs; cbn. rewrite fold_left_app. reflexivity.
  Qed.

  Lemma inext_step o i : op_wf (1, o) -> inext i <= inext (istep o i).
  Proof. intros [_ H]. destruct o; cbn in *; lia. Qed.
  Lemma inext_run l : forall s i, Forall op_wf l -> inext i <= inext (ideal_run first max l s i).
  Proof.
    induction l as [|[c o] l IH]; intros s i Hw; cbn [ideal_run]; [lia|].
    inversion Hw as [|? ? [_ H1] H2]; subst. cbn [snd] in H1.
    assert (op_wf (1, o)) by (split; [discriminate|exact H1]).
    destruct (tx _ s) as [[x|e|] s']; [|apply IH; assumption..].
    pose proof (inext_step o i ltac:(assumption)). pose proof (IH s' (istep o i) H2). lia.
  Qed.
  Lemma run_cons c o l s : run first max ((c, o) :: l) s = run first max l (snd (tx (exec first max c o) s)).
  Proof. reflexivity. Qed.

  Lemma R_run l : forall n s i,
    R true n s i -> Forall op_wf l -> disciplined first max l s i ->
    inext (ideal_run first max l s i) < two96 -> n + Z.of_nat (length l) < two64 ->
    R true (n + Z.of_nat (length l)) (run first max l s) (ideal_run first max l s i).
  Proof.
    induction l as [|[c o] l IH]; intros n s i H Hw Hd Hx Hn.
    - cbn. rewrite Z.add_0_r. exact H.
    - inversion Hw as [|? ? H1 H2]; subst. cbn [disciplined ideal_run length] in *. destruct Hd as [Hd1 Hd2].
      rewrite run_cons. replace (n + Z.of_nat (S (length l))) with ((n + 1) + Z.of_nat (length l)) by lia.
      unfold tx in *. destruct (exec first max c o s) as [[[]|e|] s'] eqn:E; cbn [fst snd] in *.
      + apply IH; auto; [|lia]. pose proof (inext_run l s' (istep o i) H2).
        apply (r_weaken true (n + cost o)); [|destruct o; cbn [cost]; lia].
        apply (R_exec true n s i c o s'); auto; [destruct o; auto|lia|destruct o; cbn [cost]; lia].
      + apply IH; auto; [|lia]. eapply r_weaken; [exact H|lia].
      + apply IH; auto; [|lia]. eapply r_weaken; [exact H|lia].
  Qed.

  (** With no batches to come, histories of any length and mints of any id. *)
  Lemma R_run_closed l : forall n s i,
    R false n s i -> Forall op_wf l -> Forall (fun co => match snd co with Batch _ _ => False | _ => True end) l ->
    R false n (run first max l s) (ideal_run first max l s i).
  Proof.
    induction l as [|[c o] l IH]; intros n s i H Hw Hb; [exact H|].
    inversion Hw as [|? ? H1 H2]; subst. inversion Hb as [|? ? B1 B2]; subst. cbn [ideal_run snd] in *.
    rewrite run_cons. unfold tx. destruct (exec first max c o s) as [[[]|e|] s'] eqn:E; cbn [fst snd]; try (apply IH; assumption).
    apply IH; [|assumption..]. replace n with (n + cost o) by (destruct o; cbn [cost]; [destruct B1|lia..]).
    pose proof (r_n _ _ _ _ H). pose proof (r_next _ _ _ _ H).
    apply (R_exec false n s i c o s'); auto; destruct o; cbn [istep inext iset cost]; try tauto; try lia; discriminate.
  Qed.

  Lemma ideal_untouched id l : forall s i,
    Forall op_wf l -> id < inext i ->
    Forall (fun co => match snd co with
                      | Mint _ j | Burn j | ITransfer _ _ j | TransferFrom _ _ j => j <> id
                      | _ => True end) l ->
    iown (ideal_run first max l s i) id = iown i id.
  Proof.
    induction l as [|[c o] l IH]; intros s i Hw Hid Hl; cbn [ideal_run]; [reflexivity|].
    inversion Hw as [|? ? [_ H1] H2]; subst. inversion Hl as [|? ? H3 H4]; subst. cbn [snd] in *.
    destruct (tx _ s) as [[x|e|] s']; [|apply IH; assumption..].
    assert (op_wf (1, o)) by (split; [discriminate|exact H1]).
    pose proof (inext_step o i ltac:(assumption)).
    rewrite IH by (auto; lia). destruct o; cbn [istep iown iset ibatch]; try reflexivity;
      try (replace (id =? token_id) with false by lia; reflexivity).
    replace (inext i <=? id) with false by lia. reflexivity.
  Qed.
End lemmas.
