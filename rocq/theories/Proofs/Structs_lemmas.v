(** BitMap and Checkpoints: supporting lemmas. *)
From Verif.Base Require Import Prelude Maps.
From Verif.Model Require BitMap.
From stdpp Require Import gmap.
From Verif.Model Require Import Math Checkpoints.
From Verif.Spec Require Import Structs_spec.
From Verif.Proofs Require Import Math_lemmas.
#[global] Open Scope Z_scope.

(** *** BitMap *)
Lemma mask_pow i : BitMap.get_mask i = 2 ^ (i mod 256).
Proof.
  unfold BitMap.get_mask. change 0xff with (Z.ones 8). rewrite Z.land_ones by lia. change (2 ^ 8) with 256.
  pose proof (Z.mod_pos_bound i 256 ltac:(lia)).
  rewrite wshl_small, Z.mul_1_l; [reflexivity|].
  rewrite Z.mul_1_l. split; [apply Z.pow_nonneg; lia|]. apply Z.pow_lt_mono_r; lia.
Qed.
Lemma bucket_div i : BitMap.get_bucket i = i / 256.
Proof. unfold BitMap.get_bucket. rewrite Z.shiftr_div_pow2 by lia. reflexivity. Qed.

Lemma mask_bit i n : 0 <= n -> Z.testbit (BitMap.get_mask i) n = (n =? i mod 256).
Proof.
  intros Hn. rewrite mask_pow. pose proof (Z.mod_pos_bound i 256 ltac:(lia)).
  rewrite Z.pow2_bits_eqb by lia. apply Z.eqb_sym.
Qed.
Lemma cmask_bit i n : 0 <= n < 256 -> Z.testbit (U256_MAX - BitMap.get_mask i) n = negb (n =? i mod 256).
Proof.
  intros Hn. pose proof (Z.mod_pos_bound i 256 ltac:(lia)).
  assert (E : U256_MAX - BitMap.get_mask i = Z.ldiff (Z.ones 256) (BitMap.get_mask i)).
  { rewrite Z.sub_nocarry_ldiff; [reflexivity|].
    apply Z.bits_inj'. intros m Hm. rewrite Z.ldiff_spec, Z.bits_0, mask_bit by lia.
    destruct (m =? i mod 256) eqn:E; [|reflexivity]. change U256_MAX with (Z.ones 256).
    rewrite Z.ones_spec_low by lia. reflexivity. }
  rewrite E, Z.ldiff_spec, mask_bit, Z.ones_spec_low by lia. reflexivity.
Qed.

(** The bit of index [i] in its bucket. *)
Lemma get_testbit s i : BitMap.get s i = Z.testbit (mget (BitMap.data s) (i / 256)) (i mod 256).
Proof.
  unfold BitMap.get. rewrite bucket_div. pose proof (Z.mod_pos_bound i 256 ltac:(lia)) as Hm.
  set (w := mget _ _). destruct (Z.testbit w (i mod 256)) eqn:E.
  - destruct (Z.land w (BitMap.get_mask i) =? 0) eqn:E0; [|reflexivity].
    exfalso. apply Z.eqb_eq in E0.
    assert (Z.testbit (Z.land w (BitMap.get_mask i)) (i mod 256) = true).
    { rewrite Z.land_spec, E, mask_bit, Z.eqb_refl by lia. reflexivity. }
    rewrite E0, Z.bits_0 in H. discriminate.
  - replace (Z.land w (BitMap.get_mask i)) with 0; [reflexivity|].
    apply Z.bits_inj'. intros n Hn. rewrite Z.land_spec, Z.bits_0, mask_bit by lia.
    destruct (Z.eqb_spec n (i mod 256)) as [->|]; [rewrite E; reflexivity|]. symmetry; apply andb_false_r.
Qed.

Lemma step_get s o i : BitMap.get (BitMap.step s o) i = if fst (bop o) =? i then snd (bop o) else BitMap.get s i.
Proof.
  assert (S : forall j, BitMap.get (BitMap.set j s) i = if j =? i then true else BitMap.get s i).
  { intros j. rewrite !get_testbit. unfold BitMap.set. cbn [BitMap.data]. rewrite bucket_div, mget_set.
    pose proof (Z.mod_pos_bound i 256 ltac:(lia)) as Hm.
    pose proof (Z.div_mod i 256 ltac:(lia)). pose proof (Z.div_mod j 256 ltac:(lia)).
    destruct (decide (j / 256 = i / 256)) as [E|E].
    - rewrite Z.lor_spec, mask_bit, E by lia.
      destruct (Z.eqb_spec (i mod 256) (j mod 256)) as [E'|E'].
      + replace (j =? i) with true by lia. apply orb_true_r.
      + replace (j =? i) with false by (symmetry; apply Z.eqb_neq; congruence). apply orb_false_r.
    - replace (j =? i) with false; [reflexivity|]. symmetry; apply Z.eqb_neq; congruence. }
  assert (U : forall j, BitMap.get (BitMap.unset j s) i = if j =? i then false else BitMap.get s i).
  { intros j. rewrite !get_testbit. unfold BitMap.unset. cbn [BitMap.data]. rewrite bucket_div, mget_set.
    pose proof (Z.mod_pos_bound i 256 ltac:(lia)) as Hm.
    pose proof (Z.div_mod i 256 ltac:(lia)). pose proof (Z.div_mod j 256 ltac:(lia)).
    destruct (decide (j / 256 = i / 256)) as [E|E].
    - rewrite Z.land_spec, cmask_bit, E by lia.
      destruct (Z.eqb_spec (i mod 256) (j mod 256)) as [E'|E'].
      + replace (j =? i) with true by lia. apply andb_false_r.
      + replace (j =? i) with false by (symmetry; apply Z.eqb_neq; congruence). apply andb_true_r.
    - replace (j =? i) with false; [reflexivity|]. symmetry; apply Z.eqb_neq; congruence. }
  destruct o as [j|j|j []]; cbn; [apply S|apply U|apply S|apply U].
Qed.

(** *** Checkpoints: binary search *)
Lemma nth_skipn' {A} (l : list A) d n j : nth j (skipn n l) d = nth (n + j) l d.
Proof. revert l; induction n as [|n IH]; intros [|x l]; cbn; try reflexivity; [destruct j; reflexivity|apply IH]. Qed.
Lemma nth_firstn' {A} (l : list A) d n j : (j < n)%nat -> nth j (firstn n l) d = nth j l d.
Proof.
  revert l j; induction n as [|n IH]; intros [|x l] [|j] H; cbn; try reflexivity; try lia. apply IH. lia.
Qed.
Lemma firstn_S' {A} (l : list A) d n : (n < List.length l)%nat -> firstn (S n) l = firstn n l ++ [nth n l d].
Proof.
  revert l; induction n as [|n IH]; intros [|x l] H; cbn [List.length] in H; try lia; [reflexivity|].
  cbn [firstn app nth]. f_equal. apply IH. lia.
Qed.

Definition K (t : trace) (i : Z) : Z := fst (nth (Z.to_nat i) t (0, 0)).
Definition V (t : trace) (i : Z) : Z := snd (nth (Z.to_nat i) t (0, 0)).

Lemma index_ok t i : 0 <= i < length t -> _index t i = Ok (K t i, V t i).
Proof.
  intros H. unfold _index, length, K, V in *. replace (i <? 0) with false by lia.
  rewrite (nth_error_nth' t (0, 0)) by lia. destruct (nth _ t _); reflexivity.
Qed.
Lemma index_out t i : ~ (0 <= i < length t) -> _index t i = Panic.
Proof.
  intros H. unfold _index, length in *. destruct (Z.ltb_spec i 0); [reflexivity|].
  destruct (nth_error t (Z.to_nat i)) eqn:E; [|reflexivity].
  assert (nth_error t (Z.to_nat i) <> None) by congruence. apply nth_error_Some in H1. lia.
Qed.

(** number of checkpoints fits the storage vector's length type *)
Definition len_ok (t : trace) : Prop := length t < two64.

Definition sorted (t : trace) : Prop := forall i j, 0 <= i -> i < j -> j < length t -> K t i < K t j.

Lemma average_mid a b : 0 <= a < b -> b < two64 -> a <= average a b < b.
Proof.
  intros H1 H2. rewrite average_exact.
  - split; [apply Z.div_le_lower_bound; lia|apply Z.div_lt_upper_bound; lia].
  - split; [lia|]. change two256 with (two64 * 2 ^ 192). change (2 ^ 192) with 6277101735386680763835789423207666416102355444464034512896. lia.
  - split; [lia|]. change two256 with (two64 * 2 ^ 192). change (2 ^ 192) with 6277101735386680763835789423207666416102355444464034512896. lia.
Qed.
Lemma wadd_mid a : 0 <= a < two64 -> wadd a 1 = a + 1.
Proof. intros. apply wadd_small. change two256 with (two64 * 2 ^ 192). change (2 ^ 192) with 6277101735386680763835789423207666416102355444464034512896. lia. Qed.
Lemma wsub_pos a : 0 < a < two64 -> wsub a 1 = a - 1.
Proof. intros. apply wsub_small. change two256 with (two64 * 2 ^ 192). change (2 ^ 192) with 6277101735386680763835789423207666416102355444464034512896. lia. Qed.

Lemma upper_search t key (Hs : sorted t) (Hl : len_ok t) :
  forall fuel low high, (Z.to_nat (high - low) < fuel)%nat ->
  0 <= low -> low <= high -> high <= length t ->
  (forall i, 0 <= i < low -> K t i <= key) -> (forall i, high <= i < length t -> key < K t i) ->
  exists p, _upper_binary_lookup fuel t key low high = Ok p /\ 0 <= p <= length t /\
    (forall i, 0 <= i < p -> K t i <= key) /\ (forall i, p <= i < length t -> key < K t i).
Proof.
  unfold len_ok in Hl.
  induction fuel as [|fuel IH]; intros low high Hf H0 Hle Hh HL HH; [lia|].
  cbn [_upper_binary_lookup]. destruct (Z.ltb_spec low high) as [Hlt|Hge].
  - assert (Hm := average_mid low high ltac:(lia) ltac:(lia)). set (m := average low high) in *. clearbody m.
    rewrite index_ok by lia. cbn [obind fst].
    destruct (Z.ltb_spec key (K t m)) as [Hk|Hk].
    + apply IH; try lia; [exact HL|]. intros i Hi. destruct (Z.eq_dec i m) as [->|]; [exact Hk|].
      assert (K t m < K t i) by (apply Hs; lia). lia.
    + rewrite wadd_mid by lia. apply IH; try lia; [|exact HH].
      intros i Hi. destruct (Z.eq_dec i m) as [->|]; [exact Hk|].
      assert (K t i < K t m) by (apply Hs; lia). lia.
  - assert (low = high) by lia. subst low. exists high. split; [reflexivity|]. split; [lia|]. split; assumption.
Qed.

Lemma lower_search t key (Hs : sorted t) (Hl : len_ok t) :
  forall fuel low high, (Z.to_nat (high - low) < fuel)%nat ->
  0 <= low -> low <= high -> high <= length t ->
  (forall i, 0 <= i < low -> K t i < key) -> (forall i, high <= i < length t -> key <= K t i) ->
  exists p, _lower_binary_lookup fuel t key low high = Ok p /\ 0 <= p <= length t /\
    (forall i, 0 <= i < p -> K t i < key) /\ (forall i, p <= i < length t -> key <= K t i).
Proof.
  unfold len_ok in Hl.
  induction fuel as [|fuel IH]; intros low high Hf H0 Hle Hh HL HH; [lia|].
  cbn [_lower_binary_lookup]. destruct (Z.ltb_spec low high) as [Hlt|Hge].
  - assert (Hm := average_mid low high ltac:(lia) ltac:(lia)). set (m := average low high) in *. clearbody m.
    rewrite index_ok by lia. cbn [obind fst].
    destruct (Z.ltb_spec (K t m) key) as [Hk|Hk].
    + rewrite wadd_mid by lia. apply IH; try lia; [|exact HH].
      intros i Hi. destruct (Z.eq_dec i m) as [->|]; [exact Hk|].
      assert (K t i < K t m) by (apply Hs; lia). lia.
    + apply IH; try lia; [exact HL|]. intros i Hi. destruct (Z.eq_dec i m) as [->|]; [exact Hk|].
      assert (K t m < K t i) by (apply Hs; lia). lia.
  - assert (low = high) by lia. subst low. exists high. split; [reflexivity|]. split; [lia|]. split; assumption.
Qed.

(** Value at the partition point, as the specification's [last_with] / [first_from]. *)
Lemma last_with_snoc p l c : last_with p (l ++ [c]) = if p (fst c) then Some (snd c) else last_with p l.
Proof. unfold last_with. rewrite fold_left_app. reflexivity. Qed.
Lemma last_with_none p l : (forall c, In c l -> p (fst c) = false) -> last_with p l = None.
Proof.
  induction l as [|c l IH] using rev_ind; intros H; [reflexivity|]. rewrite last_with_snoc.
  rewrite (H c) by (apply in_or_app; right; left; reflexivity). apply IH. intros c' Hc. apply H. apply in_or_app; left; exact Hc.
Qed.
Lemma last_with_app_none p l l' : (forall c, In c l' -> p (fst c) = false) -> last_with p (l ++ l') = last_with p l.
Proof.
  induction l' as [|c l' IH] using rev_ind; intros H; [rewrite app_nil_r; reflexivity|].
  rewrite app_assoc, last_with_snoc, (H c) by (apply in_or_app; right; left; reflexivity). apply IH.
  intros c' Hc. apply H. apply in_or_app; left; exact Hc.
Qed.
Lemma in_skipn_K t n c : In c (skipn n t) -> exists i, Z.of_nat n <= i < length t /\ c = (K t i, V t i).
Proof.
  intros H. apply (In_nth _ _ (0, 0)) in H. destruct H as (j & Hj & E). rewrite skipn_length in Hj.
  exists (Z.of_nat (n + j)). split; [unfold length; lia|].
  unfold K, V. rewrite Nat2Z.id. rewrite nth_skipn' in E. rewrite E. destruct c; reflexivity.
Qed.
Lemma in_firstn_K t n c : In c (firstn n t) -> exists i, 0 <= i < Z.of_nat n /\ i < length t /\ c = (K t i, V t i).
Proof.
  intros H. apply (In_nth _ _ (0, 0)) in H. destruct H as (j & Hj & E). rewrite firstn_length in Hj.
  exists (Z.of_nat j). split; [lia|]. split; [unfold length; lia|].
  unfold K, V. rewrite Nat2Z.id. rewrite nth_firstn' in E by lia. rewrite E. destruct c; reflexivity.
Qed.
Lemma firstn_snoc t i : 0 <= i < length t -> firstn (Z.to_nat (i + 1)) t = firstn (Z.to_nat i) t ++ [(K t i, V t i)].
Proof.
  intros H. unfold length in H. replace (Z.to_nat (i + 1)) with (S (Z.to_nat i)) by lia.
  rewrite (firstn_S' _ (0,0)) by lia. unfold K, V. destruct (nth _ t _); reflexivity.
Qed.

Lemma upper_value t key p :
  0 <= p <= length t ->
  (forall i, 0 <= i < p -> K t i <= key) -> (forall i, p <= i < length t -> key < K t i) ->
  or_zero (last_with (fun k => k <=? key) t) = if p =? 0 then 0 else V t (p - 1).
Proof.
  intros Hp HL HH. rewrite <- (firstn_skipn (Z.to_nat p) t) at 1.
  rewrite last_with_app_none.
  2: { intros c Hc. apply in_skipn_K in Hc. destruct Hc as (i & Hi & ->). cbn. specialize (HH i ltac:(lia)). lia. }
  destruct (Z.eqb_spec p 0) as [->|Hne]; [reflexivity|].
  replace p with (p - 1 + 1) by lia. rewrite firstn_snoc by lia. rewrite last_with_snoc. cbn [fst snd].
  specialize (HL (p - 1) ltac:(lia)). replace (K t (p - 1) <=? key) with true by lia. cbn.
  f_equal. lia.
Qed.

Lemma find_app {A} (f : A -> bool) l l' : (forall c, In c l -> f c = false) -> find f (l ++ l') = find f l'.
Proof.
  induction l as [|x l IH]; intros H; [reflexivity|]. cbn. rewrite (H x) by (left; reflexivity). apply IH.
  intros c Hc. apply H. right; exact Hc.
Qed.
Lemma skipn_cons_K t i : 0 <= i < length t -> skipn (Z.to_nat i) t = (K t i, V t i) :: skipn (Z.to_nat (i + 1)) t.
Proof.
  unfold length, K, V. intros H. replace (Z.to_nat (i + 1)) with (S (Z.to_nat i)) by lia.
  assert (Hn : (Z.to_nat i < List.length t)%nat) by lia. revert Hn. generalize (Z.to_nat i). clear.
  intros n. revert t. induction n as [|n IH]; intros [|x t] H; cbn [List.length] in H; try lia; [destruct x; reflexivity|].
  cbn [skipn nth]. apply IH. lia.
Qed.
Lemma lower_value t key p (Hs : sorted t) :
  0 <= p <= length t ->
  (forall i, 0 <= i < p -> K t i < key) -> (forall i, p <= i < length t -> key <= K t i) ->
  or_zero (first_from key t) = if p =? length t then 0 else V t p.
Proof.
  intros Hp HL HH. unfold first_from.
  rewrite <- (firstn_skipn (Z.to_nat p) t) at 1.
  rewrite find_app.
  2: { intros c Hc. apply in_firstn_K in Hc. destruct Hc as (i & Hi & _ & ->). cbn. specialize (HL i ltac:(lia)). lia. }
  destruct (Z.eqb_spec p (length t)) as [->|Hne].
  - unfold length. rewrite Nat2Z.id, skipn_all. reflexivity.
  - rewrite skipn_cons_K by lia. cbn [find fst].
    specialize (HH p ltac:(lia)). replace (key <=? K t p) with true by lia. cbn [fst].
    rewrite <- (firstn_skipn (Z.to_nat (p + 1)) t) at 1.
    rewrite last_with_app_none.
    2: { intros c Hc. apply in_skipn_K in Hc. destruct Hc as (i & Hi & ->). cbn.
         assert (K t p < K t i) by (apply Hs; lia). lia. }
    rewrite firstn_snoc by lia. rewrite last_with_snoc. cbn [fst snd]. rewrite Z.eqb_refl. reflexivity.
Qed.

(** The lookups on a sorted trace. *)
Lemma upper_lookup_sorted t key : sorted t -> len_ok t ->
  upper_lookup t key = Ok (or_zero (last_with (fun k => k <=? key) t)).
Proof.
  intros Hs Hl. unfold upper_lookup.
  destruct (upper_search t key Hs Hl (fuel_of t) 0 (length t)) as (p & -> & Hp & HL & HH); try (unfold fuel_of, length; lia).
  cbn [obind]. rewrite (upper_value t key p Hp HL HH).
  destruct (Z.eqb_spec p 0); [reflexivity|]. unfold len_ok in Hl. rewrite wsub_pos by lia.
  rewrite index_ok by lia. reflexivity.
Qed.
Lemma lower_lookup_sorted t key : sorted t -> len_ok t ->
  lower_lookup t key = Ok (or_zero (first_from key t)).
Proof.
  intros Hs Hl. unfold lower_lookup.
  destruct (lower_search t key Hs Hl (fuel_of t) 0 (length t)) as (p & -> & Hp & HL & HH); try (unfold fuel_of, length; lia).
  cbn [obind]. rewrite (lower_value t key p Hs Hp HL HH).
  destruct (Z.eqb_spec p (length t)); [reflexivity|].
  rewrite index_ok by lia. reflexivity.
Qed.
Lemma recent_mid n : 5 < n < two64 -> 0 <= wsub n (sqrt n) < n.
Proof.
  intros H. assert (Hn : is_u256 n) by (split; [lia|]; eapply Z.lt_trans; [apply H|reflexivity]).
  rewrite sqrt_exact by exact Hn.
  assert (1 <= Z.sqrt n) by (change 1 with (Z.sqrt 1); apply Z.sqrt_le_mono; lia).
  assert (Z.sqrt n < n) by (apply Z.sqrt_lt_lin; lia).
  rewrite wsub_small; [lia|]. unfold is_u256 in Hn. lia.
Qed.
Lemma upper_lookup_recent_sorted t key : sorted t -> len_ok t ->
  upper_lookup_recent t key = Ok (or_zero (last_with (fun k => k <=? key) t)).
Proof.
  intros Hs Hl. unfold upper_lookup_recent.
  assert (Hpos : 0 <= length t) by (unfold length; lia).
  assert (F : forall low high, 0 <= low -> low <= high -> high <= length t ->
    (forall i, 0 <= i < low -> K t i <= key) -> (forall i, high <= i < length t -> key < K t i) ->
    obind (_upper_binary_lookup (fuel_of t) t key low high) (fun pos =>
      if pos =? 0 then Ok 0 else obind (_index t (wsub pos 1)) (fun c => Ok (snd c))) =
    Ok (or_zero (last_with (fun k => k <=? key) t))).
  { intros low high H1 H2 H3 H4 H5.
    destruct (upper_search t key Hs Hl (fuel_of t) low high) as (p & -> & Hp & HL & HH);
      try assumption; try (unfold fuel_of, length in *; lia).
    cbn [obind]. rewrite (upper_value t key p Hp HL HH).
    destruct (Z.eqb_spec p 0); [reflexivity|]. unfold len_ok in Hl. rewrite wsub_pos by lia.
    rewrite index_ok by lia. reflexivity. }
  unfold len_ok in Hl.
  destruct (Z.ltb_spec 5 (length t)) as [H5|H5].
  - pose proof (recent_mid (length t) ltac:(lia)) as Hm. set (m := wsub _ _) in *. clearbody m.
    rewrite index_ok by lia. cbn [obind fst].
    destruct (Z.ltb_spec key (K t m)) as [Hk|Hk].
    + apply F; try (intros; lia). intros i Hi. destruct (Z.eq_dec i m) as [->|]; [exact Hk|].
      assert (K t m < K t i) by (apply Hs; lia). lia.
    + rewrite wadd_mid by lia. apply F; try (intros; lia).
      intros i Hi. destruct (Z.eq_dec i m) as [->|]; [exact Hk|].
      assert (K t i < K t m) by (apply Hs; lia). lia.
  - apply F; try (intros; lia).
Qed.

(** *** Pushes *)
Lemma push_eq t k v : len_ok t ->
  push t k v = match rev t with
               | [] => (Ok (0, v), [(k, v)])
               | (lk, lv) :: r =>
                   if k <? lk then (Err CheckpointUnorderedInsertion, t)
                   else if lk =? k then (Ok (lv, v), rev r ++ [(lk, v)])
                   else (Ok (lv, v), t ++ [(k, v)])
               end.
Proof.
  intros Hl. destruct (rev t) as [|[lk lv] r] eqn:E.
  - apply (f_equal (@rev _)) in E. rewrite rev_involutive in E. subst t. reflexivity.
  - apply (f_equal (@rev _)) in E. rewrite rev_involutive in E. cbn [rev] in E. subst t.
    unfold push, len_ok, length in *. rewrite app_length in *. cbn [List.length] in *.
    replace (0 <? Z.of_nat (List.length (rev r) + 1)) with true by lia.
    rewrite wsub_pos by lia. replace (Z.of_nat (List.length (rev r) + 1) - 1) with (Z.of_nat (List.length (rev r))) by lia.
    unfold set_value. set (n := List.length (rev r)).
    assert (E : _index (rev r ++ [(lk, lv)]) (Z.of_nat n) = Ok (lk, lv)).
    { unfold _index. replace (Z.of_nat n <? 0) with false by lia. rewrite Nat2Z.id.
      rewrite nth_error_app2 by (unfold n; lia). unfold n. rewrite Nat.sub_diag. reflexivity. }
    rewrite E. cbn [obind fst]. rewrite Nat2Z.id. 
    assert (F1 : firstn n (rev r ++ [(lk, lv)]) = rev r).
    { unfold n. rewrite firstn_app, Nat.sub_diag, firstn_all. cbn. apply app_nil_r. }
    assert (F2 : skipn (S n) (rev r ++ [(lk, lv)]) = []).
    { apply skipn_all2. rewrite app_length. cbn. unfold n. lia. }
    rewrite F1, F2. reflexivity.
Qed.

(** Invariant: the trace is sorted and agrees with the accepted pushes. *)
Definition last_key (l : list (Z * Z)) : option Z := last_with (fun _ => true) (map (fun c => (fst c, fst c)) l).
Lemma last_key_snoc l c : last_key (l ++ [c]) = Some (fst c).
Proof. unfold last_key. rewrite map_app. cbn [map]. rewrite last_with_snoc. reflexivity. Qed.

Lemma accepted_from_snoc h : forall o k v,
  accepted_from o (h ++ [(k, v)]) =
  accepted_from o h ++
    (if match (match last_key (accepted_from o h) with Some l => Some l | None => o end) with
        | Some l => k <? l | None => false end
     then [] else [(k, v)]).
Proof.
  assert (LK : forall l c, exists x, last_key (c :: l) = Some x /\ forall o : option Z, match last_key l with Some y => Some y | None => Some (fst c) end = Some x).
  { intros l c. destruct l as [|d l _] using rev_ind.
    - exists (fst c). split; reflexivity.
    - exists (fst d). rewrite app_comm_cons, !last_key_snoc. split; reflexivity. }
  induction h as [|[k0 v0] h IH]; intros o k v.
  - cbn. destruct o as [l|]; [destruct (k <? l)|]; reflexivity.
  - cbn [accepted_from app]. destruct (match o with Some l => k0 <? l | None => false end).
    + apply IH.
    + rewrite IH. cbn [app]. f_equal. f_equal.
      destruct (LK (accepted_from (Some k0) h) (k0, v0)) as (x & E1 & E2). rewrite E1. cbn [fst] in E2. 
      rewrite (E2 None). reflexivity.
Qed.
Lemma accepted_snoc h k v :
  accepted (h ++ [(k, v)]) =
  if match last_key (accepted h) with Some l => k <? l | None => false end
  then accepted h else accepted h ++ [(k, v)].
Proof.
  unfold accepted. rewrite accepted_from_snoc. destruct (last_key _) as [l|]; [destruct (k <? l)|]; cbn; rewrite ?app_nil_r; reflexivity.
Qed.

Record Inv (acc t : list (Z * Z)) : Prop := {
  inv_sorted : sorted t;
  inv_last : last_key t = last_key acc;
  inv_with : forall p, last_with p t = last_with p acc;
  inv_find : forall p : Z -> bool, option_map fst (find (fun c => p (fst c)) t) = option_map fst (find (fun c => p (fst c)) acc);
  inv_len : (List.length t <= List.length acc)%nat;
}.

Lemma sorted_snoc t k v : sorted t -> (forall c, In c t -> fst c < k) -> sorted (t ++ [(k, v)]).
Proof.
  intros Hs Hc i j H0 Hij Hj. unfold length in Hj. rewrite app_length in Hj. cbn in Hj. unfold K.
  destruct (Z.eq_dec j (length t)) as [->|Hne].
  - unfold length at 1. rewrite Nat2Z.id, (app_nth2 _ _ _ (le_n _)), Nat.sub_diag. cbn [nth fst].
    unfold length in *. rewrite app_nth1 by lia. apply Hc. apply nth_In. lia.
  - unfold length in *. rewrite !app_nth1 by lia. apply (Hs i j); unfold length; lia.
Qed.
Lemma sorted_last t k v c : sorted (t ++ [(k, v)]) -> In c t -> fst c < k.
Proof.
  intros Hs Hc. apply (In_nth _ _ (0, 0)) in Hc. destruct Hc as (n & Hn & E).
  specialize (Hs (Z.of_nat n) (Z.of_nat (List.length t))). unfold K, length in Hs. rewrite app_length in Hs. cbn in Hs.
  rewrite !Nat2Z.id, (app_nth2 _ _ _ (le_n _)), Nat.sub_diag, app_nth1, E in Hs by lia. cbn in Hs. apply Hs; lia.
Qed.
Lemma sorted_init t c : sorted (t ++ [c]) -> sorted t.
Proof.
  intros Hs i j H0 Hij Hj. specialize (Hs i j H0 Hij). unfold K, length in *. rewrite app_length in Hs. cbn in Hs.
  rewrite !app_nth1 in Hs by lia. apply Hs. lia.
Qed.

Lemma find_snoc {A} (f : A -> bool) l x : find f (l ++ [x]) = match find f l with Some c => Some c | None => if f x then Some x else None end.
Proof. induction l as [|y l IH]; cbn; [destruct (f x); reflexivity|]. destruct (f y); [reflexivity|exact IH]. Qed.

Lemma find_in_last {A} (f : A -> bool) l x : f x = true -> In x l -> find f l <> None.
Proof. intros H Hi E. eapply find_none in E; [|exact Hi]. congruence. Qed.

Lemma inv_push acc t k v : Inv acc t -> len_ok t ->
  ((match last_key acc with Some l => k <? l | None => false end) = true /\     push t k v = (Err CheckpointUnorderedInsertion, t)) \/
  ((match last_key acc with Some l => k <? l | None => false end) = false /\     exists t', push t k v = (Ok (or_zero (last_with (fun _ => true) acc), v), t') /\ Inv (acc ++ [(k, v)]) t').
Proof.
  intros [H1 H2 H3 H4 H5] Hl. rewrite push_eq by exact Hl. rewrite <- H2, <- H3.
  destruct t as [|[lk lv] t _] using rev_ind.
  - right. split; [reflexivity|]. eexists. split; [reflexivity|].
    assert (acc = []) as ->. { destruct acc as [|c acc]; [reflexivity|]. specialize (H4 (fun _ => true)). discriminate H4. }
    split; try reflexivity. intros i j ? ? Hj. unfold length in Hj. cbn in Hj. lia.
  - rewrite rev_app_distr. cbn [rev app]. rewrite last_key_snoc, last_with_snoc. cbn [fst snd or_zero].
    destruct (k <? lk) eqn:Ek; [left; split; reflexivity|right; split; [reflexivity|]].
    destruct (lk =? k) eqn:El.
    + apply Z.eqb_eq in El. subst lk. eexists. split; [reflexivity|]. rewrite rev_involutive.
      split.
      * apply sorted_snoc; [eapply sorted_init; exact H1|]. intros c Hc. eapply sorted_last; eassumption.
      * rewrite !last_key_snoc. reflexivity.
      * intros p. specialize (H3 p). rewrite last_with_snoc in H3 |- *. rewrite last_with_snoc. cbn [fst snd] in *.
        destruct (p k); [reflexivity|exact H3].
      * intros p. specialize (H4 p). rewrite find_snoc in H4 |- *. rewrite find_snoc. cbn [fst] in *.
        destruct (find _ acc); cbn in *.
        -- rewrite <- H4. destruct (find _ t); cbn; [reflexivity|]. destruct (p k); reflexivity.
        -- destruct (find _ t); cbn in *; [discriminate|]. destruct (p k); [discriminate|reflexivity].
      * rewrite !app_length in *. cbn in *. lia.
    + eexists. split; [reflexivity|]. split.
      * apply sorted_snoc; [exact H1|]. intros c Hc. apply in_app_or in Hc. destruct Hc as [Hc|[<-|[]]]; [|cbn; lia].
        pose proof (sorted_last _ _ _ _ H1 Hc). lia.
      * rewrite !last_key_snoc. reflexivity.
      * intros p. rewrite !(last_with_snoc p _ (k, v)), H3. reflexivity.
      * intros p. specialize (H4 p). rewrite !(find_snoc _ _ (k, v)). cbn [fst].
        destruct (find _ acc), (find _ (t ++ [(lk, lv)])); cbn in *; try discriminate; [exact H4|]. destruct (p k); reflexivity.
      * rewrite !app_length in *. cbn in *. lia.
Qed.

Lemma accepted_length h : forall o, (List.length (accepted_from o h) <= List.length h)%nat.
Proof.
  induction h as [|[k v] h IH]; intros o; cbn; [lia|]. destruct (match o with Some l => k <? l | None => false end); cbn; [specialize (IH o)|specialize (IH (Some k))]; lia.
Qed.
Lemma inv_run h : Z.of_nat (List.length h) < two64 -> Inv (accepted h) (run h []).
Proof.
  induction h as [|[k v] h IH] using rev_ind; intros Hl.
  - split; try reflexivity. intros i j ? ? Hj. unfold length in Hj. cbn in Hj. lia.
  - rewrite app_length in Hl. cbn in Hl. specialize (IH ltac:(lia)).
    unfold run in *. rewrite fold_left_app. cbn [fold_left fst snd].
    assert (Hk : len_ok (fold_left (fun t p => snd (push t (fst p) (snd p))) h [])).
    { unfold len_ok, length. pose proof (inv_len _ _ IH). pose proof (accepted_length h None). unfold accepted in *. lia. }
    rewrite accepted_snoc.
    destruct (inv_push _ _ k v IH Hk) as [[E ->]|(E & t' & -> & HI)]; rewrite E; [exact IH|exact HI].
Qed.
Lemma run_len_ok h : Z.of_nat (List.length h) < two64 -> len_ok (run h []).
Proof.
  intros Hl. pose proof (inv_len _ _ (inv_run h Hl)). pose proof (accepted_length h None).
  unfold len_ok, length, accepted in *. lia.
Qed.

Lemma sorted_in_last t k v : sorted t -> In (k, v) t <-> last_with (fun k' => k' =? k) t = Some v.
Proof.
  intros Hs. induction t as [|[k0 v0] t IH] using rev_ind; [split; [intros []|discriminate]|].
  rewrite last_with_snoc, in_app_iff. cbn [fst snd In]. specialize (IH (sorted_init _ _ Hs)).
  destruct (Z.eqb_spec k0 k) as [->|Hne].
  - split.
    + intros [H|[H|[]]]; [|congruence]. pose proof (sorted_last _ _ _ _ Hs H). cbn in *. lia.
    + intros H. right; left. congruence.
  - rewrite <- IH. split; [intros [H|[H|[]]]; [exact H|congruence]|auto].
Qed.
Lemma sorted_increasing t : sorted t -> increasing (map fst t).
Proof.
  induction t as [|[k0 v0] t IH]; intros Hs; [exact I|]. cbn [map increasing]. split.
  - destruct t as [|[k1 v1] t]; [exact I|]. cbn. apply (Hs 0 1); unfold length; cbn; lia.
  - apply IH. intros i j H0 H1 H2. specialize (Hs (i + 1) (j + 1)). unfold K, length in *. cbn [List.length] in Hs.
    replace (Z.to_nat (i + 1)) with (S (Z.to_nat i)) in Hs by lia.
    replace (Z.to_nat (j + 1)) with (S (Z.to_nat j)) in Hs by lia. cbn [nth] in Hs. apply Hs; lia.
Qed.
