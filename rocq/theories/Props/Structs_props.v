(** Property theorems for BitMap (C28), Checkpoints (C29) and Math (C30, C31). *)
From Verif.Base Require Import Prelude Maps.
From Verif.Model Require BitMap.
From stdpp Require Import gmap.
From Verif.Model Require Import Math Checkpoints.
From Verif.Spec Require Import Structs_spec.
From Verif.Proofs Require Import Math_lemmas Structs_lemmas.
#[global] Open Scope Z_scope.

(** ** C28 *)
(** After any sequence of calls, [get i] is what the last call on [i] asked for.
    (No range hypothesis is needed: it holds in particular for all 256-bit indices.) *)
Theorem c28_bitmap_is_a_set :
  forall h i, BitMap.get (BitMap.run h BitMap.init) i = last_bit h i.
Proof.
  intros h i. induction h as [|o h IH] using rev_ind.
  - cbn. rewrite get_testbit. unfold BitMap.init; cbn [BitMap.data]. rewrite mget_empty. apply Z.bits_0.
  - unfold BitMap.run, last_bit in *. rewrite !fold_left_app. cbn [fold_left]. rewrite step_get, IH. reflexivity.
Qed.
Print Assumptions c28_bitmap_is_a_set.

(** One call, from any state: exactly the addressed index changes. *)
Theorem c28_no_interference :
  forall s i j v,
  BitMap.get (BitMap.set_to i v s) j = (if i =? j then v else BitMap.get s j) /\
  BitMap.get (BitMap.set i s) j = (if i =? j then true else BitMap.get s j) /\
  BitMap.get (BitMap.unset i s) j = (if i =? j then false else BitMap.get s j).
Proof.
  intros s i j v.
  exact (conj (step_get s (BitMap.OSetTo i v) j) (conj (step_get s (BitMap.OSet i) j) (step_get s (BitMap.OUnset i) j))).
Qed.
Print Assumptions c28_no_interference.

(** Every stored word stays a 256-bit word, so no write is truncated by the storage. *)
Theorem c28_words_in_range :
  forall h b, is_u256 (mget (BitMap.data (BitMap.run h BitMap.init)) b).
Proof.
  intros h b. revert b. induction h as [|o h IH] using rev_ind; intros b.
  - cbn. rewrite mget_empty. split; [lia|reflexivity].
  - unfold BitMap.run in *. rewrite fold_left_app. cbn [fold_left]. set (s := fold_left _ h _) in *. clearbody s.
    assert (M : forall i, is_u256 (BitMap.get_mask i)).
    { intros i. apply Z.mod_pos_bound. reflexivity. }
    assert (L : forall i b, is_u256 (mget (BitMap.data (BitMap.set i s)) b)).
    { intros i c. unfold BitMap.set. cbn [BitMap.data]. rewrite mget_set. destruct (decide _); [|apply IH].
      pose proof (IH (BitMap.get_bucket i)) as [A1 A2]. pose proof (M i) as [B1 B2]. split.
      - apply Z.lor_nonneg. lia.
      - set (x := mget _ _) in *. set (y := BitMap.get_mask i) in *. 
        destruct (Z.eq_dec (Z.lor x y) 0) as [->|Hne]; [reflexivity|].
        assert (0 < Z.lor x y) by (assert (0 <= Z.lor x y) by (apply Z.lor_nonneg; lia); lia).
        apply Z.log2_lt_pow2; [assumption|]. rewrite Z.log2_lor by lia. apply Z.max_lub_lt.
        + destruct (Z.eq_dec x 0) as [->|]; [reflexivity|]. apply Z.log2_lt_pow2; [lia|exact A2].
        + destruct (Z.eq_dec y 0) as [->|]; [reflexivity|]. apply Z.log2_lt_pow2; [lia|exact B2]. }
    assert (U : forall i b, is_u256 (mget (BitMap.data (BitMap.unset i s)) b)).
    { intros i c. unfold BitMap.unset. cbn [BitMap.data]. rewrite mget_set. destruct (decide _); [|apply IH].
      pose proof (IH (BitMap.get_bucket i)) as [A1 A2]. split.
      - apply Z.land_nonneg. lia.
      - set (x := mget _ _) in *. set (y := U256_MAX - BitMap.get_mask i) in *. 
        destruct (Z.eq_dec (Z.land x y) 0) as [->|Hne]; [reflexivity|].
        assert (0 < Z.land x y) by (assert (0 <= Z.land x y) by (apply Z.land_nonneg; lia); lia).
        apply Z.log2_lt_pow2; [assumption|].
        pose proof (M i) as [B1 B2].
        eapply Z.le_lt_trans; [apply Z.log2_land; [lia|unfold y, U256_MAX; lia]|]. apply Z.min_lt_iff. left.
        destruct (Z.eq_dec x 0) as [->|]; [reflexivity|]. apply Z.log2_lt_pow2; [lia|exact A2]. }
    destruct o as [i|i|i []]; cbn [BitMap.step BitMap.set_to]; auto.
Qed.
Print Assumptions c28_words_in_range.

Example c28_nonvacuous :
  let h := [BitMap.OSet 256; BitMap.OSet 0; BitMap.OSetTo (two256 - 1) true; BitMap.OUnset 0; BitMap.OSetTo 255 true] in
  map (BitMap.get (BitMap.run h BitMap.init)) [0; 1; 255; 256; 257; 512; two256 - 1] =
  [false; false; true; true; false; false; true].
Proof. vm_compute. reflexivity. Qed.

(** ** C29
    [h] is any history of pushes (each succeeding or failing); the only hypothesis is
    that there are fewer than 2^64 of them (the storage vector's length is a [usize]). *)

Theorem c29_upper_lookup :
  forall h k, Z.of_nat (List.length h) < two64 ->
  upper_lookup (run h []) k = Ok (or_zero (last_with (fun k' => k' <=? k) (accepted h))).
Proof.
  intros h k Hl. pose proof (inv_run h Hl) as HI.
  rewrite (upper_lookup_sorted _ k (inv_sorted _ _ HI) (run_len_ok h Hl)), (inv_with _ _ HI). reflexivity.
Qed.
Print Assumptions c29_upper_lookup.

Theorem c29_upper_lookup_recent :
  forall h k, Z.of_nat (List.length h) < two64 ->
  upper_lookup_recent (run h []) k = Ok (or_zero (last_with (fun k' => k' <=? k) (accepted h))).
Proof.
  intros h k Hl. pose proof (inv_run h Hl) as HI.
  rewrite (upper_lookup_recent_sorted _ k (inv_sorted _ _ HI) (run_len_ok h Hl)), (inv_with _ _ HI). reflexivity.
Qed.
Print Assumptions c29_upper_lookup_recent.

Theorem c29_lower_lookup :
  forall h k, Z.of_nat (List.length h) < two64 ->
  lower_lookup (run h []) k = Ok (or_zero (first_from k (accepted h))).
Proof.
  intros h k Hl. pose proof (inv_run h Hl) as HI.
  rewrite (lower_lookup_sorted _ k (inv_sorted _ _ HI) (run_len_ok h Hl)).
  unfold first_from. pose proof (inv_find _ _ HI (fun k' => k <=? k')) as F. cbn beta in F.
  destruct (find (fun c => k <=? fst c) (run h [])) as [c|], (find (fun c => k <=? fst c) (accepted h)) as [c'|];
    cbn in F; try discriminate; [|reflexivity].
  injection F as F. rewrite F, (inv_with _ _ HI). reflexivity.
Qed.
Print Assumptions c29_lower_lookup.

(** A push succeeds iff its key is not below the key of the last accepted push, returns
    the previous latest value and the new one; otherwise it fails with the documented
    error and the trace is untouched.  It never panics. *)
Theorem c29_push :
  forall h k v, Z.of_nat (List.length h) < two64 ->
  let t := run h [] in
  if match rev (accepted h) with (l, _) :: _ => k <? l | [] => false end
  then push t k v = (Err CheckpointUnorderedInsertion, t)
  else exists t', push t k v = (Ok (or_zero (last_with (fun _ => true) (accepted h)), v), t').
Proof.
  intros h k v Hl t. pose proof (inv_run h Hl) as HI.
  assert (E : match rev (accepted h) with (l, _) :: _ => k <? l | [] => false end =
              match last_key (accepted h) with Some l => k <? l | None => false end).
  { destruct (accepted h) as [|[a b] l _] using rev_ind; [reflexivity|].
    rewrite rev_app_distr, last_key_snoc. reflexivity. }
  rewrite E. destruct (inv_push _ _ k v HI (run_len_ok h Hl)) as [[-> H]|(-> & t' & H & _)]; [exact H|].
  exists t'. exact H.
Qed.
Print Assumptions c29_push.

(** The stored checkpoints: strictly increasing keys; the pair (k, v) is stored iff v is
    the last accepted value for k; [length], [at], [latest] and [latest_checkpoint] read
    exactly these, and [at] panics exactly outside. *)
Theorem c29_stored_checkpoints :
  forall h, Z.of_nat (List.length h) < two64 ->
  let t := run h [] in
  exists l : list (Z * Z),
    increasing (map fst l) /\
    (forall k v, In (k, v) l <-> last_with (fun k' => k' =? k) (accepted h) = Some v) /\
    length t = Z.of_nat (List.length l) /\
    (forall i, at_ t i = match (if i <? 0 then None else nth_error l (Z.to_nat i)) with
                         | Some c => Ok c | None => Panic end) /\
    latest t = Ok (or_zero (last_with (fun _ => true) (accepted h))) /\
    latest_checkpoint t = Ok (match rev l with c :: _ => Some c | [] => None end) /\
    option_map snd (match rev l with c :: _ => Some c | [] => None end) = last_with (fun _ => true) (accepted h).
Proof.
  intros h Hl t. pose proof (inv_run h Hl) as HI. pose proof (run_len_ok h Hl) as Hk. fold t in HI, Hk.
  exists t. split; [apply sorted_increasing, (inv_sorted _ _ HI)|].
  split; [intros k v; rewrite sorted_in_last by apply (inv_sorted _ _ HI); rewrite (inv_with _ _ HI); reflexivity|].
  split; [reflexivity|].
  split; [intros i; unfold at_, _index; destruct (i <? 0); reflexivity|].
  rewrite <- (inv_with _ _ HI).
  unfold latest, latest_checkpoint. clearbody t. clear HI.
  destruct t as [|c t _] using rev_ind; [repeat split|].
  rewrite rev_app_distr. cbn [rev app]. rewrite last_with_snoc. cbn [or_zero option_map].
  unfold len_ok, length in *. rewrite app_length in *. cbn [List.length] in *.
  replace (Z.of_nat (List.length t + 1) =? 0) with false by lia. rewrite wsub_pos by lia.
  replace (Z.of_nat (List.length t + 1) - 1) with (Z.of_nat (List.length t)) by lia.
  unfold _index. replace (Z.of_nat (List.length t) <? 0) with false by lia. rewrite Nat2Z.id.
  rewrite nth_error_app2, Nat.sub_diag by lia. repeat split.
Qed.
Print Assumptions c29_stored_checkpoints.

Definition cp_demo : list (Z * Z) :=
  [(1, 10); (3, 30); (3, 31); (2, 99); (5, 50); (7, 70); (8, 80); (9, 90); (12, 120); (12, 121); (4, 1)].
Example c29_nonvacuous :
  run cp_demo [] = [(1, 10); (3, 31); (5, 50); (7, 70); (8, 80); (9, 90); (12, 121)] /\
  map (fun k => (upper_lookup (run cp_demo []) k, upper_lookup_recent (run cp_demo []) k, lower_lookup (run cp_demo []) k)) [0; 1; 4; 8; 12; 13] =
  [(Ok 0, Ok 0, Ok 10); (Ok 10, Ok 10, Ok 10); (Ok 31, Ok 31, Ok 50); (Ok 80, Ok 80, Ok 80); (Ok 121, Ok 121, Ok 121); (Ok 121, Ok 121, Ok 0)] /\
  push (run cp_demo []) 11 5 = (Err CheckpointUnorderedInsertion, run cp_demo []).
Proof. vm_compute. repeat split. Qed.

(** ** C30 *)
Theorem c30_sqrt_exact :
  forall a, is_u256 a ->
  let r := sqrt a in 0 <= r /\ r * r <= a < (r + 1) * (r + 1).
Proof.
  intros a Ha r. unfold r. rewrite sqrt_exact by exact Ha.
  destruct (root_exists a (proj1 Ha)) as (H1 & H2 & H3). repeat split; assumption.
Qed.
Print Assumptions c30_sqrt_exact.

(** No intermediate overflow, underflow or division by zero, for any input: the strict
    reading of the code (Structs_spec) succeeds with the same result. *)
Theorem c30_sqrt_no_overflow :
  forall a, is_u256 a -> sqrt_strict a = Some (sqrt a).
Proof. intros a Ha. destruct (sqrt_exact_strict a Ha) as [-> ->]. reflexivity. Qed.
Print Assumptions c30_sqrt_no_overflow.

Example c30_nonvacuous :
  sqrt (two256 - 1) = 2 ^ 128 - 1 /\ sqrt (2 ^ 254) = 2 ^ 127 /\ sqrt (2 ^ 254 - 1) = 2 ^ 127 - 1 /\ sqrt 0 = 0 /\ sqrt 3 = 1 /\ sqrt 99 = 9.
Proof. vm_compute. repeat split. Qed.

(** ** C31 *)
Theorem c31_average_exact :
  forall a b, is_u256 a -> is_u256 b -> average a b = (a + b) / 2.
Proof. exact average_exact. Qed.
Print Assumptions c31_average_exact.

(** [mul_div] returns the exact floor / ceiling [q] of [x*y/d] iff it fits 256 bits;
    it panics exactly when [d = 0] or the rounded quotient does not fit. *)
Theorem c31_mul_div_exact :
  forall E x y d r q, is_u256 x -> is_u256 y -> is_u256 d ->
  mul_div (E := E) x y d r = Ok q <->
  d <> 0 /\ q < two256 /\
  match r with
  | Floor => q * d <= x * y < (q + 1) * d
  | Ceil => (q - 1) * d < x * y <= q * d
  end.
Proof.
  intros E x y d r q [X0 X1] [Y0 Y1] [D0 D1].
  assert (P0 : 0 <= x * y) by (apply Z.mul_nonneg_nonneg; lia).
  assert (P1 : x * y <= (two256 - 1) * (two256 - 1)) by (apply Z.mul_le_mono_nonneg; lia).
  assert (T : (two256 - 1) * (two256 - 1) + two256 < two512) by reflexivity.
  unfold mul_div. destruct (Z.eqb_spec d 0) as [->|Hd].
  - split; [discriminate|]. intros [H _]. congruence.
  - replace (two512 <=? x * y) with false by lia.
    assert (G : forall A, 0 <= A -> A < two512 ->
      (if two512 <=? A then Panic else if U256_MAX <? A / d then Panic else Ok (E := E) (A / d)) = Ok q <->
      q < two256 /\ q * d <= A < (q + 1) * d).
    { intros A HA1 HA2. replace (two512 <=? A) with false by lia. unfold U256_MAX.
      pose proof (Z.div_mod A d Hd) as DM. pose proof (Z.mod_pos_bound A d ltac:(lia)) as MB.
      split.
      - destruct (Z.ltb_spec (two256 - 1) (A / d)); [discriminate|]. intros HH. injection HH as <-. split; [lia|]. split; lia.
      - intros (H1 & H2 & H3). assert (q = A / d) as <-.
        { apply (Z.div_unique_pos A d q (A - d * q)); lia. }
        replace (two256 - 1 <? q) with false by lia. reflexivity. }
    destruct r.
    + rewrite G by lia. split; [intros []; auto|intros (_ & ? & ?); auto].
    + rewrite G by lia. split.
      * intros (H1 & H2 & H3). split; [exact Hd|]. split; [exact H1|]. split; lia.
      * intros (_ & H1 & H2 & H3). split; [exact H1|]. split; lia.
Qed.
Print Assumptions c31_mul_div_exact.

Theorem c31_mul_div_panics_exactly :
  forall E x y d r, is_u256 x -> is_u256 y -> is_u256 d ->
  (mul_div (E := E) x y d r = Panic <->
   d = 0 \/ match r with Floor => two256 * d <= x * y | Ceil => (two256 - 1) * d < x * y end) /\
  (forall e, mul_div (E := E) x y d r <> Err e).
Proof.
  intros E x y d r [X0 X1] [Y0 Y1] [D0 D1].
  assert (P0 : 0 <= x * y) by (apply Z.mul_nonneg_nonneg; lia).
  assert (P1 : x * y <= (two256 - 1) * (two256 - 1)) by (apply Z.mul_le_mono_nonneg; lia).
  assert (T : (two256 - 1) * (two256 - 1) + two256 < two512) by reflexivity.
  unfold mul_div. destruct (Z.eqb_spec d 0) as [->|Hd].
  - split; [split; auto|discriminate].
  - replace (two512 <=? x * y) with false by lia.
    assert (G : forall A, 0 <= A -> A < two512 ->
      ((if two512 <=? A then Panic else if U256_MAX <? A / d then Panic else Ok (E := E) (A / d)) = Panic <->
      two256 * d <= A) /\ forall e, (if two512 <=? A then Panic else if U256_MAX <? A / d then Panic else Ok (E := E) (A / d)) <> Err e).
    { intros A HA1 HA2. replace (two512 <=? A) with false by lia. unfold U256_MAX.
      destruct (Z.ltb_spec (two256 - 1) (A / d)) as [HH|HH]; (split; [|discriminate]).
      - split; [intros _|reflexivity]. 
        pose proof (Z.div_mod A d Hd) as DM. pose proof (Z.mod_pos_bound A d ltac:(lia)) as MB.
        assert (two256 * d <= (A / d) * d) by (apply Z.mul_le_mono_nonneg_r; lia). lia.
      - split; [discriminate|]. intros H. exfalso. assert (two256 <= A / d) by (apply Z.div_le_lower_bound; lia). lia. }
    destruct r.
    + destruct (G (x * y)) as [G1 G2]; [lia|lia|]. split; [|exact G2]. rewrite G1. split; [auto|intros [?|?]; [contradiction|assumption]].
    + destruct (G (x * y + (d - 1))) as [G1 G2]; [lia|lia|]. split; [|exact G2]. rewrite G1. split; [intros; right; lia|intros [?|?]; [contradiction|lia]].
Qed.
Print Assumptions c31_mul_div_panics_exactly.

Example c31_nonvacuous :
  mul_div (E := unit) (two256 - 1) (two256 - 1) (two256 - 1) Ceil = Ok (two256 - 1) /\
  mul_div (E := unit) (two256 - 1) (two256 - 1) (two256 - 2) Floor = Panic /\
  mul_div (E := unit) 7 3 2 Floor = Ok 10 /\ mul_div (E := unit) 7 3 2 Ceil = Ok 11 /\
  average (two256 - 1) (two256 - 2) = two256 - 2.
Proof. vm_compute. repeat split. Qed.
