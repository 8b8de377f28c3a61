(** The Poseidon2 layers against matrices, and injectivity of each layer. *)
From Coq Require Import ZArith List Bool Ring_theory Ring Field Lia.
From Verif Require Import Model.Uint Model.Curve Model.Poseidon Spec.Curve_spec Spec.Poseidon_spec.
From Verif Require Import Proofs.Uint_lemmas Proofs.Fp_lemmas Proofs.Curve_lemmas.
Import ListNotations.
Open Scope nat_scope.

Lemma list_eq_nth {A} (d : A) (l l' : list A) : length l = length l' ->
  (forall i, i < length l -> nth i l d = nth i l' d) -> l = l'.
Proof.
  revert l'. induction l as [|x l IH]; intros [|y l'] Hl H; cbn in Hl; try discriminate; [reflexivity|].
  f_equal; [exact (H 0 ltac:(cbn; lia))|]. apply IH; [lia|]. intros i Hi. exact (H (S i) ltac:(cbn; lia)).
Qed.
Lemma nth_map_seq {A} (f : nat -> A) n i d : i < n -> nth i (map f (seq 0 n)) d = f i.
Proof.
  intros H. rewrite (nth_indep _ d (f 0)) by (rewrite map_length, seq_length; exact H).
  rewrite map_nth, seq_nth by exact H. reflexivity.
Qed.

Section layers.
  Context (K : field_ops) (L : field_laws K).
  Notation F := (F K). Notation "0" := (f0 K). Notation "1" := (f1 K).
  Notation "x + y" := (fadd K x y). Notation "x * y" := (fmul K x y).
  Notation "x - y" := (fsub K x y). Notation "- x" := (fneg K x).
  Add Field Kfield : (field_th K L).
  Notation sum := (sum_list K).
  Notation num := (of_nat K).

  (** ** Powers *)
  Lemma power_add x n m : power K x (n + m)%nat = power K x n * power K x m.
  Proof.
    induction m as [|m IH]; [rewrite Nat.add_0_r; cbn; ring|].
    rewrite Nat.add_succ_r. cbn [power]. rewrite IH. ring.
  Qed.
  Lemma fpow_loop_ok x bits : forall (res : option F) e, (0 <= e)%Z ->
    match res with None => e = 0%Z | Some r => r = power K x (Z.to_nat e) end ->
    match fpow_loop K x bits res with
    | None => fold_left (fun e (b : bool) => 2 * e + Z.b2z b)%Z bits e = 0%Z
    | Some r => r = power K x (Z.to_nat (fold_left (fun e (b : bool) => 2 * e + Z.b2z b)%Z bits e))
    end.
  Proof.
    induction bits as [|b bits IH]; intros res e He Hr; cbn [fpow_loop fold_left]; [exact Hr|].
    apply IH; [unfold Z.b2z; destruct b; lia|]. cbv zeta.
    set (sq := match res with Some r => Some (fsquare K r) | None => None end).
    assert (Hs : match sq with None => e = 0%Z | Some r => r = power K x (Z.to_nat (2 * e)) end).
    { unfold sq. destruct res as [r|]; [|exact Hr]. rewrite (law_square K L), Hr, <- power_add.
      f_equal. lia. }
    clearbody sq. destruct sq as [r|]; destruct b; cbn [Z.b2z]; rewrite ?Hs.
    - replace (Z.to_nat (2 * e + 1)) with (Z.to_nat (2 * e) + 1)%nat by lia. rewrite power_add. cbn [power]. ring.
    - f_equal. lia.
    - change (Z.to_nat (2 * 0 + 1)) with 1%nat. cbn [power]. ring.
    - reflexivity.
  Qed.
  Lemma fpow_ok x e : (0 <= e < 256)%Z -> fpow K x e = power K x (Z.to_nat e).
  Proof.
    intros He. unfold fpow.
    pose proof (fpow_loop_ok x (skip_zeros (bits_be 8 e)) None 0%Z ltac:(lia) eq_refl) as H.
    assert (E : fold_left (fun e (b : bool) => 2 * e + Z.b2z b)%Z (skip_zeros (bits_be 8 e)) 0%Z = e).
    { transitivity (fold_left (fun e (b : bool) => 2 * e + Z.b2z b)%Z (bits_be 8 e) 0%Z).
      - induction (bits_be 8 e) as [|[|] l IH]; cbn [skip_zeros]; auto.
      - rewrite bits_value_be by exact He. lia. }
    rewrite E in H. destruct (fpow_loop K x (skip_zeros (bits_be 8 e)) None) as [r|]; [exact H|].
    rewrite H. reflexivity.
  Qed.

  (** ** Sums *)
  Lemma sum_nil : sum [] = 0. Proof. reflexivity. Qed.
  Lemma sum_cons x l : sum (x :: l) = x + sum l. Proof. reflexivity. Qed.
  Lemma sum_app l l' : sum (l ++ l') = sum l + sum l'.
  Proof. induction l as [|x l IH]; cbn [app map length of_nat]; rewrite ?sum_nil, ?sum_cons, ?IH; ring. Qed.
  Lemma sum_map_mul {A} c (f : A -> F) l : sum (map (fun j => c * f j) l) = c * sum (map f l).
  Proof. induction l as [|x l IH]; cbn [app map]; rewrite ?sum_nil, ?sum_cons, ?IH; ring. Qed.
  Lemma sum_map_add {A} (f g : A -> F) l : sum (map (fun j => f j + g j) l) = sum (map f l) + sum (map g l).
  Proof. induction l as [|x l IH]; cbn [app map]; rewrite ?sum_nil, ?sum_cons, ?IH; ring. Qed.
  Lemma sum_ext {A} (f g : A -> F) l : (forall x, In x l -> f x = g x) -> sum (map f l) = sum (map g l).
  Proof. intros H. f_equal. apply map_ext_in, H. Qed.
  Lemma sum_zero {A} (f : A -> F) l : (forall x, In x l -> f x = 0) -> sum (map f l) = 0.
  Proof.
    intros H. rewrite (sum_ext f (fun _ => 0) l H). induction l as [|x l IH]; [reflexivity|].
    cbn [map]. rewrite sum_cons, IH; [ring|]. intros; apply H; cbn; auto.
  Qed.
  Lemma sum_single n i (f : nat -> F) : i < n ->
    sum (map (fun j => if Nat.eqb i j then f j else 0) (seq 0 n)) = f i.
  Proof.
    intros Hi. replace n with (i + S (n - S i))%nat by lia. rewrite seq_app, map_app, sum_app.
    cbn [seq map Nat.add].
    rewrite (sum_zero _ (seq 0 i)).
    - rewrite sum_cons, Nat.eqb_refl, sum_zero; [ring|].
      intros x Hx. apply in_seq in Hx. destruct (Nat.eqb_spec i x); [lia|reflexivity].
    - intros x Hx. apply in_seq in Hx. destruct (Nat.eqb_spec i x); [lia|reflexivity].
  Qed.
  Lemma sum_nth x : sum (map (fun j => nth j x 0) (seq 0 (length x))) = sum x.
  Proof.
    f_equal. apply (list_eq_nth 0); rewrite map_length, seq_length; [reflexivity|].
    intros i Hi. apply (nth_map_seq (fun j => nth j x 0)), Hi.
  Qed.
  Lemma sum_blocks f k : sum (map f (seq 0 (4 * k)%nat)) =
    sum (map (fun b => f (4 * b)%nat + f (4 * b + 1)%nat + f (4 * b + 2)%nat + f (4 * b + 3)%nat) (seq 0 k)).
  Proof.
    induction k as [|k IH]; [reflexivity|]. replace (4 * S k)%nat with (4 * k + 4)%nat by lia.
    rewrite seq_app, map_app, sum_app, IH, (seq_S k 0%nat), map_app, sum_app. f_equal.
    rewrite !Nat.add_0_l. cbn [seq map].
    replace (S (4 * k)) with (4 * k + 1)%nat by lia. replace (S (4 * k + 1)) with (4 * k + 2)%nat by lia.
    replace (S (4 * k + 2)) with (4 * k + 3)%nat by lia. rewrite !sum_cons, !sum_nil. ring.
  Qed.
  Lemma fold_left_sum l a : fold_left (fadd K) l a = a + sum l.
  Proof. revert a. induction l as [|x l IH]; intros a; cbn [fold_left map]; rewrite ?sum_nil, ?sum_cons, ?IH; ring. Qed.
  Lemma fold_left_sum' {A} (f : A -> F) l a : fold_left (fun acc j => acc + f j) l a = a + sum (map f l).
  Proof. revert a. induction l as [|x l IH]; intros a; cbn [fold_left map]; rewrite ?sum_nil, ?sum_cons, ?IH; ring. Qed.

  Lemma mat_vec_length t M x : length (mat_vec K t M x) = t.
  Proof. unfold mat_vec. rewrite map_length, seq_length. reflexivity. Qed.
  Lemma mat_vec_nth t M x i : i < t -> nth i (mat_vec K t M x) 0 = sum (map (fun j => M i j * nth j x 0) (seq 0 t)).
  Proof. intros Hi. unfold mat_vec. apply (nth_map_seq (fun i => sum (map (fun j => M i j * nth j x 0) (seq 0 t)))), Hi. Qed.

  (** ** The internal layer *)
  Lemma M_I_row diag x i : i < length x ->
    sum (map (fun j => M_I K diag i j * nth j x 0) (seq 0 (length x))) = sum x + nth i diag 0 * nth i x 0.
  Proof.
    intros Hi.
    rewrite (sum_ext _ (fun j => nth j x 0 + (if Nat.eqb i j then nth i diag 0 * nth j x 0 else 0))).
    - rewrite sum_map_add, sum_nth. f_equal. apply (sum_single _ _ (fun j => nth i diag 0 * nth j x 0)), Hi.
    - intros j _. unfold M_I. destruct (Nat.eqb i j); ring.
  Qed.
  Lemma mul_diag_nth s diag sm : length s = length diag ->
    exists s', mul_diag K s diag sm = Some s' /\ length s' = length s /\
      forall i, i < length s -> nth i s' 0 = nth i s 0 * nth i diag 0 + sm.
  Proof.
    revert diag. induction s as [|x s IH]; intros [|d diag] Hl; cbn in Hl; try discriminate.
    - exists []. cbn. split; [reflexivity|]. split; [reflexivity|]. intros i Hi; inversion Hi.
    - destruct (IH diag ltac:(lia)) as (s' & E & El & En). cbn. rewrite E. cbn. eexists. split; [reflexivity|].
      cbn. split; [lia|]. intros [|i] Hi; cbn; [reflexivity|apply En; lia].
  Qed.
  Lemma matmul_internal_ok (P : params K) s : supported (T K P) -> length s = T K P ->
    length (diagonal K (T K P) (MAT_INTERNAL_DIAG_M_1 K P)) = T K P ->
    matmul_internal K P s = Some (mat_vec K (T K P) (M_I K (diagonal K (T K P) (MAT_INTERNAL_DIAG_M_1 K P))) s).
  Proof.
    unfold matmul_internal, supported. set (diag := MAT_INTERNAL_DIAG_M_1 K P). clearbody diag.
    set (t := T K P). clearbody t. clear P. intros Ht Hs Hd.
    assert (big : length s = length diag -> diagonal K t diag = diag ->
                  mul_diag K s diag (fold_left (fadd K) s 0) = Some (mat_vec K t (M_I K diag) s)).
    { intros Hsd _. destruct (mul_diag_nth s diag (fold_left (fadd K) s 0) Hsd) as (s' & E & El & En).
      rewrite E. f_equal. apply (list_eq_nth 0); [rewrite mat_vec_length; lia|]. intros i Hi.
      rewrite mat_vec_nth by lia. rewrite <- Hs, M_I_row by lia. rewrite En, fold_left_sum by lia. ring. }
    cbn in Ht. destruct Ht as [<-|[<-|[<-|[<-|[<-|[<-|[<-|[<-|[]]]]]]]]]; cbn [diagonal] in *;
      try (apply big; [lia|reflexivity]).
    - destruct s as [|x0 [|x1 [|]]]; try discriminate. cbn. rewrite !(law_double K L).
      f_equal. f_equal; [ring|]. f_equal. ring.
    - destruct s as [|x0 [|x1 [|x2 [|]]]]; try discriminate. cbn. rewrite !(law_double K L).
      f_equal. f_equal; [ring|]. f_equal; [ring|]. f_equal. ring.
  Qed.
  Lemma M_I_inj diag x y : length x = length diag -> length y = length diag ->
    Forall (fun d => d <> 0) diag -> 1 + sum (map (inv0 K) diag) <> 0 ->
    mat_vec K (length diag) (M_I K diag) x = mat_vec K (length diag) (M_I K diag) y -> x = y.
  Proof.
    intros Hx Hy Hd Hn E.
    assert (Hi : forall i, i < length diag -> sum x + nth i diag 0 * nth i x 0 = sum y + nth i diag 0 * nth i y 0).
    { intros i Hi. pose proof (f_equal (fun l => nth i l 0) E) as Ei. cbn beta in Ei.
      rewrite !mat_vec_nth in Ei by exact Hi. rewrite <- Hx in Ei at 1. rewrite M_I_row in Ei by lia.
      rewrite <- Hy in Ei at 1. rewrite M_I_row in Ei by lia. exact Ei. }
    assert (Hz : forall i, i < length diag -> nth i diag 0 <> 0).
    { intros i Hlt. rewrite Forall_forall in Hd. apply Hd, nth_In, Hlt. }
    assert (key : forall z, length z = length diag ->
              sum (map (fun i => inv0 K (nth i diag 0) * (sum z + nth i diag 0 * nth i z 0)) (seq 0 (length diag)))
              = sum z * (1 + sum (map (inv0 K) diag))).
    { intros z Hl. rewrite (sum_ext _ (fun i => sum z * inv0 K (nth i diag 0) + nth i z 0)).
      - rewrite sum_map_add, sum_map_mul. rewrite <- Hl at 2. rewrite sum_nth.
        replace (map (fun i => inv0 K (nth i diag 0)) (seq 0 (length diag))) with (map (inv0 K) diag).
        + ring.
        + apply (list_eq_nth (inv0 K 0)); rewrite !map_length, ?seq_length; [reflexivity|]. intros i Hi'.
          rewrite map_nth, (nth_map_seq (fun i => inv0 K (nth i diag 0))) by exact Hi'. reflexivity.
      - intros i Hi'. apply in_seq in Hi'. field. apply Hz. lia. }
    assert (Es : sum x = sum y).
    { apply (mul_cancel K L (1 + sum (map (inv0 K) diag))); [exact Hn|].
      pose proof (key x Hx) as Kx. pose proof (key y Hy) as Ky.
      rewrite (sum_ext _ (fun i => inv0 K (nth i diag 0) * (sum y + nth i diag 0 * nth i y 0))) in Kx.
      - rewrite Ky in Kx.
        transitivity (sum x * (1 + sum (map (inv0 K) diag))); [ring|]. rewrite <- Kx. ring.
      - intros i Hi'. apply in_seq in Hi'. rewrite Hi by lia. reflexivity. }
    apply (list_eq_nth 0); [lia|]. intros i Hi'. apply (mul_cancel K L (nth i diag 0)); [apply Hz; lia|].
    specialize (Hi i ltac:(lia)). rewrite Es in Hi.
    transitivity (sum y + nth i diag 0 * nth i x 0 - sum y); [ring|rewrite Hi; ring].
  Qed.

  Lemma diag2_ok : num 5 <> 0 -> 1 + sum (map (inv0 K) [1; 1 + 1]) <> 0.
  Proof.
    intros H E. apply H. pose proof (law_two K L). pose proof (law_one_zero K L).
    transitivity ((1 + 1) * (1 + sum (map (inv0 K) [1; 1 + 1]))); [|rewrite E; ring].
    cbn. field. split; assumption.
  Qed.
  Lemma diag3_ok : num 7 <> 0 -> 1 + sum (map (inv0 K) [1; 1; 1 + 1]) <> 0.
  Proof.
    intros H E. apply H. pose proof (law_two K L). pose proof (law_one_zero K L).
    transitivity ((1 + 1) * (1 + sum (map (inv0 K) [1; 1; 1 + 1]))); [|rewrite E; ring].
    cbn. field. split; assumption.
  Qed.

  (** ** The external layer *)
  Definition row (x : nat -> F) (l : nat) : F := M4 K l 0 * x 0%nat + M4 K l 1 * x 1%nat + M4 K l 2 * x 2%nat + M4 K l 3 * x 3%nat.
  Lemma m4_row x0 x1 x2 x3 l : l < 4 ->
    nth l (m4 K x0 x1 x2 x3) 0 = row (fun m => nth m [x0; x1; x2; x3] 0) l.
  Proof.
    intros Hl. destruct l as [|[|[|[|l]]]]; [| | | |lia]; unfold row, M4; cbn; rewrite !(law_double K L); ring.
  Qed.
  Lemma four {A} (s : list A) k : length s = (4 * S k)%nat ->
    exists x0 x1 x2 x3 s', s = x0 :: x1 :: x2 :: x3 :: s' /\ length s' = (4 * k)%nat.
  Proof.
    intros H. do 4 (destruct s as [|? s]; [cbn in H; lia|]). do 5 eexists. split; [reflexivity|]. cbn in H. lia.
  Qed.
  Lemma matmul_m4_nth k s : length s = (4 * k)%nat -> length (matmul_m4 K s) = (4 * k)%nat /\
    forall b l, b < k -> l < 4 -> nth (4 * b + l)%nat (matmul_m4 K s) 0 = row (fun m => nth (4 * b + m)%nat s 0) l.
  Proof.
    revert s. induction k as [|k IH]; intros s Hs.
    - destruct s; [|discriminate]. split; [reflexivity|]. intros; lia.
    - destruct (four s k Hs) as (x0 & x1 & x2 & x3 & s' & -> & Hs'). destruct (IH s' Hs') as [Hl Hn].
      cbn [matmul_m4]. split; [rewrite app_length, Hl; cbn [m4 length]; lia|].
      intros [|b] l Hb Hl4.
      + rewrite app_nth1 by (cbn [m4 length]; lia). change (4 * 0 + l)%nat with l. rewrite m4_row by exact Hl4.
        unfold row. reflexivity.
      + rewrite app_nth2 by (cbn [m4 length]; lia). cbn [m4 length].
        replace (4 * S b + l - 4)%nat with (4 * b + l)%nat by lia. rewrite Hn by lia.
        unfold row. replace (4 * S b)%nat with (S (S (S (S (4 * b))))) by lia. reflexivity.
  Qed.
  Definition blocks (k : nat) (x : list F) (l : nat) : F := sum (map (fun b => nth (4 * b + l)%nat x 0) (seq 0 k)).
  Lemma stored_ok (P : params K) s l k : T K P = (4 * S k)%nat ->
    stored K P s l = blocks (S k) s l.
  Proof.
    intros Ht. unfold stored, blocks. rewrite Ht.
    replace (Nat.div (4 * S k) 4 - 1)%nat with k by (rewrite Nat.mul_comm, Nat.div_mul by lia; lia).
    rewrite (fold_left_sum' (fun j => nth (4 * j + l)%nat s 0)). reflexivity.
  Qed.
  Lemma M_E_row k x i : 1 < k -> i < 4 * k ->
    sum (map (fun j => M_E K (4 * k) i j * nth j x 0) (seq 0 (4 * k)%nat)) =
    row (fun m => nth (4 * Nat.div i 4 + m)%nat x 0) (Nat.modulo i 4) +
    sum (map (fun b => row (fun m => nth (4 * b + m)%nat x 0) (Nat.modulo i 4)) (seq 0 k)).
  Proof.
    intros Hk Hi. rewrite sum_blocks.
    rewrite (sum_ext _ (fun b => (if Nat.eqb (Nat.div i 4) b then row (fun m => nth (4 * b + m)%nat x 0) (Nat.modulo i 4) else 0)
      + row (fun m => nth (4 * b + m)%nat x 0) (Nat.modulo i 4))).
    - rewrite sum_map_add. f_equal.
      apply (sum_single _ _ (fun b => row (fun m => nth (4 * b + m)%nat x 0) (Nat.modulo i 4))).
      apply Nat.div_lt_upper_bound; lia.
    - intros b _. unfold M_E, row.
      destruct (Nat.ltb_spec (4 * k) 4); [lia|]. destruct (Nat.eqb_spec (4 * k) 4); [lia|].
      assert (D : forall m, m < 4 -> Nat.div (4 * b + m) 4 = b /\ Nat.modulo (4 * b + m) 4 = m).
      { intros m Hm. split; [symmetry; apply (Nat.div_unique _ _ _ m); lia|symmetry; apply (Nat.mod_unique _ _ b); lia]. }
      assert (D0 : Nat.div (4 * b) 4 = b /\ Nat.modulo (4 * b) 4 = 0%nat).
      { specialize (D 0%nat ltac:(lia)). rewrite Nat.add_0_r in D. exact D. }
      destruct D0 as [-> ->]. destruct (D 1%nat ltac:(lia)) as [-> ->]. destruct (D 2%nat ltac:(lia)) as [-> ->].
      destruct (D 3%nat ltac:(lia)) as [-> ->]. rewrite Nat.add_0_r.
      destruct (Nat.eqb (Nat.div i 4) b); cbn [of_nat]; ring.
  Qed.
  Lemma div_mod4 i : i = (4 * Nat.div i 4 + Nat.modulo i 4)%nat.
  Proof. apply Nat.div_mod. lia. Qed.
  Lemma mod4 i : Nat.modulo i 4 < 4. Proof. apply Nat.mod_upper_bound. lia. Qed.
  Lemma div4 i k : i < 4 * k -> Nat.div i 4 < k.
  Proof. intros. apply Nat.div_lt_upper_bound; lia. Qed.

  Lemma matmul_external_ok (P : params K) s : supported (T K P) -> length s = T K P ->
    matmul_external K P s = Some (mat_vec K (T K P) (M_E K (T K P)) s).
  Proof.
    unfold matmul_external, supported. intros Ht Hs.
    assert (big : forall k, 1 < k -> T K P = (4 * k)%nat ->
              Some (add_stored K P (matmul_m4 K s)) = Some (mat_vec K (4 * k) (M_E K (4 * k)) s)).
    { intros k Hk Hk4. f_equal. rewrite Hk4 in Hs. destruct (matmul_m4_nth k s Hs) as [Hl Hn].
      apply (list_eq_nth 0); [unfold add_stored; rewrite map_length, seq_length, mat_vec_length; exact Hl|].
      intros i Hi. unfold add_stored in *. rewrite map_length, seq_length in Hi.
      rewrite (nth_map_seq (fun i => nth i (matmul_m4 K s) 0 + stored K P (matmul_m4 K s) (Nat.modulo i 4))) by exact Hi.
      rewrite Hl in Hi. rewrite mat_vec_nth, M_E_row by lia.
      destruct k as [|k]; [lia|]. rewrite (stored_ok P _ _ k Hk4). rewrite (div_mod4 i) at 1.
      rewrite Hn by (try apply div4; try apply mod4; exact Hi). f_equal. unfold blocks. apply sum_ext.
      intros b Hb. apply in_seq in Hb. apply Hn; [lia|apply mod4]. }
    cbn in Ht. destruct Ht as [E|[E|[E|[E|[E|[E|[E|[E|[]]]]]]]]]; rewrite <- E in Hs |- *.
    - destruct s as [|x0 [|x1 [|]]]; try discriminate. cbn. f_equal. f_equal; [ring|]. f_equal. ring.
    - destruct s as [|x0 [|x1 [|x2 [|]]]]; try discriminate. cbn.
      f_equal. f_equal; [ring|]. f_equal; [ring|]. f_equal. ring.
    - destruct s as [|x0 [|x1 [|x2 [|x3 [|]]]]]; try discriminate. cbn. rewrite !(law_double K L).
      f_equal. f_equal; [ring|]. f_equal; [ring|]. f_equal; [ring|]. f_equal. ring.
    - apply (big 2%nat); [lia|symmetry; exact E].
    - apply (big 3%nat); [lia|symmetry; exact E].
    - apply (big 4%nat); [lia|symmetry; exact E].
    - apply (big 5%nat); [lia|symmetry; exact E].
    - apply (big 6%nat); [lia|symmetry; exact E].
  Qed.

  Lemma eight_nz : num 8 <> 0.
  Proof.
    replace (num 8) with ((1 + 1) * ((1 + 1) * (1 + 1))) by (cbn; ring).
    repeat apply (mul_nz K L); apply (law_two K L).
  Qed.
  (** The 4 by 4 matrix has determinant -64. *)
  Lemma row_inj x y : (forall l, l < 4 -> row x l = row y l) -> forall l, l < 4 -> x l = y l.
  Proof.
    intros H. pose proof (H 0%nat ltac:(lia)) as H0. pose proof (H 1%nat ltac:(lia)) as H1.
    pose proof (H 2%nat ltac:(lia)) as H2. pose proof (H 3%nat ltac:(lia)) as H3.
    assert (S0 : forall z, num 8 * z 0%nat = - row z 0 + num 3 * row z 1 - num 6 * row z 2 + num 7 * row z 3)
      by (intros z; unfold row, M4; cbn; ring).
    assert (S1 : forall z, num 8 * z 1%nat = row z 0 - row z 1 + num 4 * row z 2 - num 5 * row z 3)
      by (intros z; unfold row, M4; cbn; ring).
    assert (S2 : forall z, num 8 * z 2%nat = - num 6 * row z 0 + num 7 * row z 1 - row z 2 + num 3 * row z 3)
      by (intros z; unfold row, M4; cbn; ring).
    assert (S3 : forall z, num 8 * z 3%nat = num 4 * row z 0 - num 5 * row z 1 + row z 2 - row z 3)
      by (intros z; unfold row, M4; cbn; ring).
    intros l Hl. apply (mul_cancel K L (num 8) _ _ eight_nz).
    destruct l as [|[|[|[|l]]]]; [| | | |lia].
    - rewrite (S0 x), (S0 y), H0, H1, H2, H3. reflexivity.
    - rewrite (S1 x), (S1 y), H0, H1, H2, H3. reflexivity.
    - rewrite (S2 x), (S2 y), H0, H1, H2, H3. reflexivity.
    - rewrite (S3 x), (S3 y), H0, H1, H2, H3. reflexivity.
  Qed.
  Lemma num_sum {A} c (l : list A) : sum (map (fun _ => c) l) = num (length l) * c.
  Proof. induction l as [|x l IH]; cbn [app map length of_nat]; rewrite ?sum_nil, ?sum_cons, ?IH; ring. Qed.
  Lemma M_E_inj_blocks k x y : 1 < k -> num (S k) <> 0 -> length x = (4 * k)%nat -> length y = (4 * k)%nat ->
    mat_vec K (4 * k) (M_E K (4 * k)) x = mat_vec K (4 * k) (M_E K (4 * k)) y -> x = y.
  Proof.
    intros Hk Hn Hx Hy E.
    assert (Hi : forall b l, b < k -> l < 4 -> row (fun m => nth (4 * b + m)%nat x 0) l + 
       sum (map (fun b => row (fun m => nth (4 * b + m)%nat x 0) l) (seq 0 k)) =
       row (fun m => nth (4 * b + m)%nat y 0) l + 
       sum (map (fun b => row (fun m => nth (4 * b + m)%nat y 0) l) (seq 0 k))).
    { intros b l Hb Hl. pose proof (f_equal (fun v => nth (4 * b + l)%nat v 0) E) as Ei. cbn beta in Ei.
      rewrite !mat_vec_nth, !M_E_row in Ei by lia.
      replace (Nat.div (4 * b + l) 4) with b in Ei by (apply (Nat.div_unique _ _ _ l); lia).
      replace (Nat.modulo (4 * b + l) 4) with l in Ei by (apply (Nat.mod_unique _ _ b); lia). exact Ei. }
    assert (Hs : forall l, l < 4 -> sum (map (fun b => row (fun m => nth (4 * b + m)%nat x 0) l) (seq 0 k)) =
       sum (map (fun b => row (fun m => nth (4 * b + m)%nat y 0) l) (seq 0 k))).
    { intros l Hl. apply (mul_cancel K L (num (S k)) _ _ Hn).
      assert (Q : forall z, num (S k) * sum (map (fun b => row (fun m => nth (4 * b + m)%nat z 0) l) (seq 0 k)) =
        sum (map (fun b => row (fun m => nth (4 * b + m)%nat z 0) l +
                           sum (map (fun b => row (fun m => nth (4 * b + m)%nat z 0) l) (seq 0 k))) (seq 0 k))).
      { intros z. rewrite sum_map_add, num_sum, seq_length. cbn [of_nat]. ring. }
      rewrite !Q. apply sum_ext. intros b Hb. apply in_seq in Hb. apply Hi; lia. }
    apply (list_eq_nth 0); [lia|]. intros i Hlt. rewrite Hx in Hlt. rewrite (div_mod4 i).
    apply (row_inj (fun m => nth (4 * Nat.div i 4 + m)%nat x 0) (fun m => nth (4 * Nat.div i 4 + m)%nat y 0)); [|apply mod4].
    intros l Hl. specialize (Hi (Nat.div i 4) l (div4 _ _ Hlt) Hl). rewrite (Hs l Hl) in Hi.
    match type of Hi with ?a + ?c = ?b + ?c => transitivity (a + c - c); [ring|rewrite Hi; ring] end.
  Qed.
  (** What the external matrix needs of the characteristic. *)
  Definition external_regular (t : nat) : Prop := num (if Nat.leb t 3 then S t else S (Nat.div t 4)) <> 0.
  Lemma M_E_inj t x y : supported t -> external_regular t -> length x = t -> length y = t ->
    mat_vec K t (M_E K t) x = mat_vec K t (M_E K t) y -> x = y.
  Proof.
    unfold supported, external_regular. cbn [In]. intros Ht Hr Hx Hy H.
    assert (big : forall k, 1 < k -> t = (4 * k)%nat -> x = y).
    { intros k Hk Ek. apply (M_E_inj_blocks k); [exact Hk| |congruence|congruence|].
      - destruct (Nat.leb_spec t 3); [lia|]. rewrite Ek, Nat.mul_comm, Nat.div_mul in Hr by lia. exact Hr.
      - rewrite <- Ek. exact H. }
    destruct Ht as [E|[E|[E|[E|[E|[E|[E|[E|[]]]]]]]]].
    4: exact (big 2%nat ltac:(lia) (eq_sym E)).
    4: exact (big 3%nat ltac:(lia) (eq_sym E)).
    4: exact (big 4%nat ltac:(lia) (eq_sym E)).
    4: exact (big 5%nat ltac:(lia) (eq_sym E)).
    4: exact (big 6%nat ltac:(lia) (eq_sym E)).
    all: clear big; subst t; cbn [Nat.leb] in Hr.
    - destruct x as [|x0 [|x1 [|]]]; try discriminate. destruct y as [|y0 [|y1 [|]]]; try discriminate.
      cbn in H. injection H as H0 H1.
      assert (Q0 : forall a b, num 3 * a = (1 + 1) * ((0 + 1 + 1) * a + ((0 + 1) * b + 0)) - ((0 + 1) * a + ((0 + 1 + 1) * b + 0))) by (intros; cbn; ring).
      assert (Q1 : forall a b, num 3 * b = (1 + 1) * ((0 + 1) * a + ((0 + 1 + 1) * b + 0)) - ((0 + 1 + 1) * a + ((0 + 1) * b + 0))) by (intros; cbn; ring).
      f_equal; [|f_equal]; apply (mul_cancel K L (num 3) _ _ Hr).
      + rewrite (Q0 x0 x1), (Q0 y0 y1), H0, H1. reflexivity.
      + rewrite (Q1 x0 x1), (Q1 y0 y1), H0, H1. reflexivity.
    - destruct x as [|x0 [|x1 [|x2 [|]]]]; try discriminate. destruct y as [|y0 [|y1 [|y2 [|]]]]; try discriminate.
      cbn in H. injection H as H0 H1 H2.
      set (e0 := fun a b c => (0 + 1 + 1) * a + ((0 + 1) * b + ((0 + 1) * c + 0))).
      set (e1 := fun a b c => (0 + 1) * a + ((0 + 1 + 1) * b + ((0 + 1) * c + 0))).
      set (e2 := fun a b c => (0 + 1) * a + ((0 + 1) * b + ((0 + 1 + 1) * c + 0))).
      assert (R0 : e0 x0 x1 x2 = e0 y0 y1 y2) by exact H0. assert (R1 : e1 x0 x1 x2 = e1 y0 y1 y2) by exact H1.
      assert (R2 : e2 x0 x1 x2 = e2 y0 y1 y2) by exact H2.
      assert (Q0 : forall a b c, num 4 * a = num 3 * e0 a b c - e1 a b c - e2 a b c) by (intros; unfold e0, e1, e2; cbn; ring).
      assert (Q1 : forall a b c, num 4 * b = num 3 * e1 a b c - e0 a b c - e2 a b c) by (intros; unfold e0, e1, e2; cbn; ring).
      assert (Q2 : forall a b c, num 4 * c = num 3 * e2 a b c - e0 a b c - e1 a b c) by (intros; unfold e0, e1, e2; cbn; ring).
      f_equal; [|f_equal; [|f_equal]]; apply (mul_cancel K L (num 4) _ _ Hr).
      + rewrite (Q0 x0 x1 x2), (Q0 y0 y1 y2), R0, R1, R2. reflexivity.
      + rewrite (Q1 x0 x1 x2), (Q1 y0 y1 y2), R0, R1, R2. reflexivity.
      + rewrite (Q2 x0 x1 x2), (Q2 y0 y1 y2), R0, R1, R2. reflexivity.
    - destruct x as [|x0 [|x1 [|x2 [|x3 [|]]]]]; try discriminate. destruct y as [|y0 [|y1 [|y2 [|y3 [|]]]]]; try discriminate.
      assert (R : forall l, l < 4 -> row (fun m => nth m [x0; x1; x2; x3] 0) l = row (fun m => nth m [y0; y1; y2; y3] 0) l).
      { intros l Hl. pose proof (f_equal (fun v => nth l v 0) H) as El. cbn beta in El.
        rewrite !mat_vec_nth in El by exact Hl. cbn [seq map sum_list fold_right] in El.
        unfold row. unfold M_E in El. cbn [Nat.ltb Nat.leb Nat.eqb] in El.
        match type of El with ?a = ?b => transitivity a; [ring|rewrite El; ring] end. }
      pose proof (row_inj _ _ R) as Q. f_equal; [exact (Q 0%nat ltac:(lia))|]. f_equal; [exact (Q 1%nat ltac:(lia))|].
      f_equal; [exact (Q 2%nat ltac:(lia))|]. f_equal. exact (Q 3%nat ltac:(lia)).
  Qed.
End layers.
