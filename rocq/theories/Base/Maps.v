(** Storage maps: finite maps over [Z]-like keys with default 0, and their sums. *)
From Verif.Base Require Import Prelude.
From stdpp Require Import gmap fin_maps.
#[global] Open Scope Z_scope.

Section maps.
  Context {K : Type} `{Countable K}.

  (** [StorageMap<K, StorageU256>]: unset slots read as zero. *)
  Definition zmap := gmap K Z.
  Definition mget (m : gmap K Z) (k : K) : Z := default 0 (m !! k).
  Definition mset (m : gmap K Z) (k : K) (v : Z) : gmap K Z := <[k := v]> m.
  (** Mathematical sum of all entries. *)
  Definition msum (m : gmap K Z) : Z := map_fold (fun _ v acc => v + acc) 0 m.
  (** Observational equality of storage maps. *)
  Definition meq (m m' : gmap K Z) : Prop := forall k, mget m k = mget m' k.

  Lemma mget_empty k : mget ∅ k = 0.
  Proof. unfold mget. rewrite lookup_empty. reflexivity. Qed.
  Lemma mget_set_eq m k v : mget (mset m k v) k = v.
  Proof. unfold mget, mset. rewrite lookup_insert. reflexivity. Qed.
  Lemma mget_set_ne m k k' v : k <> k' -> mget (mset m k v) k' = mget m k'.
  Proof. intros. unfold mget, mset. rewrite lookup_insert_ne by assumption. reflexivity. Qed.
  Lemma mget_set m k k' v :
    mget (mset m k v) k' = if decide (k = k') then v else mget m k'.
  Proof. destruct (decide (k = k')) as [->|]; [apply mget_set_eq|apply mget_set_ne; assumption]. Qed.

  Lemma msum_empty : msum ∅ = 0.
  Proof. unfold msum. apply map_fold_empty. Qed.

  Lemma msum_insert_new m k v : m !! k = None -> msum (<[k:=v]> m) = v + msum m.
  Proof.
    intros Hk. unfold msum.
    apply (map_fold_insert_L (fun _ v acc => v + acc) 0 k v m); [|exact Hk].
    intros. lia.
  Qed.

  Lemma msum_delete m k : msum m = mget m k + msum (delete k m).
  Proof.
    unfold mget. destruct (m !! k) as [v|] eqn:Hk; simpl.
    - rewrite <- (insert_delete m k v Hk) at 1.
      apply msum_insert_new. apply lookup_delete.
    - rewrite delete_notin by exact Hk. lia.
  Qed.

  Lemma msum_set m k v : msum (mset m k v) = msum m - mget m k + v.
  Proof.
    unfold mset. rewrite <- (insert_delete_insert m k v).
    rewrite msum_insert_new by apply lookup_delete.
    rewrite (msum_delete m k). lia.
  Qed.

  (** Every entry is bounded by the sum when entries are non-negative. *)
  Definition mnonneg (m : gmap K Z) : Prop := forall k, 0 <= mget m k.

  Lemma msum_nonneg m : mnonneg m -> 0 <= msum m.
  Proof.
    induction m as [|k v m Hk IH] using map_ind; intros Hnn.
    - rewrite msum_empty. lia.
    - rewrite msum_insert_new by exact Hk.
      assert (Hv : 0 <= v).
      { specialize (Hnn k). unfold mget in Hnn. rewrite lookup_insert in Hnn. exact Hnn. }
      assert (Hm : mnonneg m).
      { intros k'. destruct (decide (k = k')) as [<-|Hne].
        - unfold mget. rewrite Hk. simpl. lia.
        - specialize (Hnn k'). unfold mget in *. rewrite lookup_insert_ne in Hnn by exact Hne. exact Hnn. }
      specialize (IH Hm). lia.
  Qed.

  Lemma mnonneg_delete m k : mnonneg m -> mnonneg (delete k m).
  Proof.
    intros Hnn k'. unfold mget. destruct (decide (k = k')) as [<-|Hne].
    - rewrite lookup_delete. simpl. lia.
    - rewrite lookup_delete_ne by exact Hne. apply Hnn.
  Qed.

  Lemma mget_le_msum m k : mnonneg m -> mget m k <= msum m.
  Proof.
    intros Hnn. rewrite (msum_delete m k).
    pose proof (msum_nonneg _ (mnonneg_delete m k Hnn)). lia.
  Qed.

  Lemma mget2_le_msum m k k' : mnonneg m -> k <> k' -> mget m k + mget m k' <= msum m.
  Proof.
    intros Hnn Hne. rewrite (msum_delete m k).
    pose proof (mget_le_msum (delete k m) k' (mnonneg_delete m k Hnn)) as Hle.
    unfold mget at 1 in Hle. rewrite lookup_delete_ne in Hle by exact Hne.
    fold (mget m k') in Hle. lia.
  Qed.

  Lemma mnonneg_set m k v : mnonneg m -> 0 <= v -> mnonneg (mset m k v).
  Proof. intros Hnn Hv k'. rewrite mget_set. destruct (decide (k = k')); auto. Qed.
  Lemma mnonneg_empty : mnonneg ∅.
  Proof. intros k. rewrite mget_empty. lia. Qed.

  (** The sum over a duplicate-free list of keys covering the support. *)
  Fixpoint lsum (f : K -> Z) (l : list K) : Z :=
    match l with [] => 0 | k :: l' => f k + lsum f l' end.

  Lemma lsum_ext f g l : (forall k, k ∈ l -> f k = g k) -> lsum f l = lsum g l.
  Proof.
    induction l as [|k l IH]; intros Hfg; simpl; [reflexivity|].
    rewrite (Hfg k) by left. rewrite IH; [reflexivity|]. intros k' Hk'. apply Hfg. right. exact Hk'.
  Qed.

  (** [msum] is the mathematical sum over any finite duplicate-free set of keys that
      contains all keys with a nonzero value. *)
  Lemma msum_lsum m l :
    NoDup l -> (forall k, mget m k <> 0 -> k ∈ l) -> msum m = lsum (mget m) l.
  Proof.
    revert m. induction l as [|k l IH]; intros m Hnd Hsup; simpl.
    - assert (Hz : forall k, mget m k = 0).
      { intros k. destruct (Z.eq_dec (mget m k) 0) as [E|E]; [exact E|].
        apply Hsup in E. inversion E. }
      clear Hsup Hnd. induction m as [|k v m Hk IHm] using map_ind.
      + apply msum_empty.
      + rewrite msum_insert_new by exact Hk.
        rewrite IHm.
        * specialize (Hz k). unfold mget in Hz. rewrite lookup_insert in Hz. simpl in Hz. lia.
        * intros k'. destruct (decide (k = k')) as [<-|Hne].
          -- unfold mget. rewrite Hk. reflexivity.
          -- specialize (Hz k'). unfold mget in *. rewrite lookup_insert_ne in Hz by exact Hne. exact Hz.
    - inversion Hnd as [|? ? Hnin Hnd']; subst.
      rewrite (msum_delete m k). f_equal.
      rewrite (IH (delete k m) Hnd').
      + apply lsum_ext. intros k' Hk'. unfold mget. rewrite lookup_delete_ne; [reflexivity|].
        intros ->. contradiction.
      + intros k' Hk'. unfold mget in Hk'. destruct (decide (k = k')) as [<-|Hne].
        * rewrite lookup_delete in Hk'. simpl in Hk'. lia.
        * rewrite lookup_delete_ne in Hk' by exact Hne.
          assert (Hin : k' ∈ k :: l) by (apply Hsup; exact Hk').
          inversion Hin; subst; [congruence|assumption].
  Qed.

  Lemma meq_refl m : meq m m. Proof. intros k. reflexivity. Qed.
  Lemma meq_sym m m' : meq m m' -> meq m' m. Proof. intros Hm k. symmetry. apply Hm. Qed.
  Lemma meq_trans m1 m2 m3 : meq m1 m2 -> meq m2 m3 -> meq m1 m3.
  Proof. intros H1 H2 k. rewrite H1. apply H2. Qed.

  Lemma msum_meq m m' : meq m m' -> msum m = msum m'.
  Proof.
    intros Hm.
    set (l := elements (dom m ∪ dom m')).
    assert (Hin : forall mm, dom mm ⊆ dom m ∪ dom m' -> forall k, mget mm k <> 0 -> k ∈ l).
    { intros mm Hsub k Hk. apply elem_of_elements. apply Hsub. apply elem_of_dom.
      unfold mget in Hk. destruct (mm !! k) as [v|] eqn:E; [eauto|simpl in Hk; lia]. }
    rewrite (msum_lsum m l); [|apply NoDup_elements|apply Hin; set_solver].
    rewrite (msum_lsum m' l); [|apply NoDup_elements|apply Hin; set_solver].
    apply lsum_ext. intros k _. apply Hm.
  Qed.
End maps.
Arguments zmap K {_ _}.

(** Storage maps with values other than integers. *)
Section dmaps.
  Context {K : Type} `{Countable K} {A : Type}.
  Definition getd (d : A) (m : gmap K A) (k : K) : A := default d (m !! k).
  Lemma getd_empty d k : getd d ∅ k = d.
  Proof. unfold getd. rewrite lookup_empty. reflexivity. Qed.
  Lemma getd_set d m k k' v :
    getd d (<[k := v]> m) k' = if decide (k = k') then v else getd d m k'.
  Proof.
    unfold getd. destruct (decide (k = k')) as [->|Hne];
      [rewrite lookup_insert|rewrite lookup_insert_ne by exact Hne]; reflexivity.
  Qed.
End dmaps.
