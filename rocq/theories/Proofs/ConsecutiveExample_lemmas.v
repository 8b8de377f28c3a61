From Verif.Base Require Import Prelude Maps.
From Verif.Model Require Erc721 Checkpoints BitMap Consecutive ConsecutiveExample.
From Verif.Spec Require Import Structs_spec Consecutive_spec ConsecutiveExample_spec.
From Verif.Proofs Require Structs_lemmas Erc721_lemmas.
From Verif.Proofs Require Import Consecutive_lemmas.
From stdpp Require Import gmap.
Import Consecutive ConsecutiveExample.
#[global] Open Scope Z_scope.

Section lemmas.
  Context (first max : Z) (Hfirst : 0 <= first < two96).
  (** The constructor's batch is the library's, but for overflow. *)
  Lemma sol_batch_eq n s i to k : R first true n s i -> 0 <= k ->
    mintConsecutive first max to k s =
    if k =? 0 then Some s
    else if to =? 0 then None
    else if max <? k then None
    else if two96 <=? inext i + k then None
    else Some (batched first to k s).
  Proof.
    intros H Hk. pose proof (r_next _ _ _ _ _ H) as NX. pose proof (r_last _ _ _ _ _ H) as L.
    pose proof (r_next_val _ Hfirst _ _ _ _ H) as NV.
    assert (E : nextConsecutiveId first s = Some (inext i)).
    { unfold nextConsecutiveId, latestCheckpoint. destruct (rev _) as [|[lk lv] r]; [congruence|]. subst lk.
      unfold checked96. replace (inext i - 1 + 1) with (inext i) by lia.
      replace ((0 <=? inext i) && (inext i <? two96)) with true by lia. reflexivity. }
    unfold mintConsecutive. rewrite E. cbn [obind]. destruct (Z.eqb_spec k 0) as [->|K]; [reflexivity|].
    replace (0 <? k) with true by lia. destruct (to =? 0); [reflexivity|]. destruct (max <? k); [reflexivity|].
    unfold checked96. destruct (Z.leb_spec two96 (inext i + k)) as [B|B].
    { replace ((0 <=? inext i + k) && (inext i + k <? two96)) with false by lia. reflexivity. }
    replace ((0 <=? inext i + k) && (inext i + k <? two96)) with true by lia. cbn [obind].
    replace ((0 <=? inext i + k - 1) && (inext i + k - 1 <? two96)) with true by lia. cbn [obind].
    assert (EL : wsub96 (wadd96 (next_val first s) k) 1 = inext i + k - 1).
    { rewrite NV. unfold wsub96, wadd96. rewrite (Z.mod_small (inext i + k)) by lia. apply Z.mod_small. lia. }
    unfold batched. rewrite EL, NV. unfold insert.
    destruct (rev (sequential_ownership s)) as [|[lk lv] r]; [reflexivity|]. subst lk.
    replace (inext i + k - 1 <? inext i - 1) with false by lia.
    replace (inext i - 1 =? inext i + k - 1) with false by lia. reflexivity.
  Qed.

  (** While the constructor runs. *)
  Definition J (n : Z) (s : state) (i : ideal) : Prop :=
    R first true n s i /\ Erc721.log (erc721 s) = [] /\ forall id, batch_logs (clog s) id = iown i id.
  Lemma J_init : J 0 init (istart first).
  Proof. split; [apply R_init; exact Hfirst|]. split; reflexivity. Qed.
  Lemma J_batch n s i to k s' : J n s i -> 0 <= k -> n + 1 < two64 ->
    mintConsecutive first max to k s = Some s' -> J (n + 1) s' (ibatch to k i).
  Proof.
    intros (H & HL & HB) Hk Hn E. rewrite (sol_batch_eq n s i to k H Hk) in E.
    pose proof (r_next _ _ _ _ _ H) as NX.
    destruct (Z.eqb_spec k 0) as [->|K].
    - injection E as <-. split; [|split; [exact HL|]].
      + replace (n + 1) with (n + cost (Batch to 0)) by reflexivity.
        assert (Hx : inext (istep (Batch to 0) i) < two96) by (cbn; lia).
        apply (R_exec first max Hfirst true n s i 1 (Batch to 0) s); auto.
        * split; [discriminate|]. cbn. pose proof two96_pos. lia.
        * cbn [Consecutive.exec]. unfold ignore. rewrite bindr, (mint_consecutive_eq first max Hfirst _ _ _ _ to 0 H) by lia. reflexivity.
      + intros id. cbn [iown ibatch]. replace ((inext i <=? id) && (id <? inext i + 0)) with false by lia. apply HB.
    - destruct (Z.eqb_spec to 0) as [|T]; [discriminate|]. destruct (max <? k); [discriminate|].
      destruct (Z.leb_spec two96 (inext i + k)) as [|B]; [discriminate|]. injection E as <-.
      split; [apply R_batch; auto; lia|]. split; [exact HL|]. intros id. unfold batched. cbn [clog iown ibatch].
      unfold batch_logs. rewrite fold_left_app. cbn [fold_left]. fold (batch_logs (clog s) id). rewrite HB.
      rewrite (r_next_val _ Hfirst _ _ _ _ H). unfold wsub96, wadd96. rewrite (Z.mod_small (inext i + k)) by lia.
      rewrite (Z.mod_small (inext i + k - 1)) by lia.
      replace (id <=? inext i + k - 1) with (id <? inext i + k) by lia. reflexivity.
  Qed.

  Definition all_batches (l : list (Z * Z)) (i : ideal) : ideal := fold_left (fun i x => ibatch (fst x) (snd x) i) l i.
  Lemma all_batches_own l : forall i id, Forall (fun x => 0 <= snd x) l ->
    iown (all_batches l i) id =
      if (inext i <=? id) && (id <? inext i + amount_of l) then initial_owner (inext i) l id else iown i id.
  Proof.
    induction l as [|[to k] l IH]; intros i id Hl; cbn [all_batches fold_left amount_of fold_right initial_owner fst snd].
    - replace ((inext i <=? id) && (id <? inext i + 0)) with false by lia. reflexivity.
    - inversion Hl as [|? ? H1 H2]; subst. cbn [snd] in H1. fold (all_batches l (ibatch to k i)). fold (amount_of l).
      rewrite IH by exact H2. cbn [inext iown ibatch].
      assert (0 <= amount_of l). { clear -H2. induction H2 as [|x l Hx _ IH]; cbn; [lia|]. fold (amount_of l). lia. }
      destruct (Z.leb_spec (inext i) id); destruct (Z.ltb_spec id (inext i + k)); destruct (Z.leb_spec (inext i + k) id);
        destruct (Z.ltb_spec id (inext i + k + amount_of l)); destruct (Z.ltb_spec id (inext i + (k + amount_of l))); cbn [andb]; try lia; reflexivity.
  Qed.
  Lemma amount_nonneg l : Forall (fun x => 0 <= snd x) l -> 0 <= amount_of l.
  Proof. induction 1 as [|x l Hx _ IH]; cbn; [lia|]. fold (amount_of l). lia. Qed.

  Lemma loop_some rs : forall as_ s n i s', J n s i -> Forall (fun k => 0 <= k) as_ -> n + Z.of_nat (length rs) < two64 ->
    constructor_loop first max rs as_ s = Some s' ->
    serviceable (inext i) max rs as_ /\ J (n + Z.of_nat (length rs)) s' (all_batches (combine rs as_) i).
  Proof.
    induction rs as [|to rs IH]; intros as_ s n i s' HJ Ha Hn E; cbn [constructor_loop combine length] in *.
    - injection E as <-. split; [|cbn; rewrite Z.add_0_r; exact HJ]. split; [cbn; lia|]. split; [apply List.Forall_nil|].
      cbn. destruct HJ as [H _]. pose proof (r_next _ _ _ _ _ H). lia.
    - destruct as_ as [|k as_]; [discriminate|]. inversion Ha as [|? ? A1 A2]; subst.
      destruct (mintConsecutive first max to k s) as [s1|] eqn:E1; [|discriminate]. cbn [obind] in E.
      pose proof (J_batch n s i to k s1 HJ A1 ltac:(lia) E1) as J1.
      destruct (IH as_ s1 (n + 1) (ibatch to k i) s' J1 A2 ltac:(lia) E) as ((S1 & S2 & S3) & J2).
      split; [|replace (n + Z.of_nat (S (length rs))) with (n + 1 + Z.of_nat (length rs)) by lia; exact J2].
      split; [cbn; lia|]. cbn [combine inext ibatch] in *. split.
      + apply List.Forall_cons; [|exact S2]. cbn [fst snd]. rewrite (sol_batch_eq n s i to k (proj1 HJ) A1) in E1.
        destruct (Z.eqb_spec k 0); [auto|]. right. destruct (Z.eqb_spec to 0); [discriminate|].
        destruct (Z.ltb_spec max k); [discriminate|]. auto.
      + cbn [amount_of fold_right snd]. fold (amount_of (combine rs as_)). lia.
  Qed.
  Lemma combine_nonneg rs : forall as_, Forall (fun k => 0 <= k) as_ -> Forall (fun x : Z * Z => 0 <= snd x) (combine rs as_).
  Proof.
    induction rs as [|r rs IH]; intros as_ Ha; [apply List.Forall_nil|]. destruct as_ as [|k as_]; [apply List.Forall_nil|].
    inversion Ha; subst. cbn. apply List.Forall_cons; auto.
  Qed.
  Lemma loop_none rs : forall as_ s n i, J n s i -> Forall (fun k => 0 <= k) as_ -> n + Z.of_nat (length rs) < two64 ->
    constructor_loop first max rs as_ s = None -> ~ serviceable (inext i) max rs as_.
  Proof.
    induction rs as [|to rs IH]; intros as_ s n i HJ Ha Hn E (S1 & S2 & S3); cbn [constructor_loop combine length] in *; [discriminate|].
    destruct as_ as [|k as_]; [cbn in S1; lia|]. inversion Ha as [|? ? A1 A2]; subst. inversion S2 as [|? ? S2a S2b]; subst.
    cbn [fst snd amount_of fold_right length] in *. fold (amount_of (combine rs as_)) in S3.
    pose proof (amount_nonneg _ (combine_nonneg rs as_ A2)) as T.
    assert (exists s1, mintConsecutive first max to k s = Some s1) as [s1 E1].
    { rewrite (sol_batch_eq n s i to k (proj1 HJ) A1). destruct (Z.eqb_spec k 0) as [|K]; [eauto|].
      destruct S2a as [|[S2a S2c]]; [lia|]. rewrite (proj2 (Z.eqb_neq to 0) S2a). replace (max <? k) with false by lia.
      replace (two96 <=? inext i + k) with false by lia. eauto. }
    rewrite E1 in E. cbn [obind] in E.
    apply (IH as_ s1 (n + 1) (ibatch to k i) (J_batch n s i to k s1 HJ A1 ltac:(lia) E1) A2 ltac:(lia) E).
    split; [lia|]. split; [exact S2b|]. cbn [inext ibatch]. lia.
  Qed.

  (** The public functions are operations of the library other than batches. *)
  Definition op_of (c : call) : op :=
    match c with
    | PBurn id => Burn id
    | PMint to id => Mint to id
    | PTransferFrom f t id => TransferFrom f t id
    | PApprove t id => Approve t id
    | PSetApprovalForAll p b => SetApprovalForAll p b
    end.
  Definition ops (h : list (Z * call)) : list (Z * op) := map (fun co => (fst co, op_of (snd co))) h.
  Lemma exec_op_of c o s : ConsecutiveExample.exec first c o s = Consecutive.exec first max c (op_of o) s.
  Proof. destruct o; reflexivity. Qed.
  Lemma run_ops h : forall s, ConsecutiveExample.run first h s = Consecutive.run first max (ops h) s.
  Proof.
    induction h as [|[c o] h IH]; intros s; [reflexivity|]. cbn [ops map fst snd]. rewrite run_cons, <- IH.
    unfold ConsecutiveExample.run. cbn [fold_left fst snd]. unfold tx. rewrite exec_op_of. reflexivity.
  Qed.
  Lemma ops_wf h : Forall call_wf h -> Forall op_wf (ops h) /\ Forall (fun co => match snd co with Batch _ _ => False | _ => True end) (ops h).
  Proof.
    induction 1 as [|[c o] h [H1 H2] _ [IH1 IH2]]; [split; apply List.Forall_nil|]. cbn [ops map fst snd] in *.
    split; apply List.Forall_cons; auto; [split; [exact H1|]|]; destruct o; cbn in *; auto.
  Qed.
  Lemma owners_after_ops h : forall s i id, iown (ideal_run first max (ops h) s i) id = owners_after first h s (iown i) id.
  Proof.
    induction h as [|[c o] h IH]; intros s i id; [reflexivity|]. cbn [ops map fst snd owners_after ideal_run].
    unfold tx. rewrite exec_op_of. destruct (Consecutive.exec first max c (op_of o) s) as [[[]|e|] s']; try apply IH.
    fold (ops h). rewrite IH. destruct o; reflexivity.
  Qed.
  (** After construction no batch follows. *)
  Lemma J_closed n s i : J n s i -> R first false n s i.
  Proof.
    intros ([] & HL & HB). split; auto. intros _ id. unfold owner_by_logs, transfer_logs. rewrite HL, HB. reflexivity.
  Qed.
End lemmas.
