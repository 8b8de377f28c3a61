(** The sponge. *)
From Coq Require Import ZArith List Bool Lia Ring_theory Ring Field.
From Verif Require Import Model.Uint Model.Curve Model.Poseidon Spec.Curve_spec Spec.Poseidon_spec.
From Verif Require Import Proofs.Curve_lemmas Proofs.Poseidon_lemmas.
Import ListNotations.
Open Scope nat_scope.

Lemma mod_succ m r : 0 < r ->
  (Nat.modulo m r + 1 = r /\ Nat.modulo (S m) r = 0 /\ Nat.div (S m) r = S (Nat.div m r)) \/
  (Nat.modulo m r + 1 < r /\ Nat.modulo (S m) r = Nat.modulo m r + 1 /\ Nat.div (S m) r = Nat.div m r).
Proof.
  intros Hr. pose proof (Nat.div_mod m r ltac:(lia)) as E. pose proof (Nat.mod_upper_bound m r ltac:(lia)) as B.
  set (q := Nat.div m r) in *. set (x := Nat.modulo m r) in *.
  destruct (Nat.eq_dec (x + 1) r) as [Er|Er]; [left|right]; (split; [lia|]).
  - split; [symmetry; apply (Nat.mod_unique _ _ (S q)); lia|symmetry; apply (Nat.div_unique _ _ _ 0); lia].
  - split; [symmetry; apply (Nat.mod_unique _ _ q); lia|symmetry; apply (Nat.div_unique _ _ _ (x + 1)); lia].
Qed.

Section sponge.
  Context (K : field_ops) (L : field_laws K) (P : params K).
  Notation F := (F K). Notation "0" := (f0 K).
  Add Field Kfield3 : (field_th K L).
  Notation t := (T K P). Notation cap := (CAPACITY K P). Notation r := (t - cap).
  Context (pi : list F -> list F).
  Hypothesis Hpi : forall s, length s = t -> permute K P s = Some (pi s) /\ length (pi s) = t.
  Hypothesis Hcap : cap < t.
  Notation inject := (inject K cap). Notation absorbs := (absorbs K pi t cap).

  Lemma add_block_length s b : length (add_block K s b) = length s.
  Proof. revert b. induction s as [|x s IH]; intros [|y b]; cbn; auto. Qed.
  Lemma inject_length s b : length (inject s b) = length s.
  Proof.
    unfold Poseidon_spec.inject. rewrite app_length, add_block_length, <- app_length, firstn_skipn. reflexivity.
  Qed.
  Lemma inject_nil s : inject s [] = s.
  Proof.
    unfold Poseidon_spec.inject. replace (add_block K (skipn cap s) []) with (skipn cap s); [apply firstn_skipn|].
    destruct (skipn cap s); reflexivity.
  Qed.
  Lemma add_at_app s s' i e : add_at K (s ++ s') (length s + i) e = option_map (app s) (add_at K s' i e).
  Proof.
    induction s as [|x s IH]; cbn; [destruct (add_at K s' i e); reflexivity|].
    rewrite IH. destruct (add_at K s' i e); reflexivity.
  Qed.
  Lemma add_at_block s b e : length b < length s -> add_at K (add_block K s b) (length b) e = Some (add_block K s (b ++ [e])).
  Proof.
    revert b. induction s as [|x s IH]; intros [|y b] H; cbn in *; try lia; [destruct s; reflexivity|].
    rewrite IH by lia. reflexivity.
  Qed.
  Lemma add_at_inject s b e : length s = t -> length b < r ->
    add_at K (inject s b) (cap + length b) e = Some (inject s (b ++ [e])).
  Proof.
    intros Hs Hb. unfold Poseidon_spec.inject.
    replace (cap + length b) with (length (firstn cap s) + length b) by (rewrite firstn_length; lia).
    rewrite add_at_app, add_at_block by (rewrite skipn_length; lia). reflexivity.
  Qed.
  Lemma absorbs_length l s : absorbs l s -> length s = t.
  Proof.
    induction 1; rewrite inject_length; [apply repeat_length|]. apply Hpi. assumption.
  Qed.
  Lemma inject_capacity s b : firstn cap (inject s b) = firstn cap (firstn cap s).
  Proof.
    unfold Poseidon_spec.inject. rewrite firstn_app, (firstn_firstn s).
    destruct (Nat.le_gt_cases cap (length s)) as [H|H].
    - rewrite firstn_length. replace (cap - min cap (length s)) with 0%nat by lia. cbn [firstn]. apply app_nil_r.
    - rewrite skipn_all2 by lia. cbn [add_block]. rewrite firstn_nil. apply app_nil_r.
  Qed.

  (** Absorbing sponges *)
  Definition block_of (l : list F) (h : sponge K) : Prop :=
    exists l0 s0 b, l = l0 ++ b /\ length b <= r /\ length s0 = t /\
      index K h = (cap + length b)%nat /\ state K h = inject s0 b /\
      ((l0 = [] /\ s0 = repeat 0 t) \/
       (exists s1, absorbs l0 s1 /\ l0 <> [] /\ Nat.modulo (length l0) r = 0%nat /\ b <> [] /\ s0 = pi s1)).
  Lemma block_of_absorbs l h : block_of l h -> absorbs l (state K h).
  Proof.
    intros (l0 & s0 & b & -> & Hb & Hs & Hi & -> & [[-> ->]|(s1 & Ha & Hn & Hm & Hbn & ->)]).
    - cbn [app]. constructor. exact Hb.
    - constructor; auto. destruct l0; [contradiction|discriminate].
  Qed.
  Definition inv (l : list F) (n : nat) (h : sponge K) : Prop :=
    match n with
    | O => squeezing K h = false /\ block_of l h
    | S m => squeezing K h = true /\ exists s, absorbs l s /\ index K h = (cap + Nat.modulo m r + 1)%nat /\
               state K h = iterate K pi (S (Nat.div m r)) s
    end.
  Lemma inv_new : inv [] 0 (new K P).
  Proof.
    split; [reflexivity|]. exists [], (repeat 0 t), []. cbn. rewrite repeat_length, inject_nil.
    repeat split; auto; lia.
  Qed.
  Lemma inv_absorb l h e : inv l 0 h -> exists h', absorb K P h e = Some h' /\ inv (l ++ [e]) 0 h'.
  Proof.
    intros [Hm Hb]. pose proof (block_of_absorbs _ _ Hb) as Ha. unfold absorb. rewrite Hm.
    destruct Hb as (l0 & s0 & b & El & Hb & Hs & Hi & Es & Hc).
    destruct (Nat.eqb_spec (index K h) t) as [E|E].
    - assert (Hsl : length (state K h) = t) by (rewrite Es, inject_length; exact Hs).
      destruct (Hpi _ Hsl) as [-> Hpl]. cbn [option_map bind].
      pose proof (add_at_inject (pi (state K h)) [] e Hpl ltac:(cbn; lia)) as Q. rewrite inject_nil in Q.
      cbn [length] in Q. rewrite Nat.add_0_r in Q. rewrite Q. cbn [option_map]. eexists. split; [reflexivity|].
      split; [reflexivity|]. exists l, (pi (state K h)), [e]. cbn [index state length].
      split; [reflexivity|]. split; [lia|]. split; [exact Hpl|]. split; [lia|]. split; [reflexivity|]. right.
      exists (state K h). split; [exact Ha|].
      assert (Hl : length l <> 0%nat) by (rewrite El, app_length; lia).
      split; [destruct l; [contradiction|discriminate]|]. split; [|split; [discriminate|reflexivity]].
      rewrite El, app_length. destruct Hc as [[-> _]|(s1 & _ & _ & Hmod & _)].
      + cbn [length Nat.add]. replace (length b) with r by lia. apply Nat.mod_same. lia.
      + rewrite Nat.add_mod, Hmod by lia. replace (length b) with r by lia. rewrite Nat.mod_same by lia.
        apply Nat.mod_0_l. lia.
    - cbn [option_map bind]. rewrite Es, Hi, add_at_inject by (exact Hs || lia). cbn [option_map].
      eexists. split; [reflexivity|]. split; [reflexivity|]. exists l0, s0, (b ++ [e]).
      cbn [index state]. rewrite app_length. cbn [length].
      split; [rewrite El, app_assoc; reflexivity|]. split; [lia|]. split; [exact Hs|]. split; [lia|].
      split; [reflexivity|]. destruct Hc as [Hc|(s1 & H1 & H2 & H3 & H4 & H5)]; [left; exact Hc|right].
      exists s1. repeat split; auto. intros E'. apply app_eq_nil in E' as [_ E']. discriminate.
  Qed.
  Lemma iterate_length n s : length s = t -> length (iterate K pi n s) = t.
  Proof. intros Hs. induction n as [|n IH]; [exact Hs|]. cbn [iterate]. apply Hpi, IH. Qed.
  Lemma nth_error_nth_ok s i : i < length s -> nth_error s i = Some (nth i s 0).
  Proof. apply nth_error_nth'. Qed.
  Lemma inv_squeeze l n h : inv l n h ->
    exists s h', absorbs l s /\ squeeze K P h = Some (output K pi t cap s n, h') /\ inv l (S n) h'.
  Proof.
    destruct n as [|m].
    - intros [Hm Hb]. pose proof (block_of_absorbs _ _ Hb) as Ha. pose proof (absorbs_length _ _ Ha) as Hl.
      exists (state K h). unfold squeeze. rewrite Hm. cbn [negb orb]. destruct (Hpi _ Hl) as [-> Hpl].
      cbn [option_map bind state index squeezing]. rewrite nth_error_nth_ok by lia. cbn [option_map].
      eexists. split; [exact Ha|]. split.
      + unfold output. rewrite Nat.mod_0_l, Nat.div_0_l, Nat.add_0_r by lia. reflexivity.
      + split; [reflexivity|]. exists (state K h). split; [exact Ha|]. cbn [index state].
        rewrite Nat.mod_0_l, Nat.div_0_l by lia. split; [lia|reflexivity].
    - intros [Hm (s & Ha & Hi & Hs)]. pose proof (absorbs_length _ _ Ha) as Hl. exists s.
      unfold squeeze. rewrite Hm. cbn [negb orb]. pose proof (Nat.mod_upper_bound m r ltac:(lia)) as Hb.
      destruct (mod_succ m r ltac:(lia)) as [(E1 & E2 & E3)|(E1 & E2 & E3)].
      + destruct (Nat.eqb_spec (index K h) t) as [_|E]; [|lia].
        pose proof (iterate_length (S (Nat.div m r)) s Hl) as Hl'. rewrite <- Hs in Hl'.
        destruct (Hpi _ Hl') as [-> Hpl]. cbn [option_map bind state index squeezing].
        rewrite nth_error_nth_ok by lia. cbn [option_map]. eexists. split; [exact Ha|]. split.
        * unfold output. rewrite E2, E3, Nat.add_0_r. cbn [iterate]. rewrite Hs. reflexivity.
        * split; [reflexivity|]. exists s. split; [exact Ha|]. cbn [index state]. rewrite E2, E3.
          split; [lia|]. cbn [iterate]. rewrite ?Hs. reflexivity.
      + destruct (Nat.eqb_spec (index K h) t) as [E|_]; [lia|].
        pose proof (iterate_length (S (Nat.div m r)) s Hl) as Hl'. cbn [bind option_map].
        rewrite nth_error_nth_ok by (rewrite Hs; lia). cbn [option_map]. eexists. split; [exact Ha|]. split.
        * unfold output. rewrite E2, E3, Hi, Hs, Nat.add_assoc. reflexivity.
        * split; [exact Hm|]. exists s. split; [exact Ha|]. cbn [index state]. rewrite E2, E3.
          split; [lia|rewrite ?Hs; reflexivity].
  Qed.
  Lemma absorb_squeezing l m h e : inv l (S m) h -> absorb K P h e = None.
  Proof. intros [Hm _]. unfold absorb. rewrite Hm. reflexivity. Qed.

  Lemma absorbs_functional l s : absorbs l s -> forall s', absorbs l s' -> s = s'.
  Proof.
    induction 1 as [b Hb|l s b Ha IH Hl Hm Hbn Hb]; intros s' H'.
    - inversion H' as [b' Hb' El Es|l' s1 b' Ha' Hl' Hm' Hbn' Hb' El Es]; subst; [reflexivity|].
      exfalso. rewrite app_length in Hb. apply Nat.mod_divides in Hm' as [q Hq]; [|lia].
      assert (length b' <> 0%nat) by (destruct b'; [contradiction|discriminate]). destruct q; [lia|]. nia.
    - inversion H' as [b' Hb' El Es|l' s1 b' Ha' Hl' Hm' Hbn' Hb' El Es].
      + exfalso. subst. rewrite app_length in Hb'. apply Nat.mod_divides in Hm as [q Hq]; [|lia].
        assert (length b <> 0%nat) by (destruct b; [contradiction|discriminate]). destruct q; [lia|]. nia.
      + assert (Elen : length l = length l').
        { apply Nat.mod_divides in Hm as [q Hq]; [|lia]. apply Nat.mod_divides in Hm' as [q' Hq']; [|lia].
          assert (length b <> 0%nat) by (destruct b; [contradiction|discriminate]).
          assert (length b' <> 0%nat) by (destruct b'; [contradiction|discriminate]).
          pose proof (f_equal (@length _) El) as E. rewrite !app_length in E.
          assert (q = q'); [|congruence]. nia. }
        assert (l' = l /\ b' = b) as [-> ->].
        { clear - El Elen. revert l' El Elen. induction l as [|x l IHl]; intros [|y l'] El Elen; try discriminate; [auto|].
          cbn in El. injection El as -> El. destruct (IHl l' El ltac:(cbn in Elen; lia)) as [-> ->]. auto. }
        rewrite (IH s1 Ha'). reflexivity.
  Qed.

  Lemma inv_absorb_batch b : forall l h, inv l 0 h -> exists h', absorb_batch K P h b = Some h' /\ inv (l ++ b) 0 h'.
  Proof.
    induction b as [|e b IH]; intros l h H; cbn [absorb_batch].
    - rewrite app_nil_r. eauto.
    - destruct (inv_absorb l h e H) as (h1 & -> & H1). cbn [bind].
      destruct (IH _ _ H1) as (h2 & -> & H2). rewrite <- app_assoc in H2. eauto.
  Qed.
  Lemma inv_squeeze_batch c : forall l n h, inv l n h -> exists s h', absorbs l s /\
    squeeze_batch K P h c = Some (map (output K pi t cap s) (seq n c), h') /\ inv l (n + c) h'.
  Proof.
    induction c as [|c IH]; intros l n h H; cbn [squeeze_batch seq map].
    - assert (exists s, absorbs l s) as [s Hs].
      { destruct n as [|m]; [exists (state K h); apply block_of_absorbs, H|]. destruct H as [_ (s & Hs & _)]. eauto. }
      exists s, h. rewrite Nat.add_0_r. auto.
    - destruct (inv_squeeze l n h H) as (s & h1 & Hs & -> & H1). cbn [bind].
      destruct (IH _ _ _ H1) as (s' & h2 & Hs' & -> & H2). cbn [option_map].
      rewrite (absorbs_functional _ _ Hs' s Hs). exists s, h2. rewrite Nat.add_succ_r. auto.
  Qed.
  Lemma inv_absorbs l n h : inv l n h -> exists s, absorbs l s.
  Proof.
    destruct n as [|m]; intros H; [exists (state K h); apply block_of_absorbs, H|]. destruct H as [_ (s & Hs & _)]. eauto.
  Qed.
  (** A call, when it respects the order. *)
  Lemma inv_perform l n h c : inv l n h -> n = 0%nat \/ absorbed K [c] = [] ->
    exists s h', absorbs l s /\ perform K P h c = Some (map (output K pi t cap s) (seq n (squeezed K [c])), h') /\
      inv (l ++ absorbed K [c]) (n + squeezed K [c]) h'.
  Proof.
    intros H Ho. destruct (inv_absorbs _ _ _ H) as [s Hs]. exists s.
    destruct c as [e|b| |c]; cbn [absorbed flat_map squeezed map list_sum fold_right perform] in *;
      rewrite ?app_nil_r, ?Nat.add_0_r in *.
    - destruct Ho as [->|]; [|discriminate]. destruct (inv_absorb l h e H) as (h' & -> & H'). cbn. eauto.
    - cbn [seq map]. destruct Ho as [->| ->].
      + destruct (inv_absorb_batch b l h H) as (h' & -> & H'). cbn. eauto.
      + cbn. rewrite app_nil_r. eauto.
    - destruct (inv_squeeze l n h H) as (s' & h' & Hs' & -> & H'). cbn [option_map seq map].
      rewrite (absorbs_functional _ _ Hs' s Hs). rewrite Nat.add_1_r. eauto.
    - destruct (inv_squeeze_batch c l n h H) as (s' & h' & Hs' & -> & H').
      rewrite (absorbs_functional _ _ Hs' s Hs). eauto.
  Qed.
  Lemma perform_unordered l m h c : inv l (S m) h -> absorbed K [c] <> [] -> perform K P h c = None.
  Proof.
    intros H Hc. destruct c as [e|b| |c]; cbn [absorbed flat_map] in Hc; rewrite ?app_nil_r in Hc; try contradiction.
    - cbn [perform]. rewrite (absorb_squeezing _ _ _ _ H). reflexivity.
    - destruct b as [|e b]; [contradiction|]. cbn [perform absorb_batch]. rewrite (absorb_squeezing _ _ _ _ H). reflexivity.
  Qed.
  Lemma absorbed_cons c cs : absorbed K (c :: cs) = absorbed K [c] ++ absorbed K cs.
  Proof. unfold absorbed. cbn [flat_map]. rewrite app_nil_r. reflexivity. Qed.
  Lemma squeezed_cons c cs : squeezed K (c :: cs) = squeezed K [c] + squeezed K cs.
  Proof. unfold squeezed. cbn [map list_sum fold_right]. rewrite Nat.add_0_r. reflexivity. Qed.
  (** Order, given that [n] elements have been squeezed before. *)
  Definition ordered_from (n : nat) (cs : list (call K)) : Prop :=
    forall before after, cs = before ++ after -> n + squeezed K before = 0%nat \/ absorbed K after = [].
  Lemma ordered_cons n c cs : ordered_from n (c :: cs) ->
    (n = 0%nat \/ absorbed K [c] = []) /\ ordered_from (n + squeezed K [c]) cs.
  Proof.
    intros H. split.
    - destruct (H [] (c :: cs) eq_refl) as [E|E]; [left; cbn in E; lia|right].
      rewrite absorbed_cons in E. apply app_eq_nil in E. tauto.
    - intros a b E. destruct (H (c :: a) b) as [E'|E']; [cbn; congruence| |right; exact E'].
      left. rewrite squeezed_cons in E'. lia.
  Qed.
  Lemma ordered_cons_inv n c cs : (n = 0%nat \/ absorbed K [c] = []) -> ordered_from (n + squeezed K [c]) cs -> ordered_from n (c :: cs).
  Proof.
    intros H1 H2 [|c' a] b E; cbn [app] in E.
    - subst b. rewrite absorbed_cons. destruct (H2 [] cs eq_refl) as [E|E].
      + left. cbn in E |- *. lia.
      + rewrite E, app_nil_r. destruct H1; [left; cbn; lia|right; assumption].
    - injection E as <- E. rewrite squeezed_cons. destruct (H2 a b E); [left; lia|right; assumption].
  Qed.
  Lemma run_ordered cs : forall l n h, inv l n h -> ordered_from n cs ->
    exists s h', absorbs (l ++ absorbed K cs) s /\ run K P h cs = Some (map (output K pi t cap s) (seq n (squeezed K cs)), h') /\
      inv (l ++ absorbed K cs) (n + squeezed K cs) h'.
  Proof.
    induction cs as [|c cs IH]; intros l n h H Ho.
    - cbn. rewrite app_nil_r, Nat.add_0_r. destruct (inv_absorbs _ _ _ H) as [s Hs]. eauto.
    - apply ordered_cons in Ho as [Ho1 Ho2]. destruct (inv_perform l n h c H Ho1) as (s & h1 & Hs & E1 & H1).
      destruct (IH _ _ _ H1 Ho2) as (s' & h2 & Hs' & E2 & H2). cbn [run]. rewrite E1, E2.
      exists s', h2. rewrite (absorbed_cons c cs), (squeezed_cons c cs), app_assoc, Nat.add_assoc, seq_app, map_app.
      split; [exact Hs'|]. split; [|exact H2].
      replace (map (output K pi t cap s) (seq n (squeezed K [c]))) with (map (output K pi t cap s') (seq n (squeezed K [c]))); [reflexivity|].
      (* outputs before the last absorption: there are none *)
      destruct (squeezed K [c]) as [|k] eqn:Ek; [reflexivity|].
      destruct (Ho2 [] cs eq_refl) as [E|E]; [lia|].
      assert (Ec : absorbed K [c] = []) by (destruct c; cbn in Ek |- *; congruence).
      rewrite Ec, E, !app_nil_r in Hs'. rewrite (absorbs_functional _ _ Hs s' Hs'). reflexivity.
  Qed.
  Lemma run_unordered cs : forall l n h, inv l n h -> ~ ordered_from n cs -> run K P h cs = None.
  Proof.
    induction cs as [|c cs IH]; intros l n h H Ho.
    - exfalso. apply Ho. intros a b E. symmetry in E. apply app_eq_nil in E as [-> ->]. right. reflexivity.
    - cbn [run]. destruct (Nat.eq_dec n 0) as [En|En].
      + destruct (inv_perform l n h c H (or_introl En)) as (s & h1 & Hs & E1 & H1). rewrite E1.
        rewrite (IH _ _ _ H1); [reflexivity|]. intros Q. apply Ho, ordered_cons_inv; auto.
      + destruct (absorbed K [c]) as [|e b] eqn:Ec.
        * destruct (inv_perform l n h c H (or_intror Ec)) as (s & h1 & Hs & E1 & H1). rewrite E1.
          rewrite (IH _ _ _ H1); [reflexivity|]. intros Q. apply Ho, ordered_cons_inv; auto.
        * destruct n as [|m]; [contradiction|]. rewrite (perform_unordered l m h c H); [reflexivity|]. rewrite Ec. discriminate.
  Qed.
  Lemma inv_index l n h : inv l n h -> cap <= index K h <= t /\ length (state K h) = t.
  Proof.
    destruct n as [|m]; intros H.
    - destruct H as [_ H]. pose proof (absorbs_length _ _ (block_of_absorbs _ _ H)) as Hl.
      destruct H as (l0 & s0 & b & _ & Hb & _ & Hi & _). split; [lia|exact Hl].
    - destruct H as [_ (s & Ha & Hi & Hs)]. pose proof (Nat.mod_upper_bound m r ltac:(lia)). split; [lia|].
      rewrite Hs. apply iterate_length, (absorbs_length _ _ Ha).
  Qed.
End sponge.
