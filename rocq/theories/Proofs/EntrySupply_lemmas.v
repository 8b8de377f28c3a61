From Verif.Base Require Import Prelude Bytes Keccak Maps.
From stdpp Require Import gmap.
From Coq Require Import String List.
From Verif.Model Require Import Introspection Router Entry EntryErc721 EntryErc1155 EntrySupply.
From Verif.Model Require SolAbi Erc1155 Erc1155Example.
From Verif.Spec Require Import Router_spec SolAbi_spec LogMeaning_spec.
From Verif.Spec Require Erc1155_spec Entry_spec EntryMulti_spec EntrySupply_spec.
From Verif.Proofs Require Import Router_lemmas Entry_lemmas.
From Verif.Proofs Require SolAbi_lemmas Erc1155_lemmas EntryNft_lemmas EntryMulti_lemmas.
Import SolAbi.
Import Entry_spec (calldata, is_address, has_type, word_of_type).
Import EntryMulti_spec.
Import EntryNft_lemmas (addr0, addr_u256).
Import Erc1155_lemmas (ranged, tracked).
Import EntryMulti_lemmas.
Import EntrySupply_spec.
#[global] Open Scope Z_scope.
Local Open Scope list_scope.
Local Open Scope Z_scope.
Opaque keccak256.

(** ** The two ways to say what a list holds *)
Lemma amount_combine ids : forall vs id, Erc1155_spec.amount (combine ids vs) id = amount ids vs id.
Proof. induction ids as [|i ids IH]; intros [|v vs] id; cbn [combine Erc1155_spec.amount amount]; try reflexivity. rewrite IH. reflexivity. Qed.
Lemma vsum_sum l : Erc1155_spec.vsum l = sum l.
Proof. induction l as [|v l IH]; [reflexivity|]. change (sum (v :: l)) with (v + sum l). cbn [Erc1155_spec.vsum]. rewrite IH. reflexivity. Qed.
Lemma amount_absent ids : forall vs id, ~ In id ids -> amount ids vs id = 0.
Proof.
  induction ids as [|i ids IH]; intros [|v vs] id H; cbn [amount]; try reflexivity.
  rewrite IH by (intros K; apply H; right; exact K). destruct (Z.eqb_spec i id); [|reflexivity]. exfalso. apply H. left. assumption.
Qed.
Lemma amount_pos ids : forall vs id, numbers_fit vs -> 0 <= amount ids vs id.
Proof.
  induction ids as [|i ids IH]; intros [|v vs] id H; cbn [amount]; try lia.
  destruct (proj1 (List.Forall_cons_iff _ _ _) H) as [H1 H2]. specialize (IH vs id H2). unfold is_u256 in H1. destruct (i =? id); lia.
Qed.
Lemma amount_wide ids vs id : numbers_fit ids -> ~ is_u256 id -> amount ids vs id = 0.
Proof. intros H N. apply amount_absent. intros K. apply N. unfold numbers_fit in H. rewrite List.Forall_forall in H. apply H, K. Qed.

(** ** Counting up *)
Lemma existsb_same (f g : Z -> bool) l : (forall x, In x l -> f x = g x) -> existsb f l = existsb g l.
Proof.
  intros H. induction l as [|x l IH]; [reflexivity|]. cbn [existsb]. rewrite (H x) by (left; reflexivity). f_equal. apply IH.
  intros y Hy. apply H. right. exact Hy.
Qed.
Lemma add_cases ids : forall vs s, length ids = length vs -> numbers_fit vs ->
  if existsb (fun id => two256 <=? mget (Erc1155.total_supply s) id + amount ids vs id) ids
  then fst (Erc1155.supply_add (combine ids vs) s) = Panic
  else exists s', Erc1155.supply_add (combine ids vs) s = (Ok tt, s').
Proof.
  induction ids as [|i ids IH]; intros [|v vs] s L Hv; try discriminate L.
  - cbn. eauto.
  - destruct (proj1 (List.Forall_cons_iff _ _ _) Hv) as [Hv1 Hv2]. cbn [combine Erc1155.supply_add]. mred.
    pose proof (amount_pos ids vs i Hv2) as Hp.
    destruct (Z.ltb_spec (mget (Erc1155.total_supply s) i + v) two256) as [Hl|Hl].
    + set (s1 := Erc1155.set_total _ s).
      assert (E1 : forall j, mget (Erc1155.total_supply s1) j = mget (Erc1155.total_supply s) j + (if i =? j then v else 0)).
      { intros j. unfold s1, Erc1155.set_total. cbn [Erc1155.total_supply]. rewrite mget_set. destruct (stdpp.base.decide (i = j)) as [->|N];
          [rewrite Z.eqb_refl; reflexivity|]. rewrite (proj2 (Z.eqb_neq i j) N). lia. }
      replace (existsb (fun id => two256 <=? mget (Erc1155.total_supply s) id + amount (i :: ids) (v :: vs) id) (i :: ids))
        with (existsb (fun id => two256 <=? mget (Erc1155.total_supply s1) id + amount ids vs id) ids).
      * apply IH; [cbn in L; lia|exact Hv2].
      * clearbody s1. cbn [existsb amount]. rewrite Z.eqb_refl.
        assert (E2 : existsb (fun id => two256 <=? mget (Erc1155.total_supply s1) id + amount ids vs id) ids =
                     existsb (fun id => two256 <=? mget (Erc1155.total_supply s) id + ((if i =? id then v else 0) + amount ids vs id)) ids).
        { apply existsb_same. intros x _. rewrite E1. f_equal. lia. }
        rewrite E2. destruct (Z.leb_spec two256 (mget (Erc1155.total_supply s) i + (v + amount ids vs i))) as [H1|H1]; cbn [orb]; [|reflexivity].
        destruct (in_dec BinInt.Z.eq_dec i ids) as [K|K].
        -- apply existsb_exists. exists i. split; [exact K|]. rewrite Z.eqb_refl. apply Z.leb_le. lia.
        -- rewrite (amount_absent ids vs i K) in H1. lia.
    + cbn [existsb amount]. rewrite Z.eqb_refl. replace (two256 <=? _) with true by (symmetry; apply Z.leb_le; lia). reflexivity.
Qed.
Lemma sub_goes ids : forall vs s, exists s', Erc1155.supply_sub (combine ids vs) s = (Ok tt, s').
Proof. induction ids as [|i ids IH]; intros [|v vs] s; cbn [combine Erc1155.supply_sub]; try (eexists; reflexivity). mred. apply IH. Qed.

(** ** The states of the contract and the books *)
(** Only addresses hold tokens, and only of numbers of 256 bits. *)
Definition keyed (s : Erc1155.supply_state) : Prop :=
  forall a id, Erc1155.balance_of a id (Erc1155.erc1155 s) <> 0 -> is_address a /\ is_u256 id.
Record agrees (s : Erc1155.supply_state) (b : sbook) : Prop := mkAgrees {
  g_tokens : agree (Erc1155.erc1155 s) (s_tokens b);
  g_supply : forall id, is_u256 id -> s_supply b id = mget (Erc1155.total_supply s) id;
  g_total : s_total b = Erc1155.total_supply_all s
}.
Record sound (s : Erc1155.supply_state) : Prop := mkSound { so_tracked : tracked s; so_keyed : keyed s }.
Definition fine (s : Erc1155.supply_state) (b : sbook) : Prop := sound s /\ agrees s b /\ sbook_fits b.
Definition smeets (x : res Erc1155.error unit * Erc1155.supply_state) (v : sverdict) : Prop :=
  match v with
  | Yes b => exists s', x = (Ok tt, s') /\ fine s' b
  | No Silent => fst x = Panic
  | No why => exists er, fst x = Err er /\ says er why
  end.
(** A failure of the base contract is one of the extension. *)
Lemma on_base_fails {A} (m : M Erc1155.state Erc1155.error unit) (k : unit -> M Erc1155.supply_state Erc1155.error A) s why p :
  meets (m (Erc1155.erc1155 s)) (Denied why) p ->
  match why with
  | Silent => fst (bind (Erc1155.on_base m) k s) = Panic
  | _ => exists er, fst (bind (Erc1155.on_base m) k s) = Err er /\ says er why
  end.
Proof.
  unfold Erc1155.on_base, zoom. mred. destruct (m (Erc1155.erc1155 s)) as [r e]. cbn [meets fst].
  destruct why; [intros (er & -> & H)|intros (er & -> & H)|intros ->]; cbn [fst]; eauto.
Qed.
Lemma sum_mod vs : Erc1155.wsum vs = sum vs mod two256.
Proof. rewrite Erc1155_lemmas.wsum_mod, vsum_sum. reflexivity. Qed.
(** What [_update] of the extension does, by who gives and who gets. *)
Definition updating (f t : Z) (ids vs : list Z) (b : sbook) : sverdict :=
  match reply_to (checks (paired ids vs) (s_tokens b)) (each (act f t) ids vs) with
  | Denied why => No why
  | Granted m =>
      if (f =? 0) && too_many ids vs b then No Silent
      else Yes (mkSbook m
        (if f =? 0 then fun id => s_supply b id + amount ids vs id else if t =? 0 then fun id => s_supply b id - amount ids vs id else s_supply b)
        (if f =? 0 then s_total b + sum vs mod two256 else if t =? 0 then (s_total b - sum vs) mod two256 else s_total b))
  end.
Lemma updating_ok c f t ids vs s b : fine s b -> is_address f -> is_address t -> numbers_fit ids -> numbers_fit vs ->
  Z.of_nat (length ids) < two256 -> Z.of_nat (length vs) < two256 ->
  (f = 0 /\ t <> 0) \/ (f <> 0 /\ t = 0) \/ (f <> 0 /\ t <> 0) ->
  smeets (Erc1155.supply_update c f t ids vs s) (updating f t ids vs b).
Proof.
  intros (So & A & F) Hf Ht Hi Hv Li Lv Hft. assert (Tr := so_tracked _ So).
  destruct F as (F1 & F2 & F3 & F4).
  pose proof (update_all_ok c f t ids vs (Erc1155.erc1155 s) (s_tokens b) false (g_tokens _ _ A) F1 F4 Hf Ht Hi Hv Li Lv) as U.
  unfold updating. destruct (reply_to (checks (paired ids vs) (s_tokens b)) (each (act f t) ids vs)) as [m|why] eqn:V.
  2: { pose proof (on_base_fails _ (fun _ => (if f =? 0 then
        Erc1155.supply_add (combine ids vs) ;;; all <~ gets Erc1155.total_supply_all ;; v <~ cadd all (Erc1155.wsum vs) ;; modify (Erc1155.set_all v) else ret tt) ;;;
       (if t =? 0 then Erc1155.supply_sub (combine ids vs) ;;; all <~ gets Erc1155.total_supply_all ;; modify (Erc1155.set_all (wsub all (Erc1155.wsum vs))) else ret tt))
       s why false U) as K.
       destruct why; exact K. }
  destruct (Erc1155._update c f t ids vs (Erc1155.erc1155 s)) as [r e] eqn:Ue. cbn [meets fst snd] in U. destruct U as (-> & A' & Fm & Pm).
  set (s1 := Erc1155.mkSupply e (Erc1155.total_supply s) (Erc1155.total_supply_all s)).
  assert (B1 : Erc1155.on_base (Erc1155._update c f t ids vs) s = (Ok tt, s1)).
  { unfold Erc1155.on_base, zoom. rewrite Ue. reflexivity. }
  pose proof (Erc1155_lemmas.update_ok c f t ids vs _ _ Hv (Erc1155_lemmas.inv_range _ (proj1 Tr)) Ue) as (L & (Mv & _) & _).
  (* the state afterwards, if there is one *)
  assert (Good : forall s', Erc1155.supply_update c f t ids vs s = (Ok tt, s') -> Erc1155.erc1155 s' = e ->
    forall b', s_tokens b' = m -> (forall id, is_u256 id -> s_supply b' id = mget (Erc1155.total_supply s') id) ->
    (forall id, ~ is_u256 id -> s_supply b' id = s_supply b id) -> s_total b' = Erc1155.total_supply_all s' -> fine s' b').
  { intros s' Es Ee b' Eb G1 G2 G3. assert (Tr' := proj1 (Erc1155_lemmas.supply_update_ok c f t ids vs s s' Hv Hft Tr Es)).
    split; [split; [exact Tr'|]|split].
    - intros a id Hn. rewrite Ee, Mv, amount_combine in Hn. unfold Erc1155_spec.share in Hn.
      destruct (Z.eq_dec (Erc1155.balance_of a id (Erc1155.erc1155 s)) 0) as [Z0|N0]; [|exact (so_keyed _ So a id N0)]. rewrite Z0 in Hn.
      assert (Hid : is_u256 id).
      { destruct (Z_le_dec 0 id); [destruct (Z_lt_dec id two256)|].
        - split; assumption.
        - exfalso. apply Hn. rewrite (amount_wide ids vs id Hi) by (intros [_ ?]; contradiction). destruct (_ && _), (_ && _); reflexivity.
        - exfalso. apply Hn. rewrite (amount_wide ids vs id Hi) by (intros [? _]; contradiction). destruct (_ && _), (_ && _); reflexivity. }
      split; [|exact Hid]. destruct (Z.eqb_spec f a) as [<-|]; [exact Hf|]. destruct (Z.eqb_spec t a) as [<-|]; [exact Ht|]. exfalso. apply Hn. reflexivity.
    - split; [rewrite Ee, Eb; exact A'|exact G1|exact G3].
    - destruct Tr' as (_ & Tu & Ta & _). split; [rewrite Eb; exact Fm|]. split; [|split; [rewrite G3; exact Ta|rewrite Eb; exact Pm]].
      intros id. destruct (Z_le_dec 0 id); [destruct (Z_lt_dec id two256)|].
      + rewrite G1 by (split; assumption). apply Tu.
      + rewrite G2 by (intros [_ ?]; contradiction). apply F2.
      + rewrite G2 by (intros [? _]; contradiction). apply F2. }
  assert (Wide : forall id, ~ is_u256 id -> (if f =? 0 then fun id => s_supply b id + amount ids vs id else if t =? 0 then fun id => s_supply b id - amount ids vs id else s_supply b) id = s_supply b id).
  { intros id N. pose proof (amount_wide ids vs id Hi N). destruct (f =? 0), (t =? 0); lia. }
  assert (El : map snd (combine ids vs) = vs) by (apply Erc1155_lemmas.combine_map_snd, L).
  assert (Hm : Forall is_u256 (map snd (combine ids vs))) by (rewrite El; exact Hv).
  destruct Tr as (Ti & Tu & Ta & Ts & Tt).
  assert (Un : Erc1155.supply_update c f t ids vs s =
    bind (if f =? 0 then Erc1155.supply_add (combine ids vs) ;;; all <~ gets Erc1155.total_supply_all ;; v <~ cadd all (Erc1155.wsum vs) ;; modify (Erc1155.set_all v) else ret tt)
      (fun _ => if t =? 0 then Erc1155.supply_sub (combine ids vs) ;;; all <~ gets Erc1155.total_supply_all ;; modify (Erc1155.set_all (wsub all (Erc1155.wsum vs))) else ret tt) s1).
  { unfold Erc1155.supply_update. unfold bind at 1. rewrite B1. reflexivity. }
  destruct (Z.eqb_spec f 0) as [->|Nf].
  - assert (Nt : t <> 0) by lia. rewrite (proj2 (Z.eqb_neq t 0) Nt) in *. cbn [andb].
    pose proof (add_cases ids vs s1 L Hv) as Ad. unfold too_many.
    assert (Ex : existsb (fun id => two256 <=? s_supply b id + amount ids vs id) ids =
                 existsb (fun id => two256 <=? mget (Erc1155.total_supply s1) id + amount ids vs id) ids).
    { apply existsb_same. intros x Hx. unfold numbers_fit in Hi. rewrite List.Forall_forall in Hi. rewrite (g_supply _ _ A x (Hi x Hx)). reflexivity. }
    rewrite Ex. destruct (existsb _ ids) eqn:Exi; cbn [orb].
    + cbn [smeets]. rewrite Un. unfold bind. destruct (Erc1155.supply_add (combine ids vs) s1) as [r s2]. cbn [fst] in Ad. rewrite Ad. reflexivity.
    + destruct Ad as (s2 & Ad). pose proof (Erc1155_lemmas.supply_add_ok _ s1 _ Hm Tu Ad) as (D1 & _ & _ & D4 & D5).
      assert (Un2 : Erc1155.supply_update c 0 t ids vs s =
        if Erc1155.total_supply_all s + sum vs mod two256 <? two256 then (Ok tt, Erc1155.set_all (Erc1155.total_supply_all s + sum vs mod two256) s2) else (Panic, s2)).
      { rewrite Un. mred. rewrite Ad. mred. rewrite D5, sum_mod. change (Erc1155.total_supply_all s1) with (Erc1155.total_supply_all s).
        destruct (_ <? two256); reflexivity. }
      rewrite (g_total _ _ A). rewrite Z.leb_antisym. destruct (Erc1155.total_supply_all s + sum vs mod two256 <? two256) eqn:Lt; cbn [negb].
      * cbn [smeets]. eexists. split; [exact Un2|]. apply (Good _ Un2); [exact D4|reflexivity| |intros id N; exact (Wide id N)|reflexivity].
        intros id Hid. cbn [s_supply Erc1155.set_all Erc1155.total_supply]. rewrite D1, amount_combine, (g_supply _ _ A id Hid). change (Erc1155.total_supply s1) with (Erc1155.total_supply s). lia.
      * cbn [smeets]. rewrite Un2. reflexivity.
  - cbn [andb]. destruct (Z.eqb_spec t 0) as [->|Nt].
    + destruct (sub_goes ids vs s1) as (s2 & Sb).
      assert (Le : forall id, Erc1155_spec.amount (combine ids vs) id <= mget (Erc1155.total_supply s1) id).
      { intros id. change (Erc1155.total_supply s1) with (Erc1155.total_supply s). rewrite Ts.
        pose proof (Erc1155_lemmas.update_ok c f 0 ids vs _ _ Hv (Erc1155_lemmas.inv_range _ Ti) Ue) as (_ & _ & T & _).
        assert (Ie : ranged e) by apply (a_fit _ _ A').
        pose proof (Erc1155_lemmas.id_total_nonneg e id Ie) as Hn. rewrite T in Hn. unfold Erc1155_lemmas.gt0 in Hn. cbn [Z.eqb] in Hn.
        rewrite (proj2 (Z.eqb_neq f 0) Nf) in Hn. lia. }
      pose proof (Erc1155_lemmas.supply_sub_ok _ s1 _ Hm Tu Le Sb) as (D1 & _ & _ & D4 & D5).
      assert (Un2 : Erc1155.supply_update c f 0 ids vs s = (Ok tt, Erc1155.set_all ((Erc1155.total_supply_all s - sum vs) mod two256) s2)).
      { rewrite Un. mred. rewrite Sb. mred. rewrite D5, sum_mod. change (Erc1155.total_supply_all s1) with (Erc1155.total_supply_all s).
        unfold wsub. rewrite Zminus_mod_idemp_r. reflexivity. }
      cbn [smeets]. eexists. split; [exact Un2|]. apply (Good _ Un2); [exact D4|reflexivity| |intros id N; exact (Wide id N)|cbn; rewrite (g_total _ _ A); reflexivity].
      intros id Hid. cbn [s_supply Erc1155.set_all Erc1155.total_supply]. rewrite D1, amount_combine, (g_supply _ _ A id Hid). change (Erc1155.total_supply s1) with (Erc1155.total_supply s). lia.
    + cbn [smeets]. assert (Un2 : Erc1155.supply_update c f t ids vs s = (Ok tt, s1)) by (rewrite Un; reflexivity).
      eexists. split; [exact Un2|]. apply (Good _ Un2); [reflexivity|reflexivity| |intros id N; exact (Wide id N)|cbn; apply (g_total _ _ A)].
      intros id Hid. cbn [s_supply]. rewrite (g_supply _ _ A id Hid). change (Erc1155.total_supply s1) with (Erc1155.total_supply s). lia.
Qed.

(** ** The question to the receiver *)
Lemma check_same w c f t ids vs d e s :
  Erc1155._check_on_erc1155_received (deployed w) (answering (hook1155 w c f t ids vs d)) c f t (Erc1155.receiver_data ids vs) d s =
  (fst (Erc1155._check_on_erc1155_received (deployed w) (Erc1155Example.answers (hook1155 w c f t ids vs d)) c f t (Erc1155.receiver_data ids vs) d e), s).
Proof.
  unfold Erc1155._check_on_erc1155_received, answering, Erc1155Example.answers. destruct (deployed w t); [|reflexivity]. cbn [negb].
  generalize (hook1155 w c f t ids vs d). intros r. mred. destruct r as [v|[|x l]]; [|reflexivity..]. destruct (negb _); reflexivity.
Qed.
Lemma asking_granted w c f t ids vs d m m' : asking w c f t ids vs d m = Granted m' -> m' = m.
Proof.
  unfold asking. destruct (deployed w t); [|congruence]. destruct (question c f ids vs d) as [a k].
  destruct (replies w t a) as [out|[|]]; [destruct (list_eq_dec _ _ _)|..]; congruence.
Qed.
(** [_update] and the question. *)
Definition accepting (w : world) (c f t : Z) (ids vs d : list Z) (b : sbook) : sverdict :=
  match updating f t ids vs b with
  | No why => No why
  | Yes b' => if t =? 0 then Yes b' else
      match asking w c f t ids vs d (s_tokens b') with Granted _ => Yes b' | Denied why => No why end
  end.
Lemma accepting_ok w c f t ids vs d s b h : fine s b -> is_address f -> is_address t -> numbers_fit ids -> numbers_fit vs ->
  Z.of_nat (length ids) < two256 -> Z.of_nat (length vs) < two256 ->
  (f = 0 /\ t <> 0) \/ (f <> 0 /\ t = 0) \/ (f <> 0 /\ t <> 0) ->
  (t <> 0 -> h = answering (hook1155 w c f t ids vs d)) ->
  smeets (Erc1155._update_with_acceptance_check Erc1155.supply (deployed w) h c f t ids vs d s) (accepting w c f t ids vs d b).
Proof.
  intros Fi Hf Ht Hi Hv Li Lv Hft Hh. pose proof (updating_ok c f t ids vs s b Fi Hf Ht Hi Hv Li Lv Hft) as U.
  unfold Erc1155._update_with_acceptance_check, accepting. cbn [Erc1155.supply Erc1155.sys_update]. unfold bind.
  destruct (updating f t ids vs b) as [b'|why] eqn:V.
  - destruct U as (s' & -> & Fi'). destruct (Z.eqb_spec t 0) as [->|Nt]; cbn [negb]; [exists s'; split; [reflexivity|exact Fi']|].
    rewrite (Hh Nt). assert (L : length ids = length vs).
    { unfold updating, paired in V. cbn [checks] in V. destruct (length ids =? length vs)%nat eqn:L; [apply Nat.eqb_eq, L|discriminate V]. }
    rewrite (check_same w c f t ids vs d (Erc1155.erc1155 s')). destruct Fi' as (So & A & F). assert (F' := F). destruct F' as (F1 & F2 & F3 & F4).
    pose proof (asked_ok w c f t ids vs d (Erc1155.erc1155 s') (s_tokens b') false (g_tokens _ _ A) F1 F4 Ht L) as K.
    destruct (asking w c f t ids vs d (s_tokens b')) as [m'|why]; cbn [meets smeets fst] in *.
    + destruct K as (-> & _). exists s'. split; [reflexivity|]. exact (conj So (conj A F)).
    + destruct why; exact K.
  - destruct (Erc1155.supply_update c f t ids vs s) as [r s']. destruct why; cbn [smeets fst] in *; [destruct U as (er & -> & U)|destruct U as (er & -> & U)|rewrite U]; cbn [fst]; eauto.
Qed.

Lemma refuse_first (m : M Erc1155.supply_state Erc1155.error unit) c er why v s :
  (c = true -> says er why) -> why <> Silent -> (c = false -> smeets (m s) v) ->
  smeets (bind (fail_if c er) (fun _ => m) s) (if c then No why else v).
Proof.
  intros H1 H2 H3. destruct c; mred; [|apply H3; reflexivity]. specialize (H1 eq_refl). cbn [smeets].
  destruct why; [exists er; split; [reflexivity|exact H1]..|congruence].
Qed.
Ltac fit := unfold reason_fits; cbn [numbers]; repeat (apply List.Forall_cons; [solve [auto using addr_u256, addr0]|]); apply List.Forall_nil.
Lemma same_smeets x v v' : v = v' -> smeets x v -> smeets x v'.
Proof. intros ->. exact (fun H => H). Qed.
Lemma minting_ok w c t ids vs d s b : fine s b -> is_address t -> numbers_fit ids -> numbers_fit vs ->
  Z.of_nat (length ids) < two256 -> Z.of_nat (length vs) < two256 ->
  smeets (Erc1155._do_mint Erc1155.supply (deployed w) (answering (hook1155 w c 0 t ids vs d)) c t ids vs d s) (minting w c t ids vs d b).
Proof.
  intros Fi Ht Hi Hv Li Lv. unfold Erc1155._do_mint.
  apply (same_smeets _ (if t =? 0 then No (Because (ERC1155InvalidReceiver 0)) else accepting w c 0 t ids vs d b)).
  - unfold minting, accepting, updating. cbn [somebody app checks]. destruct (t =? 0) eqn:Et; [reflexivity|].
    destruct (checks (paired ids vs) (s_tokens b)) as [m0|]; cbn [reply_to]; [|reflexivity].
    rewrite (each_ext (act 0 t) (given t)) by (intros id v m; unfold act; cbn [Z.eqb reply_to]; rewrite Et; reflexivity).
    destruct (each (given t) ids vs m0) as [m|]; [|reflexivity]. cbn [Z.eqb andb]. destruct (too_many ids vs b); [reflexivity|]. cbn [s_tokens].
    destruct (asking w c 0 t ids vs d m) as [m'|] eqn:As; [|reflexivity]. apply asking_granted in As. rewrite As. reflexivity.
  - apply refuse_first; [|discriminate|].
    + intros E. replace t with 0 by lia. split; [reflexivity|fit].
    + intros E. apply accepting_ok; auto using addr0. left. split; [reflexivity|lia].
Qed.
Lemma burning_ok w c f ids vs s b : fine s b -> is_address f -> numbers_fit ids -> numbers_fit vs ->
  Z.of_nat (length ids) < two256 -> Z.of_nat (length vs) < two256 ->
  smeets (Erc1155._do_burn Erc1155.supply (deployed w) (answering (Erc1155.Failed [])) c f ids vs s) (burning f ids vs b).
Proof.
  intros Fi Hf Hi Hv Li Lv. unfold Erc1155._do_burn.
  apply (same_smeets _ (if f =? 0 then No (Because (ERC1155InvalidSender 0)) else accepting w c f 0 ids vs [] b)).
  - unfold burning, accepting, updating. cbn [somebody app checks]. destruct (f =? 0) eqn:Ef; [reflexivity|].
    destruct (checks (paired ids vs) (s_tokens b)) as [m0|]; cbn [reply_to]; [|reflexivity].
    rewrite (each_ext (act f 0) (taken f)) by (intros id v m; unfold act; rewrite Ef; cbn [Z.eqb]; destruct (taken f id v m); reflexivity).
    destruct (each (taken f) ids vs m0) as [m|]; reflexivity.
  - apply refuse_first; [|discriminate|].
    + intros E. replace f with 0 by lia. split; [reflexivity|fit].
    + intros E. apply accepting_ok; auto using addr0; [right; left; split; [lia|reflexivity]|lia].
Qed.
Lemma moving_ok w c f t ids vs d s b : fine s b -> is_address c -> is_address f -> is_address t -> numbers_fit ids -> numbers_fit vs ->
  Z.of_nat (length ids) < two256 -> Z.of_nat (length vs) < two256 ->
  smeets (Erc1155.safe_batch_transfer_from Erc1155.supply (deployed w) (answering (hook1155 w c f t ids vs d)) c f t ids vs d s)
    (match moving w c f t ids vs d (s_tokens b) with Granted m => Yes (mkSbook m (s_supply b) (s_total b)) | Denied why => No why end).
Proof.
  intros Fi Hc Hf Ht Hi Hv Li Lv. unfold Erc1155.safe_batch_transfer_from, Erc1155.do_safe_transfer_from. cbn [Erc1155.supply Erc1155.sys_authorize].
  destruct Fi as (So & A & F). assert (F' := F). destruct F' as (F1 & F2 & F3 & F4).
  assert (Au : Erc1155.on_base (Erc1155.authorize_transfer c f) s =
    fail_if (negb (c =? f) && negb (m_operator (s_tokens b) f c)) (Erc1155.MissingApprovalForAll c f) s).
  { unfold Erc1155.on_base, zoom, Erc1155.authorize_transfer. mred. rewrite (a_op _ _ (g_tokens _ _ A) f c Hf Hc), (Z.eqb_sym c f).
    destruct (_ && _); destruct s; reflexivity. }
  assert (Eb : forall k : unit -> M Erc1155.supply_state Erc1155.error unit, bind (Erc1155.on_base (Erc1155.authorize_transfer c f)) k s =
    bind (fail_if (negb (c =? f) && negb (m_operator (s_tokens b) f c)) (Erc1155.MissingApprovalForAll c f)) k s).
  { intros k. unfold bind. rewrite Au. reflexivity. }
  rewrite Eb. clear Eb Au.
  apply (same_smeets _ (if negb (c =? f) && negb (m_operator (s_tokens b) f c) then No (Because (ERC1155MissingApprovalForAll c f)) else
    if t =? 0 then No (Because (ERC1155InvalidReceiver 0)) else if f =? 0 then No (Because (ERC1155InvalidSender 0)) else accepting w c f t ids vs d b)).
  - unfold moving, accepting, updating, running. rewrite F4. cbn [app checks entitled]. destruct (_ && _); [reflexivity|].
    cbn [somebody app checks]. destruct (t =? 0) eqn:Et; [reflexivity|]. destruct (f =? 0) eqn:Ef; [reflexivity|].
    destruct (checks (paired ids vs) (s_tokens b)) as [m0|]; cbn [reply_to]; [|reflexivity].
    rewrite (each_ext (act f t) (fun id v b => reply_to (taken f id v b) (given t id v))) by (intros id v m; unfold act; rewrite Ef, Et; reflexivity).
    destruct (each _ ids vs m0) as [m|]; cbn [reply_to]; [|reflexivity]. cbn [andb s_tokens].
    destruct (asking w c f t ids vs d m) as [m'|] eqn:As; [|reflexivity]. apply asking_granted in As. rewrite As. reflexivity.
  - apply refuse_first; [intros _; split; [reflexivity|fit]|discriminate|]. intros _.
    apply refuse_first; [intros E; replace t with 0 by lia; split; [reflexivity|fit]|discriminate|]. intros Et.
    apply refuse_first; [intros E; replace f with 0 by lia; split; [reflexivity|fit]|discriminate|]. intros Ef.
    apply accepting_ok; auto; [exact (conj So (conj A F))|]. right. right. lia.
Qed.

(** ** The example *)
Definition exec_of (w : world) (c : Z) (r : request) : M Erc1155.supply_state Erc1155.error unit :=
  match r with
  | Mint t i v d => Erc1155._mint Erc1155.supply (deployed w) (answering (hook1155 w c 0 t [i] [v] d)) c t i v d
  | MintBatch t is vs d => Erc1155._mint_batch Erc1155.supply (deployed w) (answering (hook1155 w c 0 t is vs d)) c t is vs d
  | Burn f i v => Erc1155._burn Erc1155.supply (deployed w) (answering (Erc1155.Failed [])) c f i v
  | BurnBatch f is vs => Erc1155._burn_batch Erc1155.supply (deployed w) (answering (Erc1155.Failed [])) c f is vs
  | Transfer f t i v d => Erc1155.safe_transfer_from Erc1155.supply (deployed w) (answering (hook1155 w c f t [i] [v] d)) c f t i v d
  | TransferBatch f t is vs d => Erc1155.safe_batch_transfer_from Erc1155.supply (deployed w) (answering (hook1155 w c f t is vs d)) c f t is vs d
  | SetApprovalForAll p v => Erc1155.on_base (Erc1155.set_approval_for_all c p v)
  | Pause | Unpause => panic
  end.
Lemma approval_ok c q v s b : fine s b -> is_address c -> is_address q ->
  smeets (Erc1155.on_base (Erc1155.set_approval_for_all c q v) s)
    (match checks (somebody q (ERC1155InvalidOperator 0)) (operates (s_tokens b) c q v) with Granted m => Yes (mkSbook m (s_supply b) (s_total b)) | Denied why => No why end).
Proof.
  intros (So & A & F) Hc Hq. cbn [somebody checks]. destruct (q =? 0) eqn:E.
  - cbn [smeets]. exists (Erc1155.InvalidOperator q). unfold Erc1155.on_base, zoom, Erc1155.set_approval_for_all, Erc1155._set_approval_for_all. mred. rewrite E.
    split; [reflexivity|]. replace q with 0 by lia. split; [reflexivity|fit].
  - destruct (Erc1155.set_approval_for_all c q v (Erc1155.erc1155 s)) as [r e] eqn:X.
    assert (Hx : r = Ok tt).
    { revert X. unfold Erc1155.set_approval_for_all, Erc1155._set_approval_for_all. mred. rewrite E. intros X. inversion X. reflexivity. }
    rewrite Hx in X. assert (Hi := Erc1155_lemmas.inv_set_all _ _ _ _ _ (proj1 (so_tracked _ So)) X).
    eexists. unfold Erc1155.on_base, zoom. rewrite X. split; [reflexivity|].
    apply Erc1155_lemmas.set_all_inv in X. destruct X as [_ ->].
    destruct So as [(T1 & T2 & T3 & T4 & T5) Ky]. destruct A as [[A1 A2 A3] A4 A5]. split; [split|split].
    + split; [exact Hi|]. split; [exact T2|]. split; [exact T3|]. split; [exact T4|exact T5].
    + exact Ky.
    + split; [|exact A4|exact A5]. cbn [s_tokens Erc1155.erc1155]. split; [exact A1| |exact A3].
      intros o p Ho Hp. unfold Erc1155.is_approved_for_all. cbn [operates m_operator Erc1155.operator_approvals]. rewrite getd_set.
      destruct (stdpp.base.decide ((c, q) = (o, p))) as [E2|D].
      * injection E2 as -> ->. rewrite !Z.eqb_refl. reflexivity.
      * destruct (Z.eqb_spec o c); destruct (Z.eqb_spec p q); cbn [andb]; subst; try apply (A2 _ _ Ho Hp). congruence.
    + destruct F as (F1 & F2 & F3 & F4). split; [exact F1|]. split; [exact F2|]. split; [exact F3|exact F4].
Qed.
Lemma step_ok w s b c r : fine s b -> is_address c -> asks r -> smeets (exec_of w c r s) (ideal w c r b).
Proof.
  intros Fi Hc [[Hsz Hr] [Av1 Av2]].
  destruct r as [t i v d|t is vs d|f i v|f is vs|f t i v d|f t is vs d|q v| |]; cbn [exec_of ideal]; unfold request_data in Hsz; cbv beta iota in Hr.
  - destruct Hr as (H1 & H2 & H3 & _). apply minting_ok; auto using one_fits, length_1.
  - destruct Hr as (H1 & H2 & H3 & _). apply minting_ok; try assumption; (eapply list_fits; [|exact Hsz]; cbn; auto).
  - destruct Hr as (H1 & H2 & H3). apply burning_ok; auto using one_fits, length_1.
  - destruct Hr as (H1 & H2 & H3). apply burning_ok; try assumption; (eapply list_fits; [|exact Hsz]; cbn; auto).
  - destruct Hr as (H1 & H2 & H3 & H4 & _). apply (moving_ok w c f t [i] [v] d); auto using one_fits, length_1.
  - destruct Hr as (H1 & H2 & H3 & H4 & _). apply moving_ok; try assumption; (eapply list_fits; [|exact Hsz]; cbn; auto).
  - apply approval_ok; assumption.
  - contradiction Av1. reflexivity.
  - contradiction Av2. reflexivity.
Qed.
Lemma fine_init : fine Erc1155.supply_init new_sbook.
Proof.
  split; [split; [apply Erc1155_lemmas.tracked_init|]|split].
  - intros a id H. exfalso. apply H. unfold Erc1155.balance_of. cbn. rewrite getd_empty, mget_empty. reflexivity.
  - split; [apply (proj1 agrees_init)| |reflexivity]. intros id _. cbn. rewrite mget_empty. reflexivity.
  - split; [apply new_fits|]. split; [intros id; split; [cbn; lia|reflexivity]|]. split; [split; [cbn; lia|reflexivity]|reflexivity].
Qed.
