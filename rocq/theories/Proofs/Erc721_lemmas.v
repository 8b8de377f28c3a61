From Verif.Base Require Import Prelude Maps.
From Verif.Model Require Erc721.
From Verif.Spec Require Import Erc721_spec.
From stdpp Require Import gmap.
Import Erc721.
#[global] Open Scope Z_scope.

(** ** Getters *)
Lemma owner_iff s id a : owner s id a <-> a <> 0 /\ _owner_of id s = a.
Proof.
  unfold owner, owner_of, _require_owned. mred. destruct (Z.eqb_spec (_owner_of id s) 0) as [E|E]; cbn.
  - split; [discriminate|intros [H1 H2]; congruence].
  - split; [intros H; inversion H; subst; auto|intros [_ ->]; reflexivity].
Qed.
Lemma exists_iff s id : exists_token s id <-> _owner_of id s <> 0.
Proof.
  unfold exists_token. split.
  - intros [a H]. apply owner_iff in H. destruct H as [H ->]. exact H.
  - intros H. exists (_owner_of id s). apply owner_iff. auto.
Qed.
Lemma approved_iff s id a : approved s id a <-> _owner_of id s <> 0 /\ _get_approved id s = a.
Proof.
  unfold approved, get_approved, _require_owned. mred. destruct (Z.eqb_spec (_owner_of id s) 0) as [E|E]; cbn.
  - split; [discriminate|intros [H1 H2]; congruence].
  - split; [intros H; inversion H; subst; auto|intros [_ ->]; reflexivity].
Qed.
Lemma balance_iff s a n : balance s a n <-> a <> 0 /\ mget (balances s) a = n.
Proof.
  unfold balance, balance_of. mred. destruct (Z.eqb_spec a 0) as [E|E]; cbn.
  - split; [discriminate|intros [H1 H2]; congruence].
  - split; [intros H; inversion H; subst; auto|intros [_ ->]; reflexivity].
Qed.
Lemma owner_fun s id a b : owner s id a -> owner s id b -> a = b.
Proof. unfold owner. intros H1 H2. rewrite H1 in H2. inversion H2. reflexivity. Qed.

(** ** [_update] in closed form *)
Definition upd_state (to id : Z) (s : state) : state :=
  let from := _owner_of id s in
  let b1 := if from =? 0 then balances s
            else mset (balances s) from (wsub (mget (balances s) from) 1) in
  let b2 := if to =? 0 then b1 else mset b1 to (wadd (mget b1 to) 1) in
  mk (mset (owners s) id to) b2
     (if from =? 0 then token_approvals s else mset (token_approvals s) id 0)
     (operator_approvals s) (log s ++ [Transfer from to id]).

Lemma update_eq to id auth s :
  _update to id auth s =
  if (auth =? 0) || _is_authorized (_owner_of id s) auth id s
  then (Ok (_owner_of id s), upd_state to id s)
  else (Err (if _owner_of id s =? 0 then NonexistentToken id else InsufficientApproval auth id), s).
Proof.
  unfold _update, _check_authorized, _approve, upd_state, emit. mred.
  destruct (auth =? 0) eqn:Ha; cbn [negb orb].
  - cbn [Z.eqb]. destruct (_owner_of id s =? 0) eqn:Ef; cbn [negb]; destruct (to =? 0); reflexivity.
  - destruct (_is_authorized (_owner_of id s) auth id s) eqn:Hok.
    + cbn [Z.eqb]. destruct (_owner_of id s =? 0) eqn:Ef; cbn [negb]; destruct (to =? 0); reflexivity.
    + destruct (_owner_of id s =? 0); reflexivity.
Qed.

Definition appr_state (to id : Z) (s : state) : state :=
  mk (owners s) (balances s) (mset (token_approvals s) id to) (operator_approvals s)
     (log s ++ [Approval (_owner_of id s) to id]).
Definition all_state (o p : Z) (b : bool) (s : state) : state :=
  mk (owners s) (balances s) (token_approvals s) (<[(o, p) := b]> (operator_approvals s))
     (log s ++ [ApprovalForAll o p b]).

Lemma approve_ok caller to id s s' :
  caller <> 0 ->
  approve caller to id s = (Ok tt, s') <->
  (_owner_of id s <> 0 /\ (caller = _owner_of id s \/ is_approved_for_all (_owner_of id s) caller s = true))
  /\ s' = appr_state to id s.
Proof.
  intros Hc. unfold approve, _approve, _require_owned, emit. mred. cbn [orb].
  destruct (Z.eqb_spec (_owner_of id s) 0) as [E|E].
  { split; [discriminate|]. intros [[H _] _]. congruence. }
  replace (caller =? 0) with false by (symmetry; apply Z.eqb_neq; exact Hc). cbn [negb andb].
  destruct (Z.eqb_spec (_owner_of id s) caller) as [E1|E1]; cbn [negb andb].
  - unfold appr_state. split; [intros H; inversion H; auto|intros [_ ->]; reflexivity].
  - destruct (is_approved_for_all (_owner_of id s) caller s) eqn:Ea; cbn [negb].
    + unfold appr_state. split; [intros H; inversion H; auto|intros [_ ->]; reflexivity].
    + split; [discriminate|]. intros [[_ [H|H]] _]; congruence.
Qed.

Lemma set_all_ok caller p b s s' :
  set_approval_for_all caller p b s = (Ok tt, s') <-> p <> 0 /\ s' = all_state caller p b s.
Proof.
  unfold set_approval_for_all, _set_approval_for_all, emit. mred.
  destruct (Z.eqb_spec p 0) as [E|E].
  - split; [discriminate|intros [H _]; congruence].
  - unfold all_state. split; [intros H; inversion H; auto|intros [_ ->]; reflexivity].
Qed.

Lemma transfer_from_ok caller f t id s s' :
  caller <> 0 ->
  transfer_from caller f t id s = (Ok tt, s') <->
  t <> 0 /\ _owner_of id s = f /\ _is_authorized f caller id s = true /\ s' = upd_state t id s.
Proof.
  intros Hc. unfold transfer_from. mred. destruct (Z.eqb_spec t 0) as [E|E].
  { split; [discriminate|intros [H _]; congruence]. }
  rewrite update_eq. replace (caller =? 0) with false by (symmetry; apply Z.eqb_neq; exact Hc). cbn [orb].
  destruct (_is_authorized (_owner_of id s) caller id s) eqn:Ea.
  - destruct (Z.eqb_spec (_owner_of id s) f) as [E1|E1]; cbn [negb].
    + subst f. split; [intros H; inversion H; auto|]. intros (_ & _ & _ & ->). reflexivity.
    + split; [discriminate|]. intros (_ & H & _). congruence.
  - split; [discriminate|]. intros (_ & <- & H & _). congruence.
Qed.
Lemma transfer_ok f t id s s' :
  _transfer f t id s = (Ok tt, s') <->
  t <> 0 /\ f <> 0 /\ _owner_of id s = f /\ s' = upd_state t id s.
Proof.
  unfold _transfer. mred. destruct (Z.eqb_spec t 0) as [E|E].
  { split; [discriminate|intros [H _]; congruence]. }
  rewrite update_eq. cbn [Z.eqb orb].
  destruct (Z.eqb_spec (_owner_of id s) 0) as [E1|E1].
  - split; [discriminate|]. intros (_ & ? & ? & _). congruence.
  - destruct (Z.eqb_spec (_owner_of id s) f) as [E2|E2]; cbn [negb].
    + subst f. split; [intros H; inversion H; auto|]. intros (_ & _ & _ & ->). reflexivity.
    + split; [discriminate|]. intros (_ & _ & H & _). congruence.
Qed.
Lemma mint_ok t id s s' :
  _mint t id s = (Ok tt, s') <-> t <> 0 /\ _owner_of id s = 0 /\ s' = upd_state t id s.
Proof.
  unfold _mint. mred. destruct (Z.eqb_spec t 0) as [E|E].
  { split; [discriminate|intros [H _]; congruence]. }
  rewrite update_eq. cbn [Z.eqb orb].
  destruct (Z.eqb_spec (_owner_of id s) 0) as [E1|E1]; cbn [negb].
  - split; [intros H; inversion H; auto|]. intros (_ & _ & ->). reflexivity.
  - split; [discriminate|]. intros (_ & H & _). congruence.
Qed.
Lemma iburn_ok id s s' :
  _burn id s = (Ok tt, s') <-> _owner_of id s <> 0 /\ s' = upd_state 0 id s.
Proof.
  unfold _burn. mred. rewrite update_eq. cbn [Z.eqb orb].
  destruct (Z.eqb_spec (_owner_of id s) 0) as [E1|E1]; cbn [negb].
  - split; [discriminate|]. intros (H & _). congruence.
  - split; [intros H; inversion H; auto|]. intros (_ & ->). reflexivity.
Qed.
Lemma burn_ok caller id s s' :
  caller <> 0 ->
  burn caller id s = (Ok tt, s') <->
  _is_authorized (_owner_of id s) caller id s = true /\ s' = upd_state 0 id s.
Proof.
  intros Hc. unfold burn. mred. rewrite update_eq.
  replace (caller =? 0) with false by (symmetry; apply Z.eqb_neq; exact Hc). cbn [orb].
  destruct (_is_authorized (_owner_of id s) caller id s) eqn:Ea.
  - split; [intros H; inversion H; auto|]. intros (_ & ->). reflexivity.
  - split; [discriminate|]. intros (H & _). congruence.
Qed.

Section exec.
  Context (has_code : Z -> bool).

  (** The part of a call before its callback, and the callback. *)
  Definition front (caller : Z) (o : op) : MS unit :=
    match o with
    | TransferFrom f t i | SafeTransferFrom f t i _ _ _ => transfer_from caller f t i
    | Approve t i => approve caller t i
    | SetApprovalForAll q b => set_approval_for_all caller q b
    | Burn i => burn caller i
    | IMint t i | ISafeMint t i _ _ _ => _mint t i
    | IBurn i => _burn i
    | ITransfer f t i | ISafeTransfer f t i _ _ _ => _transfer f t i
    end.
  Definition body_of (o : op) : calls :=
    match o with
    | SafeTransferFrom _ _ _ _ body _ | ISafeMint _ _ _ body _ | ISafeTransfer _ _ _ _ body _ => body
    | _ => CNil
    end.

  Lemma check_received_ok {S} (h : handler_on S) op f t id d (s s' : S) :
    _check_on_erc721_received has_code h op f t id d s = (Ok tt, s') <->
    (has_code t = false /\ s' = s) \/
    (has_code t = true /\ h t op f id d s = (Returned RECEIVER_FN_SELECTOR, s')).
  Proof.
    unfold _check_on_erc721_received. destruct (has_code t) eqn:Hc; cbn [negb].
    - mred. destruct (h t op f id d s) as [[v|[|x r]] s1] eqn:Eh.
      + destruct (Z.eqb_spec v RECEIVER_FN_SELECTOR) as [->|E]; cbn [negb].
        * split; [intros H; inversion H; subst; auto|]. intros [[? _]|[_ H]]; [discriminate|]. inversion H. reflexivity.
        * split; [discriminate|]. intros [[? _]|[_ H]]; [discriminate|]. inversion H. congruence.
      + split; [discriminate|]. intros [[? _]|[_ H]]; [discriminate|]. inversion H.
      + split; [discriminate|]. intros [[? _]|[_ H]]; [discriminate|]. inversion H.
    - mred. split; [intros H; inversion H; auto|]. intros [[_ ->]|[? _]]; [reflexivity|discriminate].
  Qed.

  Lemma exec_front caller o s s' :
    exec has_code caller o s = (Ok tt, s') ->
    exists s1, front caller o s = (Ok tt, s1) /\ (s' = s1 \/ s' = run_calls has_code (body_of o) s1).
  Proof.
    destruct o; cbn [exec front body_of]; try (intros H; exists s'; auto; fail).
    all: unfold safe_transfer_from_with_data, _safe_mint, _safe_transfer;
      intros H; apply bind_ok in H; destruct H as ([] & s1 & H1 & H2); exists s1; split; [exact H1|];
      apply check_received_ok in H2; destruct H2 as [[_ ->]|[_ H2]]; [auto|];
      destruct fin; inversion H2; auto.
  Qed.
End exec.

Scheme op_ind' := Induction for op Sort Prop
  with calls_ind' := Induction for calls Sort Prop.
Combined Scheme op_calls_ind from op_ind', calls_ind'.

(** Invariants of call trees: it is enough to look at the parts before callbacks. *)
Section invariants.
  Context (P : state -> Prop) (G : Z -> op -> Prop).
  Hypothesis Hstep : forall c o s s1, G c o -> P s -> front c o s = (Ok tt, s1) -> P s1.
  Context (has_code : Z -> bool).

  Lemma tx_exec_P c o :
    (forall s, calls_nodes G (body_of o) -> P s -> P (run_calls has_code (body_of o) s)) ->
    forall s, G c o -> calls_nodes G (body_of o) -> P s -> P (snd (tx (exec has_code c o) s)).
  Proof.
    intros Hb s Hg Hn HP. unfold tx. destruct (exec has_code c o s) as [[[]|e|] s'] eqn:E; cbn; auto.
    apply exec_front in E. destruct E as (s1 & Hf & [->| ->]).
    - eapply Hstep; eauto.
    - apply Hb; [exact Hn|]. eapply Hstep; eauto.
  Qed.
  Lemma op_nodes_body c o : op_nodes G c o -> G c o /\ calls_nodes G (body_of o).
  Proof. destruct o; cbn [op_nodes body_of]; intros [H1 H2]; split; assumption. Qed.

  Lemma calls_P cs s : calls_nodes G cs -> P s -> P (run_calls has_code cs s).
  Proof.
    revert s. pattern cs. revert cs.
    cut ((forall o, (forall s, calls_nodes G (body_of o) -> P s -> P (run_calls has_code (body_of o) s)))
         /\ (forall cs s, calls_nodes G cs -> P s -> P (run_calls has_code cs s))).
    { intros [_ H]. exact H. }
    apply op_calls_ind; intros; cbn [body_of] in *; try (cbn; assumption); try (apply H; assumption).
    cbn [calls_nodes] in H1. destruct H1 as [H1 H1']. apply op_nodes_body in H1. destruct H1 as [Hg Hb].
    change (P (run_calls has_code cs (snd (tx (exec has_code caller o) s)))).
    apply H0; [exact H1'|]. apply tx_exec_P; assumption.
  Qed.
  Lemma run_P l s : nodes G l -> P s -> P (run has_code l s).
  Proof. apply calls_P. Qed.
End invariants.

(** The three primitive state changes. *)
Lemma front_prim c o s s1 :
  node_wf c o -> front c o s = (Ok tt, s1) ->
  (exists t i, is_u256 i /\ s1 = upd_state t i s) \/
  (exists t i, _owner_of i s <> 0 /\ s1 = appr_state t i s) \/
  (exists p b, s1 = all_state c p b s).
Proof.
  intros [Hc Hi] H. destruct o; cbn [front op_id] in *.
  - apply transfer_from_ok in H; [|exact Hc]. left. exists to, token_id. tauto.
  - apply transfer_from_ok in H; [|exact Hc]. left. exists to, token_id. tauto.
  - apply approve_ok in H; [|exact Hc]. right. left. exists to, token_id. tauto.
  - apply set_all_ok in H. right. right. exists operator, approved. tauto.
  - apply burn_ok in H; [|exact Hc]. left. exists 0, token_id. tauto.
  - apply mint_ok in H. left. exists to, token_id. tauto.
  - apply mint_ok in H. left. exists to, token_id. tauto.
  - apply iburn_ok in H. left. exists 0, token_id. tauto.
  - apply transfer_ok in H. left. exists to, token_id. tauto.
  - apply transfer_ok in H. left. exists to, token_id. tauto.
Qed.

(** ** The invariant of reachable states *)
Record Inv (s : state) : Prop := mkInv {
  inv_ids : forall id, _owner_of id s <> 0 -> is_u256 id;
  inv_count : forall a, a <> 0 -> exists l : list Z,
    NoDup l /\ (forall id, id ∈ l <-> _owner_of id s = a) /\
    mget (balances s) a = Z.of_nat (length l) mod two256;
  inv_appr : forall id, _owner_of id s = 0 -> _get_approved id s = 0;
  inv_op0 : forall p, is_approved_for_all 0 p s = false;
  inv_log_owner : forall id, _owner_of id s = log_owner (log s) id 0;
  inv_log_appr : forall id, _get_approved id s = log_approved (log s) id 0;
  inv_log_op : forall o p, is_approved_for_all o p s = log_operator (log s) o p false
}.

Lemma log_owner_app l1 l2 id acc : log_owner (l1 ++ l2) id acc = log_owner l2 id (log_owner l1 id acc).
Proof. revert acc. induction l1 as [|[] l1 IH]; intros; cbn; auto. Qed.
Lemma log_approved_app l1 l2 id acc :
  log_approved (l1 ++ l2) id acc = log_approved l2 id (log_approved l1 id acc).
Proof. revert acc. induction l1 as [|[] l1 IH]; intros; cbn; auto. Qed.
Lemma log_operator_app l1 l2 o p acc :
  log_operator (l1 ++ l2) o p acc = log_operator l2 o p (log_operator l1 o p acc).
Proof. revert acc. induction l1 as [|[] l1 IH]; intros; cbn; auto. Qed.

Lemma inv_init : Inv init.
Proof.
  split; unfold _owner_of, _get_approved, is_approved_for_all; cbn; intros;
    rewrite ?mget_empty, ?getd_empty in *; try reflexivity; try congruence.
  exists []. split; [constructor|]. split; [|reflexivity]. intros id. rewrite mget_empty.
  split; [intros Hin; inversion Hin|intros; congruence].
Qed.

Lemma owner_upd to id s i : _owner_of i (upd_state to id s) = if decide (id = i) then to else _owner_of i s.
Proof. unfold _owner_of, upd_state; cbn. apply mget_set. Qed.
Lemma approved_upd to id s i :
  (_owner_of i s = 0 -> _get_approved i s = 0) ->
  _get_approved i (upd_state to id s) = if decide (id = i) then 0 else _get_approved i s.
Proof.
  intros H. unfold _get_approved, upd_state in *; cbn. destruct (Z.eqb_spec (_owner_of id s) 0).
  - destruct (decide (id = i)) as [<-|]; auto.
  - rewrite mget_set. reflexivity.
Qed.

(** Balances after an update, up to wrap-around. *)
Lemma balances_upd to id s a :
  a <> 0 ->
  mget (balances (upd_state to id s)) a mod two256 = (mget (balances s) a - (if _owner_of id s =? a then 1 else 0)
                  + (if to =? a then 1 else 0)) mod two256.
Proof.
  intros Ha. unfold upd_state; cbn.
  pose proof two256_pos.
  destruct (Z.eqb_spec (_owner_of id s) 0) as [E|E]; destruct (Z.eqb_spec to 0) as [Et|Et].
  - rewrite (proj2 (Z.eqb_neq (_owner_of id s) a)) by congruence.
    rewrite (proj2 (Z.eqb_neq to a)) by congruence. f_equal. lia.
  - rewrite (proj2 (Z.eqb_neq (_owner_of id s) a)) by congruence. rewrite mget_set.
    destruct (Z.eqb_spec to a); destruct (decide (to = a)); try congruence.
    + subst. unfold wadd. rewrite Z.mod_mod by lia. f_equal. lia.
    + f_equal. lia.
  - rewrite mget_set. rewrite (proj2 (Z.eqb_neq to a)) by congruence.
    destruct (Z.eqb_spec (_owner_of id s) a) as [E1|E1]; destruct (decide (_owner_of id s = a)); try congruence.
    + rewrite E1. unfold wsub. rewrite Z.mod_mod by lia. f_equal. lia.
    + f_equal. lia.
  - rewrite mget_set. destruct (Z.eqb_spec to a) as [E2|E2]; destruct (decide (to = a)); try congruence.
    + subst to. rewrite mget_set. destruct (Z.eqb_spec (_owner_of id s) a) as [E1|E1];
        destruct (decide (_owner_of id s = a)); try congruence.
      * rewrite E1. unfold wadd, wsub. rewrite Z.mod_mod by lia. rewrite Z.add_mod_idemp_l by lia. reflexivity.
      * unfold wadd. rewrite Z.mod_mod by lia. f_equal. lia.
    + rewrite mget_set. destruct (Z.eqb_spec (_owner_of id s) a) as [E1|E1];
        destruct (decide (_owner_of id s = a)); try congruence.
      * rewrite E1. unfold wsub. rewrite Z.mod_mod by lia. f_equal. lia.
      * f_equal. lia.
Qed.
Lemma balances_upd_range to id s a :
  is_u256 (mget (balances s) a) -> is_u256 (mget (balances (upd_state to id s)) a).
Proof.
  intros H. unfold upd_state; cbn. case_all; rewrite ?mget_set; case_all; auto;
    try apply wadd_range; apply wsub_range.
Qed.

(** The list of tokens of [a] after token [id] changes from [f] to [t]. *)
Lemma list_upd (l : list Z) (own : Z -> Z) id t a :
  NoDup l -> (forall i, i ∈ l <-> own i = a) ->
  exists l' : list Z, NoDup l' /\
    (forall i, i ∈ l' <-> (if decide (id = i) then t else own i) = a) /\
    Z.of_nat (length l') =
    Z.of_nat (length l) - (if own id =? a then 1 else 0) + (if t =? a then 1 else 0).
Proof.
  intros Hn Hl.
  assert (Hrem : exists l1 : list Z, NoDup l1 /\ (forall i, i ∈ l1 <-> id <> i /\ own i = a) /\
            Z.of_nat (length l1) = Z.of_nat (length l) - (if own id =? a then 1 else 0)).
  { destruct (Z.eqb_spec (own id) a) as [E|E].
    - apply Hl in E. apply elem_of_Permutation in E. destruct E as [l1 Hp]. exists l1.
      pose proof Hn as Hn'. rewrite Hp in Hn'. apply NoDup_cons in Hn'. destruct Hn' as [Hni Hn1].
      split; [exact Hn1|]. split.
      + intros i. split.
        * intros Hi. split; [intros ->; contradiction|]. apply Hl. rewrite Hp. right. exact Hi.
        * intros [Hne Hi]. apply Hl in Hi. rewrite Hp in Hi. apply elem_of_cons in Hi.
          destruct Hi as [->|Hi]; [congruence|exact Hi].
      + rewrite Hp. cbn [length]. lia.
    - exists l. split; [exact Hn|]. split; [|lia]. intros i. rewrite Hl. split; [|tauto].
      intros Hi. split; [|exact Hi]. intros ->. contradiction. }
  destruct Hrem as (l1 & Hn1 & Hl1 & Hlen). destruct (Z.eqb_spec t a) as [E|E].
  - exists (id :: l1). split.
    + constructor; [|exact Hn1]. intros Hi. apply Hl1 in Hi. destruct Hi; congruence.
    + split; [|cbn [length]; lia]. intros i. rewrite elem_of_cons, Hl1.
      destruct (decide (id = i)) as [->|Hne]; [tauto|]. split; [intros [->|[_ H]]; congruence|tauto].
  - exists l1. split; [exact Hn1|]. split; [|lia]. intros i. rewrite Hl1.
    destruct (decide (id = i)) as [->|Hne]; [|tauto]. split; [intros [? _]; congruence|congruence].
Qed.

Lemma inv_upd to id s : is_u256 id -> Inv s -> Inv (upd_state to id s).
Proof.
  intros Hid HI. split.
  - intros i. rewrite owner_upd. destruct (decide (id = i)) as [<-|]; auto. apply (inv_ids s HI).
  - intros a Ha. destruct (inv_count s HI a Ha) as (l & Hn & Hl & Hb).
    destruct (list_upd l (fun i => _owner_of i s) id to a Hn Hl) as (l' & Hn' & Hl' & Hlen).
    exists l'. split; [exact Hn'|]. split; [intros i; rewrite owner_upd; apply Hl'|].
    pose proof (balances_upd to id s a Ha) as E.
    pose proof two256_pos.
    assert (R : is_u256 (mget (balances (upd_state to id s)) a)).
    { apply balances_upd_range. rewrite Hb. unfold is_u256. apply Z.mod_pos_bound. lia. }
    rewrite <- (Z.mod_small _ _ R). rewrite E, Hlen, Hb.
    rewrite <- (Z.add_mod_idemp_l (_ - _)) by lia. rewrite Zminus_mod_idemp_l.
    rewrite Z.add_mod_idemp_l by lia. reflexivity.
  - intros i. rewrite owner_upd, (approved_upd to id s i (inv_appr s HI i)).
    destruct (decide (id = i)); auto. apply (inv_appr s HI).
  - apply (inv_op0 s HI).
  - intros i. rewrite owner_upd. unfold upd_state; cbn. rewrite log_owner_app. cbn.
    rewrite <- (inv_log_owner s HI). destruct (Z.eqb_spec id i); destruct (decide (id = i)); congruence.
  - intros i. rewrite (approved_upd to id s i (inv_appr s HI i)). unfold upd_state; cbn. rewrite log_approved_app. cbn.
    rewrite <- (inv_log_appr s HI). destruct (Z.eqb_spec id i); destruct (decide (id = i)); congruence.
  - intros o p. unfold upd_state, is_approved_for_all; cbn. rewrite log_operator_app. cbn.
    apply (inv_log_op s HI).
Qed.
Lemma inv_appr_state to id s : _owner_of id s <> 0 -> Inv s -> Inv (appr_state to id s).
Proof.
  intros Hid HI. split.
  - apply (inv_ids s HI).
  - apply (inv_count s HI).
  - intros i Hi. unfold _get_approved, appr_state; cbn. rewrite mget_set.
    destruct (decide (id = i)) as [->|]; [contradiction|]. apply (inv_appr s HI i Hi).
  - apply (inv_op0 s HI).
  - intros i. unfold appr_state; cbn. rewrite log_owner_app. cbn. apply (inv_log_owner s HI).
  - intros i. unfold appr_state, _get_approved; cbn. rewrite log_approved_app. cbn. rewrite mget_set.
    rewrite <- (inv_log_appr s HI). unfold _get_approved. destruct (Z.eqb_spec id i); destruct (decide (id = i)); congruence.
  - intros o p. unfold appr_state, is_approved_for_all; cbn. rewrite log_operator_app. cbn.
    apply (inv_log_op s HI).
Qed.
Lemma inv_all_state o p b s : o <> 0 -> Inv s -> Inv (all_state o p b s).
Proof.
  intros Ho HI. split.
  - apply (inv_ids s HI).
  - apply (inv_count s HI).
  - apply (inv_appr s HI).
  - intros q. unfold is_approved_for_all, all_state; cbn. rewrite getd_set.
    destruct (decide ((o, p) = (0, q))) as [E|]; [congruence|]. apply (inv_op0 s HI).
  - intros i. unfold all_state; cbn. rewrite log_owner_app. cbn. apply (inv_log_owner s HI).
  - intros i. unfold all_state, _get_approved; cbn. rewrite log_approved_app. cbn. apply (inv_log_appr s HI).
  - intros o' p'. unfold all_state, is_approved_for_all; cbn. rewrite log_operator_app. cbn. rewrite getd_set.
    rewrite <- (inv_log_op s HI). unfold is_approved_for_all.
    destruct (Z.eqb_spec o o'); destruct (Z.eqb_spec p p'); cbn [andb];
      destruct (decide ((o, p) = (o', p'))); congruence.
Qed.

Lemma inv_front c o s s1 : node_wf c o -> Inv s -> front c o s = (Ok tt, s1) -> Inv s1.
Proof.
  intros Hw HI H. destruct (front_prim c o s s1 Hw H) as [(t & i & Hi & ->)|[(t & i & Hi & ->)|(p & b & ->)]].
  - apply inv_upd; assumption.
  - apply inv_appr_state; assumption.
  - apply inv_all_state; [apply Hw|assumption].
Qed.
Lemma inv_run has_code l s : well_formed l -> Inv s -> Inv (run has_code l s).
Proof. intros Hw. apply (run_P Inv node_wf); [|exact Hw]. intros. eapply inv_front; eauto. Qed.
Lemma reachable_inv s : reachable s -> Inv s.
Proof. intros (hc & l & Hw & ->). apply inv_run; [exact Hw|apply inv_init]. Qed.

Lemma truthful_ext l own own' : (forall i, own i = own' i) -> truthful l own <-> truthful l own'.
Proof.
  revert own own'. induction l as [|[] l IH]; intros own own' E; cbn; [tauto|..].
  - rewrite (E token_id). rewrite (IH _ (fun j => if token_id =? j then to else own' j)); [tauto|].
    intros i. destruct (token_id =? i); auto.
  - rewrite (E token_id). rewrite (IH _ own' E). tauto.
  - apply IH. exact E.
Qed.
Lemma truthful_app l1 l2 own :
  truthful (l1 ++ l2) own <-> truthful l1 own /\ truthful l2 (fun i => log_owner l1 i (own i)).
Proof.
  revert own. induction l1 as [|[] l1 IH]; intros own; cbn.
  - tauto.
  - rewrite IH. tauto.
  - rewrite IH. tauto.
  - rewrite IH. tauto.
Qed.
Lemma truthful_run has_code l s :
  well_formed l -> Inv s -> truthful (log s) (fun _ => 0) -> truthful (log (run has_code l s)) (fun _ => 0).
Proof.
  intros Hw HI HT.
  apply (run_P (fun s => Inv s /\ truthful (log s) (fun _ => 0)) node_wf); [|exact Hw|auto].
  clear. intros c o s s1 Hw [HI HT] H. split; [eapply inv_front; eauto|].
  destruct (front_prim c o s s1 Hw H) as [(t & i & Hi & ->)|[(t & i & Hi & ->)|(p & b & ->)]];
    cbn; apply truthful_app; (split; [exact HT|]); cbn; rewrite <- ?(inv_log_owner s HI); auto.
Qed.

(** Pigeonhole for ids. *)
Lemma ids_bound (l : list Z) : NoDup l -> (forall i, i ∈ l -> is_u256 i) -> Z.of_nat (length l) <= two256.
Proof.
  intros Hn Hu. pose proof two256_pos.
  assert (Hs : l ⊆+ seqZ 0 two256).
  { apply NoDup_submseteq; [exact Hn|]. intros i Hi. apply elem_of_seqZ. apply Hu in Hi. unfold is_u256 in Hi. lia. }
  apply submseteq_length in Hs. rewrite seqZ_length in Hs. lia.
Qed.
Lemma ids_bound_strict (l : list Z) j :
  NoDup l -> (forall i, i ∈ l -> is_u256 i) -> is_u256 j -> j ∉ l -> Z.of_nat (length l) < two256.
Proof.
  intros Hn Hu Hj Hnj. assert (H : Z.of_nat (length (j :: l)) <= two256).
  { apply ids_bound; [constructor; assumption|]. intros i Hi. apply elem_of_cons in Hi.
    destruct Hi as [->|Hi]; auto. }
  cbn [length] in H. lia.
Qed.

Lemma inv_exact s a j :
  Inv s -> a <> 0 -> is_u256 j -> _owner_of j s <> a ->
  exists l : list Z, NoDup l /\ (forall id, id ∈ l <-> _owner_of id s = a) /\
    mget (balances s) a = Z.of_nat (length l) /\ Z.of_nat (length l) < two256.
Proof.
  intros HI Ha Hj Hnj. destruct (inv_count s HI a Ha) as (l & Hn & Hl & Hb).
  exists l. split; [exact Hn|]. split; [exact Hl|].
  assert (B : Z.of_nat (length l) < two256).
  { apply (ids_bound_strict l j); auto.
    - intros i Hi. apply (inv_ids s HI). apply Hl in Hi. congruence.
    - rewrite Hl. exact Hnj. }
  split; [|exact B]. rewrite Hb. apply Z.mod_small. lia.
Qed.
Lemma auth_iff s o c id :
  Inv s -> c <> 0 -> _owner_of id s = o ->
  _is_authorized o c id s = true <-> o <> 0 /\ may_move s id o c.
Proof.
  intros HI Hc Ho. unfold _is_authorized, may_move, Erc721_spec.operator.
  rewrite (proj2 (Z.eqb_neq c 0) Hc). cbn [negb andb]. rewrite approved_iff, Ho.
  rewrite !orb_true_iff, !Z.eqb_eq. split.
  - intros H. assert (o <> 0).
    { intros E. subst o. destruct H as [[H|H]|H].
      - congruence.
      - rewrite E in H. rewrite (inv_op0 s HI) in H. discriminate.
      - rewrite (inv_appr s HI id E) in H. congruence. }
    split; [assumption|]. intuition.
  - intros [H1 [H|[H|[_ H]]]]; auto.
Qed.
