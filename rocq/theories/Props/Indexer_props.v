(** C77, second part: ledgers kept from raw logs agree with the contracts. *)
From Verif.Base Require Import Prelude Maps Bytes Keccak.
From Verif.Model Require Erc20 Erc721 Erc1155 AccessControl.
From Verif.Model Require Import SolAbi.
From Verif.Spec Require Erc20_spec Erc721_spec Erc1155_spec Access_spec.
From Verif.Spec Require Import SolAbi_spec LogMeaning_spec.
From Verif.Proofs Require Import SolAbi_lemmas.
From Verif.Proofs Require Erc20_inv Erc20_hist Erc721_lemmas Erc1155_lemmas.
From Verif.Props Require Import SolAbi_props.
From Verif.Props Require Erc20_props Erc721_props Erc1155_props Access_props.
From stdpp Require Import gmap.
#[global] Open Scope Z_scope.
Local Open Scope Z_scope.
Opaque keccak256.

Lemma read_logs_ok {E} (log : E -> raw_log) (means : E -> decoded) (l : list E) :
  (forall e, fits (means e) -> read_log (log e) = Some (means e)) ->
  List.Forall (fun e => fits (means e)) l -> read_logs (map log l) = map means l.
Proof.
  intros Hok H. induction H as [|e l He _ IH]; [reflexivity|].
  unfold read_logs in *. cbn [map flat_map]. rewrite Hok by exact He. cbn [app]. f_equal. exact IH.
Qed.
Lemma u256_0 : is_u256 0. Proof. split; [lia|reflexivity]. Qed.
Lemma Forall_snoc {A} (P : A -> Prop) l x : List.Forall P l -> P x -> List.Forall P (l ++ [x]).
Proof. intros. apply List.Forall_app. split; [assumption|]. constructor; [assumption|constructor]. Qed.

(** ** ERC-20 *)
Definition fit20 (s : Erc20.state) : Prop := List.Forall (fun e => fits (means_erc20 e)) (Erc20.log s).
Lemma fit20_update f t v s s' :
  is_u256 f -> is_u256 t -> is_u256 v -> fit20 s -> Erc20._update f t v s = (Ok tt, s') -> fit20 s'.
Proof.
  unfold Erc20._update, fit20. intros Hf Ht Hv Hs. mred. intros H.
  repeat match type of H with context [if ?b then _ else _] => destruct b end; inversion H; subst; cbn;
    apply Forall_snoc; cbn; auto.
Qed.
Lemma fit20_spend o sp v s s' : fit20 s -> Erc20._spend_allowance o sp v s = (Ok tt, s') -> fit20 s'.
Proof.
  unfold Erc20._spend_allowance, Erc20._approve, fit20. intros Hs. mred. intros H.
  repeat match type of H with context [if ?b then _ else _] => destruct b end; inversion H; subst; cbn; auto.
Qed.
Lemma guard_ok {S E A} b (e : E) (m : M S E A) s r s' : (fail_if b e ;;; m) s = (Ok r, s') -> m s = (Ok r, s').
Proof. mred. destruct b; [discriminate|auto]. Qed.
Lemma fit20_exec c o s s' : calldata_erc20 c o -> fit20 s -> Erc20.exec c o s = (Ok tt, s') -> fit20 s'.
Proof.
  pose proof u256_0 as U0.
  intros [Hc Ho] Hs. destruct o; cbn [calldata_erc20 Erc20.exec] in *;
    unfold Erc20.ignore, Erc20.transfer, Erc20.transfer_from, Erc20.burn, Erc20.burn_from, Erc20._transfer, Erc20._mint, Erc20._burn;
    intros H.
  - apply bind_ok in H. destruct H as (b & s1 & H & E). inversion E; subst; clear E.
    apply bind_ok in H. destruct H as (u & s2 & H & E). inversion E; subst; clear E. destruct u.
    apply guard_ok, guard_ok in H. eapply fit20_update; [..|exact H]; tauto.
  - unfold Erc20.approve, Erc20._approve in H. mred_in H.
    repeat match type of H with context [if ?b then _ else _] => destruct b end; inversion H; subst; cbn.
    apply Forall_snoc; [exact Hs|]. cbn. tauto.
  - apply bind_ok in H. destruct H as (b & s1 & H & E). inversion E; subst; clear E.
    apply bind_ok in H. destruct H as ([] & s2 & H1 & H). apply bind_ok in H. destruct H as ([] & s3 & H & E). inversion E; subst; clear E.
    apply guard_ok, guard_ok in H. apply fit20_spend in H1; [|exact Hs]. eapply fit20_update; [..|exact H]; tauto.
  - apply guard_ok in H. eapply fit20_update; [..|exact H]; tauto.
  - apply bind_ok in H. destruct H as ([] & s2 & H1 & H). apply guard_ok in H. apply fit20_spend in H1; [|exact Hs].
    eapply fit20_update; [..|exact H]; tauto.
  - apply guard_ok in H. eapply fit20_update; [..|exact H]; tauto.
  - apply guard_ok in H. eapply fit20_update; [..|exact H]; tauto.
  - eapply fit20_update; [..|exact H]; tauto.
  - eapply fit20_spend; eauto.
Qed.
Lemma fit20_run h s : List.Forall (fun co => calldata_erc20 (fst co) (snd co)) h -> fit20 s -> fit20 (Erc20.run h s).
Proof.
  intros Hh. revert s. induction Hh as [|[c o] h Ho _ IH]; intros s Hs; [exact Hs|]. cbn. apply IH.
  unfold Erc20.step, tx. cbn [fst snd] in *. destruct (Erc20.exec c o s) as [[[]| |] s'] eqn:E; cbn; auto. eapply fit20_exec; eauto.
Qed.
Lemma calldata_erc20_wf h : List.Forall (fun co => calldata_erc20 (fst co) (snd co)) h -> Erc20.hist_wf h.
Proof.
  unfold Erc20.hist_wf. intros H. eapply List.Forall_impl; [|exact H]. intros [c o] [_ Ho]. cbn [fst snd] in *.
  destruct o; unfold Erc20.op_wf; cbn [Erc20.op_value]; tauto.
Qed.
Lemma indexed_balance_means a l : indexed_balance a (map means_erc20 l) = Erc20_spec.sum_events (Erc20_spec.event_balance a) l.
Proof.
  induction l as [|e l IH]; [reflexivity|]. destruct e; cbn [map means_erc20 indexed_balance Erc20_spec.sum_events Erc20_spec.event_balance]; rewrite IH; unfold Erc20_spec.delta;
    rewrite ?(Z.eqb_sym a); lia.
Qed.
Lemma indexed_supply_means l : indexed_supply (map means_erc20 l) = Erc20_spec.sum_events Erc20_spec.event_supply l.
Proof.
  induction l as [|e l IH]; [reflexivity|]. destruct e; cbn [map means_erc20 indexed_supply Erc20_spec.sum_events Erc20_spec.event_supply]; rewrite IH; unfold Erc20_spec.delta; lia.
Qed.

(** An indexer that sees only the raw logs (topics and data) of an ERC-20 token and knows only
    the standard ABI computes every balance and the supply. *)
Theorem c77_erc20_indexer :
  forall h, List.Forall (fun co => calldata_erc20 (fst co) (snd co)) h ->
  let s := Erc20.run h Erc20.init in
  let seen := read_logs (map log_erc20 (Erc20.log s)) in
  length seen = length (Erc20.log s) /\
  (forall a, a <> 0 -> indexed_balance a seen = Erc20.balance_of s a) /\
  indexed_supply seen = Erc20.total_supply s.
Proof.
  intros h Hh s seen. assert (E : seen = map means_erc20 (Erc20.log s)).
  { apply read_logs_ok; [exact log_erc20_ok|]. apply fit20_run; [exact Hh|constructor]. }
  rewrite E. rewrite map_length. split; [reflexivity|].
  pose proof (Erc20_props.c04_events_are_a_complete_ledger h (calldata_erc20_wf h Hh)) as H. cbv zeta in H. destruct H as (H1 & H2 & _).
  split.
  - intros a Ha. rewrite indexed_balance_means. symmetry. apply H1, Ha.
  - rewrite indexed_supply_means. symmetry. exact H2.
Qed.
Print Assumptions c77_erc20_indexer.

(** ** ERC-721 *)
Definition fit721 (s : Erc721.state) : Prop :=
  List.Forall (fun e => fits (means_erc721 e)) (Erc721.log s) /\ forall i, is_u256 (Erc721._owner_of i s).
Lemma owner_upd t i s j : Erc721._owner_of j (Erc721_lemmas.upd_state t i s) = if decide (i = j) then t else Erc721._owner_of j s.
Proof. unfold Erc721._owner_of, Erc721_lemmas.upd_state. cbn. apply mget_set. Qed.
Lemma fit721_upd t i s : is_u256 t -> is_u256 i -> fit721 s -> fit721 (Erc721_lemmas.upd_state t i s).
Proof.
  intros Ht Hi [H1 H2]. split.
  - unfold Erc721_lemmas.upd_state. cbn [Erc721.log]. apply Forall_snoc; [exact H1|]. cbn. auto.
  - intros j. rewrite owner_upd. destruct (decide _); auto.
Qed.
Lemma fit721_front c o s s1 : calldata_erc721 c o -> fit721 s -> Erc721_lemmas.front c o s = (Ok tt, s1) -> fit721 s1.
Proof.
  pose proof u256_0 as U0. intros (Hc & Hcu & Ho) Hs H.
  assert (A : forall t i, is_u256 t -> is_u256 i -> s1 = Erc721_lemmas.upd_state t i s -> fit721 s1).
  { intros t i Ht Hi ->. apply fit721_upd; assumption. }
  destruct o; cbn [Erc721_lemmas.front] in *.
  - apply Erc721_lemmas.transfer_from_ok in H; [|exact Hc]. apply (A to token_id); tauto.
  - apply Erc721_lemmas.transfer_from_ok in H; [|exact Hc]. apply (A to token_id); tauto.
  - apply Erc721_lemmas.approve_ok in H; [|exact Hc]. destruct H as [H ->]. destruct Hs as [H1 H2]. split; [|exact H2].
    apply Forall_snoc; [exact H1|]. cbn. split; [apply H2|exact Ho].
  - apply Erc721_lemmas.set_all_ok in H. destruct H as [H ->]. destruct Hs as [H1 H2]. split; [|exact H2].
    apply Forall_snoc; [exact H1|]. cbn. auto.
  - apply Erc721_lemmas.burn_ok in H; [|exact Hc]. apply (A 0 token_id); tauto.
  - apply Erc721_lemmas.mint_ok in H. apply (A to token_id); tauto.
  - apply Erc721_lemmas.mint_ok in H. apply (A to token_id); tauto.
  - apply Erc721_lemmas.iburn_ok in H. apply (A 0 token_id); tauto.
  - apply Erc721_lemmas.transfer_ok in H. apply (A to token_id); tauto.
  - apply Erc721_lemmas.transfer_ok in H. apply (A to token_id); tauto.
Qed.
Lemma calldata_node721 c o : calldata_erc721 c o -> Erc721_spec.node_wf c o.
Proof. intros (H1 & _ & H2). split; [exact H1|]. pose proof u256_0. destruct o; cbn [Erc721_spec.op_id] in *; tauto. Qed.
Lemma indexed_owner_means id acc l : indexed_owner id acc (map means_erc721 l) = Erc721_spec.log_owner l id acc.
Proof. revert acc. induction l as [|[] l IH]; intros; cbn [map means_erc721 indexed_owner Erc721_spec.log_owner]; auto. Qed.
Lemma indexed_approved_means id acc l : indexed_approved id acc (map means_erc721 l) = Erc721_spec.log_approved l id acc.
Proof. revert acc. induction l as [|[] l IH]; intros; cbn [map means_erc721 indexed_approved Erc721_spec.log_approved]; auto. Qed.
Lemma indexed_operator_means721 o p acc l : indexed_operator o p acc (map means_erc721 l) = Erc721_spec.log_operator l o p acc.
Proof. revert acc. induction l as [|[] l IH]; intros; cbn [map means_erc721 indexed_operator Erc721_spec.log_operator]; auto. Qed.

(** The same for an ERC-721 token, with receivers that call back during safe transfers. *)
Theorem c77_erc721_indexer :
  forall has_code h, Erc721_spec.nodes calldata_erc721 h ->
  let s := Erc721.run has_code h Erc721.init in
  let seen := read_logs (map log_erc721 (Erc721.log s)) in
  length seen = length (Erc721.log s) /\
  (forall id a, Erc721_spec.owner s id a <-> a <> 0 /\ indexed_owner id 0 seen = a) /\
  (forall id a, Erc721_spec.approved s id a <-> indexed_owner id 0 seen <> 0 /\ indexed_approved id 0 seen = a) /\
  (forall o p, indexed_operator o p false seen = Erc721.is_approved_for_all o p s).
Proof.
  intros hc h Hh s seen.
  assert (Hs : Erc721_lemmas.Inv s /\ fit721 s).
  { apply (Erc721_lemmas.run_P (fun s => Erc721_lemmas.Inv s /\ fit721 s) calldata_erc721); [|exact Hh|].
    - intros c o t t1 Hco [HI HF] H. split; [eapply Erc721_lemmas.inv_front; eauto using calldata_node721|eapply fit721_front; eauto].
    - split; [apply Erc721_lemmas.inv_init|]. split; [constructor|]. intros i. unfold Erc721._owner_of. cbn. rewrite mget_empty. apply u256_0. }
  destruct Hs as [HI [HF _]].
  assert (E : seen = map means_erc721 (Erc721.log s)) by (apply read_logs_ok; [exact log_erc721_ok|exact HF]).
  rewrite E, map_length. split; [reflexivity|]. split; [|split].
  - intros id a. rewrite Erc721_lemmas.owner_iff, (Erc721_lemmas.inv_log_owner s HI), indexed_owner_means. tauto.
  - intros id a. rewrite Erc721_lemmas.approved_iff, (Erc721_lemmas.inv_log_owner s HI), (Erc721_lemmas.inv_log_appr s HI), indexed_owner_means,
      indexed_approved_means. tauto.
  - intros o p. rewrite indexed_operator_means721. symmetry. apply (Erc721_lemmas.inv_log_op s HI).
Qed.
Print Assumptions c77_erc721_indexer.

(** ** ERC-1155 *)
Definition fit1155 (s : Erc1155.state) : Prop := List.Forall (fun e => fits (means_erc1155 e)) (Erc1155.log s).
Lemma calldata_move c o :
  calldata_erc1155 c o ->
  match Erc1155_spec.op_move o with
  | Some (f, t, is, vs) => is_u256 f /\ is_u256 t /\ calldata_batch is vs
  | None => True
  end.
Proof.
  pose proof u256_0 as U0. assert (S1 : forall x : Z, short [x]) by (intros; reflexivity).
  assert (B : forall i v, is_u256 i -> is_u256 v -> calldata_batch [i] [v]).
  { intros i v Hi Hv. split; [constructor; auto|]. split; [constructor; auto|]. auto. }
  intros (_ & _ & H). destruct o; cbn [Erc1155_spec.op_move] in *; auto; try tauto.
  - destruct H as (? & ? & ? & ?). auto.
  - destruct H as (? & ? & ?). auto.
  - destruct H as (? & ? & ?). auto.
  - destruct H as (? & ? & ?). auto.
Qed.
Lemma fits_update_event c f t is vs :
  is_u256 c -> is_u256 f -> is_u256 t -> calldata_batch is vs -> fits (means_erc1155 (Erc1155_lemmas.update_event c f t is vs)).
Proof.
  intros Hc Hf Ht (Hi & Hv & Si & Sv). assert (S1 : forall x : Z, short [x]) by (intros; reflexivity).
  assert (B : fits (MultiTransfer c f t is vs)) by (cbn; auto 10).
  unfold Erc1155_lemmas.update_event. destruct is as [|i [|]]; destruct vs as [|v vs]; try exact B.
  inversion Hi; inversion Hv; subst.
  assert (B1 : fits (MultiTransfer c f t [i] [v])) by (cbn; repeat match goal with |- _ /\ _ => split end; auto).
  exact B1.
Qed.
Lemma calldata_node1155 c o : calldata_erc1155 c o -> Erc1155_spec.node_wf c o.
Proof.
  intros H. split; [apply H|]. apply calldata_move in H. destruct (Erc1155_spec.op_move o) as [[[[f t] is] vs]|]; [|exact I].
  destruct H as (_ & _ & _ & H & _). exact H.
Qed.
Lemma fit1155_front c o s s1 :
  calldata_erc1155 c o -> Erc1155_lemmas.Inv s -> fit1155 s -> Erc1155_lemmas.front Erc1155.base c o s = (Ok tt, s1) -> fit1155 s1.
Proof.
  intros Hco HI HF H. pose proof (calldata_move c o Hco) as Hm. apply Erc1155_lemmas.front_base in H.
  destruct (Erc1155_spec.op_move o) as [[[[f t] is] vs]|].
  - destruct H as (H & _). destruct Hm as (Hf & Ht & Hb). apply Erc1155_lemmas.update_ok in H.
    + destruct H as (_ & _ & _ & _ & E). unfold fit1155. rewrite E. apply Forall_snoc; [exact HF|].
      apply fits_update_event; try assumption. apply Hco.
    + apply Hb.
    + apply (Erc1155_lemmas.inv_range s HI).
  - destruct H as (p & b & -> & H). apply Erc1155_lemmas.set_all_inv in H. destruct H as [_ ->].
    apply Forall_snoc; [exact HF|]. cbn. destruct Hco as (_ & ? & ?). auto.
Qed.
Lemma sum_for_amount id is vs : sum_for id is vs = Erc1155_spec.amount (combine is vs) id.
Proof.
  revert vs. induction is as [|i is IH]; intros [|v vs]; cbn [sum_for combine Erc1155_spec.amount]; try reflexivity. rewrite IH. reflexivity.
Qed.
Lemma indexed_multi_means a id l : a <> 0 -> indexed_multi_balance a id (map means_erc1155 l) = Erc1155_spec.log_balance l a id.
Proof.
  intros Ha. induction l as [|e l IH]; [reflexivity|].
  destruct e; cbn [map means_erc1155 indexed_multi_balance Erc1155_spec.log_balance Erc1155_spec.ev_move]; rewrite IH; [| |reflexivity].
  - unfold Erc1155_spec.share. apply Z.eqb_neq in Ha. rewrite Ha. cbn [negb]. rewrite !andb_true_r.
    cbn [sum_for Erc1155_spec.amount]. lia.
  - unfold Erc1155_spec.share. apply Z.eqb_neq in Ha. rewrite Ha. cbn [negb]. rewrite !andb_true_r, sum_for_amount. lia.
Qed.
Lemma indexed_operator_means1155 o p acc l : indexed_operator o p acc (map means_erc1155 l) = Erc1155_spec.log_operator l o p acc.
Proof. revert acc. induction l as [|[] l IH]; intros; cbn [map means_erc1155 indexed_operator Erc1155_spec.log_operator]; auto. Qed.

(** And for an ERC-1155 token. *)
Theorem c77_erc1155_indexer :
  forall has_code h, Erc1155_spec.nodes calldata_erc1155 h ->
  let s := Erc1155.run Erc1155.base has_code h Erc1155.init in
  let seen := read_logs (map log_erc1155 (Erc1155.log s)) in
  length seen = length (Erc1155.log s) /\
  (forall a id, a <> 0 -> indexed_multi_balance a id seen = Erc1155.balance_of a id s) /\
  (forall o p, indexed_operator o p false seen = Erc1155.is_approved_for_all o p s).
Proof.
  intros hc h Hh s seen.
  assert (Hs : Erc1155_lemmas.Inv s /\ fit1155 s).
  { apply (Erc1155_lemmas.run_P Erc1155.base (fun s => Erc1155_lemmas.Inv s /\ fit1155 s) calldata_erc1155); [|exact Hh|].
    - intros c o t t1 Hco [HI HF] H. split; [eapply Erc1155_lemmas.inv_front; eauto using calldata_node1155|eapply fit1155_front; eauto].
    - split; [apply Erc1155_lemmas.inv_init|constructor]. }
  destruct Hs as [HI HF].
  assert (E : seen = map means_erc1155 (Erc1155.log s)) by (apply read_logs_ok; [exact log_erc1155_ok|exact HF]).
  rewrite E, map_length. split; [reflexivity|]. split.
  - intros a id Ha. rewrite indexed_multi_means by exact Ha. symmetry. apply (Erc1155_lemmas.inv_balance s HI).
  - intros o p. rewrite indexed_operator_means1155. symmetry. apply (Erc1155_lemmas.inv_op s HI).
Qed.
Print Assumptions c77_erc1155_indexer.

(** ** Access control *)
Definition fit_access (s : AccessControl.state) : Prop :=
  List.Forall (fun e => fits (means_access e)) (AccessControl.log s) /\ forall r, is_u256 (AccessControl.get_role_admin s r).
Lemma fit_access_step s c o : calldata_access c o -> fit_access s -> fit_access (AccessControl.step s (c, o)).
Proof.
  intros [Hc Ho] [H1 H2]. rewrite Access_props.ac_step_eq.
  assert (S : fit_access s) by (split; assumption).
  assert (A : forall m e, fits (means_access e) -> fit_access (AccessControl.mk m (AccessControl.admins s) (AccessControl.log s ++ [e]))).
  { intros m e He. split; [apply Forall_snoc; assumption|exact H2]. }
  destruct o as [r a|r a|r a|r n|r a|r a]; cbn [Access_props.ac_next];
    repeat match goal with |- context [if ?b then _ else _] => destruct b end; try exact S; try (apply A; cbn; tauto).
  split; [apply Forall_snoc; [exact H1|cbn; split; [tauto|split; [apply H2|tauto]]]|].
  intros r'. unfold AccessControl.get_role_admin. cbn. rewrite mget_set. destruct (decide _); [tauto|apply H2].
Qed.
Lemma indexed_member_means r a acc l : indexed_member r a acc (map means_access l) = Access_spec.member_by_events r a acc l.
Proof. revert acc. induction l as [|[] l IH]; intros; cbn [map means_access indexed_member Access_spec.member_by_events]; auto. Qed.
Lemma indexed_admin_means r acc l : indexed_admin r acc (map means_access l) = Access_spec.admin_by_events r acc l.
Proof. revert acc. induction l as [|[] l IH]; intros; cbn [map means_access indexed_admin Access_spec.admin_by_events]; auto. Qed.

(** And for role membership. *)
Theorem c77_access_indexer :
  forall h, List.Forall (fun co => calldata_access (fst co) (snd co)) h ->
  let s := AccessControl.run h AccessControl.init in
  let seen := read_logs (map log_access (AccessControl.log s)) in
  length seen = length (AccessControl.log s) /\
  (forall r a, indexed_member r a false seen = AccessControl.has_role s r a) /\
  (forall r, indexed_admin r 0 seen = AccessControl.get_role_admin s r).
Proof.
  intros h Hh s seen.
  assert (HF : fit_access s).
  { unfold s. clear s seen. assert (G : forall s, fit_access s -> fit_access (AccessControl.run h s)).
    { induction Hh as [|[c o] h Ho _ IH]; intros s Hs; [exact Hs|]. cbn. apply IH, fit_access_step; assumption. }
    apply G. split; [constructor|]. intros r. unfold AccessControl.get_role_admin. cbn. rewrite mget_empty. apply u256_0. }
  assert (E : seen = map means_access (AccessControl.log s)) by (apply read_logs_ok; [exact log_access_ok|apply HF]).
  rewrite E, map_length. split; [reflexivity|]. split.
  - intros r a. rewrite indexed_member_means. symmetry. apply (Access_props.c23_events_mirror_membership h r a).
  - intros r. rewrite indexed_admin_means. symmetry. apply (Access_props.c23_events_mirror_membership h r 0).
Qed.
Print Assumptions c77_access_indexer.

(** Non-vacuity: two raw logs, 32-byte topics, and what is read from them. *)
Example c77_demo :
  let h := [(1, Erc20.OMint 1 100); (1, Erc20.OTransfer 2 30)] in
  let s := Erc20.run h Erc20.init in
  List.Forall (fun co => calldata_erc20 (fst co) (snd co)) h /\
  read_logs (map log_erc20 (Erc20.log s)) = [FungibleTransfer 0 1 100; FungibleTransfer 1 2 30] /\
  map (fun r => (length (topics r), length (data r))) (map log_erc20 (Erc20.log s)) = [(3, 32); (3, 32)]%nat /\
  indexed_balance 1 [FungibleTransfer 0 1 100; FungibleTransfer 1 2 30] = 70.
Proof.
  assert (U : forall x, (0 <=? x) && (x <? 1000) = true -> is_u256 x).
  { intros x H. assert (1000 < two256) by reflexivity. unfold is_u256. lia. }
  cbv zeta. split; [|split; [|split]].
  - repeat (apply List.Forall_cons || apply List.Forall_nil); cbn; repeat split; apply U; reflexivity.
  - rewrite (read_logs_ok log_erc20 means_erc20); [vm_compute; reflexivity|exact log_erc20_ok|].
    change (Erc20.log _) with [Erc20.Transfer 0 1 100; Erc20.Transfer 1 2 30].
    repeat (apply List.Forall_cons || apply List.Forall_nil); cbn; repeat split; apply U; reflexivity.
  - vm_compute. reflexivity.
  - reflexivity.
Qed.
