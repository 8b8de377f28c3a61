From Verif.Base Require Import Prelude Bytes Keccak Maps.
From stdpp Require Import gmap.
From Coq Require Import String List.
From Verif.Model Require Import Introspection Router Entry EntryErc721 EntryErc1155.
From Verif.Model Require SolAbi Erc1155 Pausable Erc1155Example.
From Verif.Spec Require Import Router_spec SolAbi_spec LogMeaning_spec.
From Verif.Spec Require Entry_spec EntryMulti_spec.
From Verif.Proofs Require Import Router_lemmas Entry_lemmas.
From Verif.Proofs Require SolAbi_lemmas Erc1155_lemmas EntryNft_lemmas.
Import SolAbi.
Import Entry_spec (calldata, is_address, has_type, word_of_type).
Import EntryMulti_spec.
Import EntryNft_lemmas (bytes_val, abi_params_bytes, abi_params_size, decode_bytes4, one_word, addr0, addr_u256).
Import Erc1155_lemmas (ranged, balance_set).
#[global] Open Scope Z_scope.
Local Open Scope list_scope.
Local Open Scope Z_scope.
Opaque keccak256.

(** ** The receiver's answer *)
Lemma hook_question c f ids vs d : length ids = length vs ->
  hook_data1155 c f (snd (Erc1155.receiver_data ids vs)) d = fst (question c f ids vs d) /\
  snd (question c f ids vs d) = word (fst (Erc1155.receiver_data ids vs) * 2 ^ 224) /\
  0 <= fst (Erc1155.receiver_data ids vs) < 2 ^ 32.
Proof.
  intros H.
  assert (S1 : signature "onERC1155Received" [Address; Address; U256; U256; Bytes] = "onERC1155Received(address,address,uint256,uint256,bytes)"%string)
    by (vm_compute; reflexivity).
  assert (S2 : signature "onERC1155BatchReceived" [Address; Address; Vec U256; Vec U256; Bytes] = "onERC1155BatchReceived(address,address,uint256[],uint256[],bytes)"%string)
    by (vm_compute; reflexivity).
  unfold question, calldata, sig_selector, Erc1155.receiver_data.
  destruct ids as [|id [|id' ids]]; destruct vs as [|v [|v' vs]]; try discriminate H; cbn [fst snd hook_data1155]; unfold function_selector; rewrite ?S1, ?S2;
    (split; [reflexivity|]; split; [reflexivity|]; unfold Erc1155.SINGLE_TRANSFER_FN_SELECTOR, Erc1155.BATCH_TRANSFER_FN_SELECTOR; lia).
Qed.
Lemma reply_cases x (a : answer) : 0 <= x < 2 ^ 32 ->
  match a with
  | Returned out => if list_eq_dec BinInt.Z.eq_dec out (word (x * 2 ^ 224)) then reply1155 a = Erc1155.Returned x
                    else (exists v, reply1155 a = Erc1155.Returned v /\ v <> x) \/ reply1155 a = Erc1155.Failed []
  | Reverted d => reply1155 a = Erc1155.Failed d
  end.
Proof.
  intros Hn. destruct a as [d|d]; [|reflexivity]. cbn [reply1155]. pose proof (decode_bytes4 d) as H.
  assert (Fit : forall y, 0 <= y < 2 ^ 32 -> is_u256 (y * 2 ^ 224)).
  { intros y Hy. split; [lia|]. change two256 with (2 ^ 32 * 2 ^ 224). apply Z.mul_lt_mono_pos_r; lia. }
  destruct (list_eq_dec BinInt.Z.eq_dec d (word (x * 2 ^ 224))) as [E|E].
  - destruct (decode_params [FixedBytes4] d) as [[|[v|ws|o] [|a l]]|]; try (exfalso; apply (H _ Hn E)).
    destruct H as (y & Hy & -> & Hd). rewrite Z.div_mul by discriminate.
    f_equal. rewrite Hd in E. apply word_inj in E; [|apply Fit; assumption..].
    apply Z.mul_cancel_r in E; [exact E|discriminate].
  - destruct (decode_params [FixedBytes4] d) as [[|[v|ws|o] [|a l]]|]; auto.
    destruct H as (y & Hy & -> & Hd). left. rewrite Z.div_mul by discriminate. exists y. split; [reflexivity|].
    intros ->. apply E. exact Hd.
Qed.

(** ** The states of the contract and the books *)
Record agree (e : Erc1155.state) (b : mbook) : Prop := mkAgree {
  a_bal : forall a id, is_address a -> is_u256 id -> m_balance b a id = Erc1155.balance_of a id e;
  a_op : forall o p, is_address o -> is_address p -> m_operator b o p = Erc1155.is_approved_for_all o p e;
  a_fit : ranged e
}.
Definition says (e : Erc1155.error) (why : refusal) : Prop :=
  match why with
  | Because r => reason_erc1155 e = Some r /\ reason_fits r
  | Quoting d => e = Erc1155.InvalidReceiverWithReason d
  | Silent => False
  end.
(** An outcome of the code and a verdict say the same. *)
Definition meets (x : res Erc1155.error unit * Erc1155.state) (v : verdict) (p : bool) : Prop :=
  match v with
  | Granted b => fst x = Ok tt /\ agree (snd x) b /\ book_fits b /\ m_paused b = p
  | Denied Silent => fst x = Panic
  | Denied why => exists er, fst x = Err er /\ says er why
  end.
Lemma meets_bind (m : M Erc1155.state Erc1155.error unit) (k : unit -> M Erc1155.state Erc1155.error unit) e v nxt p :
  meets (m e) v p -> (forall e' b', agree e' b' -> book_fits b' -> m_paused b' = p -> meets (k tt e') (nxt b') p) ->
  meets (bind m k e) (reply_to v nxt) p.
Proof.
  intros H K. mred. destruct (m e) as [r e']. destruct v as [b|why]; cbn [meets reply_to fst snd] in *.
  - destruct H as (-> & A & F & P). apply K; assumption.
  - destruct why; [destruct H as (er & -> & H)|destruct H as (er & -> & H)|rewrite H]; cbn [fst]; eauto.
Qed.
Lemma meets_check (m : M Erc1155.state Erc1155.error unit) c er why l b nxt e p :
  (c = true -> says er why) -> why <> Silent ->
  (c = false -> meets (m e) (reply_to (checks l b) nxt) p) ->
  meets (bind (fail_if c er) (fun _ => m) e) (reply_to (checks ((c, why) :: l) b) nxt) p.
Proof.
  intros H1 H2 H3. cbn [checks]. destruct c; mred; [|apply H3; reflexivity]. cbn [reply_to]. specialize (H1 eq_refl).
  destruct why; [exists er; split; [reflexivity|exact H1]..|congruence].
Qed.
Lemma granted_ok e b p : agree e b -> book_fits b -> m_paused b = p -> meets (Ok tt, e) (Granted b) p.
Proof. intros A F P. exact (conj eq_refl (conj A (conj F P))). Qed.
Lemma denied_bind (m : M Erc1155.state Erc1155.error unit) k e why p : meets (m e) (Denied why) p -> meets (bind m k e) (Denied why) p.
Proof.
  intros H. mred. destruct (m e) as [r e']. cbn [meets fst] in *.
  destruct why; [destruct H as (er & -> & H)|destruct H as (er & -> & H)|rewrite H]; cbn [fst]; eauto.
Qed.
Ltac fit := unfold reason_fits; cbn [numbers]; repeat (apply List.Forall_cons; [solve [auto using addr_u256, addr0]|]); apply List.Forall_nil.

Lemma taken_ok e b f id v p : agree e b -> book_fits b -> m_paused b = p -> is_address f -> is_u256 id -> is_u256 v ->
  meets ((from_balance <~ gets (Erc1155.balance_of f id) ;;
     fail_if (from_balance <? v) (Erc1155.InsufficientBalance f from_balance v id) ;;;
     modify (Erc1155.set_balance f id (wsub from_balance v))) e) (taken f id v b) p.
Proof.
  intros A F P Hf Hi Hv. mred. unfold taken. rewrite (a_bal _ _ A f id Hf Hi). pose proof (a_fit _ _ A f id) as R.
  destruct (Erc1155.balance_of f id e <? v) eqn:E; cbn [meets fst snd].
  - eexists. split; [reflexivity|]. split; [reflexivity|]. fit.
  - apply Z.ltb_ge in E. unfold is_u256 in *. rewrite wsub_small by lia. split; [reflexivity|]. split; [|split; [|exact P]].
    + split.
      * intros a j Ha Hj. cbn [holds m_balance]. rewrite balance_set, (a_bal _ _ A a j Ha Hj).
        destruct (decide (id = j /\ f = a)) as [[-> ->]|D]; [rewrite !Z.eqb_refl; reflexivity|].
        destruct (Z.eqb_spec a f); destruct (Z.eqb_spec j id); cbn [andb]; try reflexivity. exfalso. apply D. auto.
      * intros o q Ho Hq. apply (a_op _ _ A o q Ho Hq).
      * intros a j. rewrite balance_set. destruct (decide _); [unfold is_u256; lia|apply (a_fit _ _ A)].
    + intros a j. cbn [holds m_balance]. destruct (_ && _); [unfold is_u256; lia|apply F].
Qed.
Lemma given_ok e b t id v p : agree e b -> book_fits b -> m_paused b = p -> is_address t -> is_u256 id -> is_u256 v ->
  meets ((x <~ gets (Erc1155.balance_of t id) ;; y <~ cadd x v ;; modify (Erc1155.set_balance t id y)) e) (given t id v b) p.
Proof.
  intros A F P Ht Hi Hv. mred. unfold given. rewrite (a_bal _ _ A t id Ht Hi). pose proof (a_fit _ _ A t id) as R.
  rewrite Z.leb_antisym. destruct (Erc1155.balance_of t id e + v <? two256) eqn:E; cbn [negb meets fst snd]; [|reflexivity].
  apply Z.ltb_lt in E. unfold is_u256 in *. split; [reflexivity|]. split; [|split; [|exact P]].
  - split.
    + intros a j Ha Hj. cbn [holds m_balance]. rewrite balance_set, (a_bal _ _ A a j Ha Hj).
      destruct (decide (id = j /\ t = a)) as [[-> ->]|D]; [rewrite !Z.eqb_refl; reflexivity|].
      destruct (Z.eqb_spec a t); destruct (Z.eqb_spec j id); cbn [andb]; try reflexivity. exfalso. apply D. auto.
    + intros o q Ho Hq. apply (a_op _ _ A o q Ho Hq).
    + intros a j. rewrite balance_set. destruct (decide _); [unfold is_u256; lia|apply (a_fit _ _ A)].
  - intros a j. cbn [holds m_balance]. destruct (_ && _); [unfold is_u256; lia|apply F].
Qed.
(** What one entry of a batch does, by who gives and who gets. *)
Definition act (f t : Z) : Z -> Z -> mbook -> verdict :=
  fun id v b => reply_to (if f =? 0 then Granted b else taken f id v b) (fun b => if t =? 0 then Granted b else given t id v b).
Lemma update_ok e b f t id v p : agree e b -> book_fits b -> m_paused b = p -> is_address f -> is_address t -> is_u256 id -> is_u256 v ->
  meets (Erc1155.do_update f t id v e) (act f t id v b) p.
Proof.
  intros A F P Hf Ht Hi Hv. unfold Erc1155.do_update, act. apply meets_bind.
  - destruct (f =? 0); cbn [negb]; [apply granted_ok; assumption|]. apply taken_ok; assumption.
  - intros e' b' A' F' P'. destruct (t =? 0); cbn [negb]; [apply granted_ok; assumption|]. apply given_ok; assumption.
Qed.
Lemma updates_ok f t p ids : forall vs e b, agree e b -> book_fits b -> m_paused b = p -> is_address f -> is_address t -> numbers_fit ids -> numbers_fit vs ->
  meets (Erc1155.do_updates f t (combine ids vs) e) (each (act f t) ids vs b) p.
Proof.
  induction ids as [|id ids IH]; intros [|v vs] e b A F P Hf Ht Hi Hv; cbn [combine Erc1155.do_updates each];
    try (apply granted_ok; assumption).
  destruct (proj1 (List.Forall_cons_iff _ _ _) Hi) as [Hi1 Hi2]. destruct (proj1 (List.Forall_cons_iff _ _ _) Hv) as [Hv1 Hv2].
  apply meets_bind; [apply update_ok; assumption|].
  intros e' b' A' F' P'. apply IH; assumption.
Qed.
Lemma emit_ok ev e b p : agree e b -> book_fits b -> m_paused b = p -> meets (Erc1155.emit ev e) (Granted b) p.
Proof. intros [A1 A2 A3] F P. apply granted_ok; [split; assumption|assumption..]. Qed.
Lemma length_u256 (l : list Z) : Z.of_nat (length l) < two256 -> is_u256 (Z.of_nat (length l)).
Proof. unfold is_u256. lia. Qed.
Lemma each_ext f g : (forall id v b, f id v b = g id v b) -> forall ids vs b, each f ids vs b = each g ids vs b.
Proof.
  intros H ids. induction ids as [|i ids IH]; intros [|v vs] b; cbn [each]; try reflexivity. rewrite H. destruct (g i v b); cbn [reply_to]; auto.
Qed.
Lemma update_all_ok c f t ids vs e b p : agree e b -> book_fits b -> m_paused b = p -> is_address f -> is_address t -> numbers_fit ids -> numbers_fit vs ->
  Z.of_nat (length ids) < two256 -> Z.of_nat (length vs) < two256 ->
  meets (Erc1155._update c f t ids vs e) (reply_to (checks (paired ids vs) b) (each (act f t) ids vs)) p.
Proof.
  intros A F P Hf Ht Hi Hv Li Lv. unfold Erc1155._update, Erc1155.require_equal_arrays_length, paired.
  apply meets_check; [intros _; split; [reflexivity|]; fold (is_u256 0); unfold reason_fits; cbn [numbers];
    repeat (apply List.Forall_cons; [apply length_u256; assumption|]); apply List.Forall_nil|discriminate|].
  intros _. cbn [checks reply_to]. rewrite <- (match each (act f t) ids vs b as x return reply_to x Granted = x with Granted _ => eq_refl | Denied _ => eq_refl end).
  apply meets_bind; [apply updates_ok; assumption|]. intros e' b' A' F' P'.
  destruct ids as [|i [|]]; try (apply emit_ok; assumption). destruct vs; apply emit_ok; assumption.
Qed.

Lemma asked_ok w c f t ids vs d e b p : agree e b -> book_fits b -> m_paused b = p -> is_address t -> length ids = length vs ->
  meets (Erc1155._check_on_erc1155_received (deployed w) (Erc1155Example.answers (hook1155 w c f t ids vs d)) c f t (Erc1155.receiver_data ids vs) d e)
    (asking w c f t ids vs d b) p.
Proof.
  intros A F P Ht L. unfold Erc1155._check_on_erc1155_received, asking, Erc1155Example.answers, hook1155.
  destruct (deployed w t); cbn [negb]; [|apply granted_ok; assumption].
  destruct (hook_question c f ids vs d L) as (Q1 & Q2 & Q3). rewrite Q1. destruct (question c f ids vs d) as [asked consent]. cbn [fst snd] in *.
  mred. pose proof (reply_cases _ (replies w t asked) Q3) as H. rewrite <- Q2 in H.
  assert (No : says (Erc1155.InvalidReceiver t) (Because (ERC1155InvalidReceiver t))) by (split; [reflexivity|fit]).
  destruct (replies w t asked) as [out|[|x out]].
  - destruct (list_eq_dec BinInt.Z.eq_dec out consent) as [E|E].
    + rewrite H, Z.eqb_refl. apply granted_ok; assumption.
    + destruct H as [(v & -> & Hv)| ->]; [|eexists; split; [reflexivity|exact No]].
      rewrite (proj2 (Z.eqb_neq _ _) Hv). eexists; split; [reflexivity|exact No].
  - rewrite H. eexists; split; [reflexivity|exact No].
  - rewrite H. eexists; split; reflexivity.
Qed.
Lemma reply_assoc v f g : reply_to (reply_to v f) g = reply_to v (fun b => reply_to (f b) g).
Proof. destruct v; reflexivity. Qed.
(** [_update] and the question to the receiver. *)
Lemma accepted_ok w c f t ids vs d e b p : agree e b -> book_fits b -> m_paused b = p -> is_address f -> is_address t -> numbers_fit ids -> numbers_fit vs ->
  Z.of_nat (length ids) < two256 -> Z.of_nat (length vs) < two256 -> t <> 0 ->
  meets (Erc1155._update_with_acceptance_check Erc1155.base (deployed w) (Erc1155Example.answers (hook1155 w c f t ids vs d)) c f t ids vs d e)
    (reply_to (checks (paired ids vs) b) (fun b => reply_to (each (act f t) ids vs b) (asking w c f t ids vs d))) p.
Proof.
  intros A F P Hf Ht Hi Hv Li Lv H0. unfold Erc1155._update_with_acceptance_check.
  replace (t =? 0) with false by lia. cbn [negb]. rewrite <- reply_assoc.
  pose proof (update_all_ok c f t ids vs e b p A F P Hf Ht Hi Hv Li Lv) as U.
  destruct (length ids =? length vs)%nat eqn:L.
  - apply Nat.eqb_eq in L. apply meets_bind; [exact U|]. intros e' b' A' F' P'. apply asked_ok; assumption.
  - revert U. unfold paired. rewrite L. cbn [negb checks reply_to]. apply denied_bind.
Qed.

Lemma mint_ok w c t ids vs d e b p l : agree e b -> book_fits b -> m_paused b = p -> is_address t -> numbers_fit ids -> numbers_fit vs ->
  Z.of_nat (length ids) < two256 -> Z.of_nat (length vs) < two256 -> l = paired ids vs ->
  meets (Erc1155._do_mint Erc1155.base (deployed w) (Erc1155Example.answers (hook1155 w c 0 t ids vs d)) c t ids vs d e)
    (reply_to (checks (somebody t (ERC1155InvalidReceiver 0) ++ l) b) (fun b => reply_to (each (given t) ids vs b) (asking w c 0 t ids vs d))) p.
Proof.
  intros A F P Ht Hi Hv Li Lv ->. unfold Erc1155._do_mint. apply meets_check; [|discriminate|].
  - intros E. replace t with 0 by lia. split; [reflexivity|fit].
  - intros E. pose proof (accepted_ok w c 0 t ids vs d e b p A F P addr0 Ht Hi Hv Li Lv ltac:(lia)) as H.
    revert H. destruct (checks (paired ids vs) b) as [b'|]; cbn [reply_to app]; [|auto].
    rewrite (each_ext (act 0 t) (given t)); [auto|]. intros id v b2. unfold act. cbn [Z.eqb reply_to]. rewrite E. reflexivity.
Qed.
Lemma entitled_ok e b c f (m : M Erc1155.state Erc1155.error unit) l nxt p : agree e b -> is_address c -> is_address f ->
  meets (m e) (reply_to (checks l b) nxt) p ->
  meets (bind (Erc1155.authorize_transfer c f) (fun _ => m) e) (reply_to (checks (entitled b c f ++ l) b) nxt) p.
Proof.
  intros A Hc Hf H. unfold entitled. rewrite (a_op _ _ A f c Hf Hc), (Z.eqb_sym c f). cbn [app].
  refine (eq_ind _ (fun x => meets x _ p) (meets_check m _ (Erc1155.MissingApprovalForAll c f) _ l b nxt e p _ _ (fun _ => H)) _ _).
  - intros _. split; [reflexivity|fit].
  - discriminate.
  - unfold Erc1155.authorize_transfer. mred. destruct (_ && _); reflexivity.
Qed.
Lemma burn_ok c f ids vs e b p : agree e b -> book_fits b -> m_paused b = p -> is_address c -> is_address f -> numbers_fit ids -> numbers_fit vs ->
  Z.of_nat (length ids) < two256 -> Z.of_nat (length vs) < two256 ->
  meets (Erc1155.burn_batch Erc1155.base c f ids vs e)
    (reply_to (checks (entitled b c f ++ somebody f (ERC1155InvalidSender 0) ++ paired ids vs) b) (each (taken f) ids vs)) p.
Proof.
  intros A F P Hc Hf Hi Hv Li Lv. unfold Erc1155.burn_batch. apply entitled_ok; [assumption..|]. unfold Erc1155.inner_burn.
  apply meets_check; [|discriminate|].
  - intros E. replace f with 0 by lia. split; [reflexivity|fit].
  - intros E. pose proof (update_all_ok c f 0 ids vs e b p A F P Hf addr0 Hi Hv Li Lv) as H.
    revert H. cbn [app]. destruct (checks (paired ids vs) b) as [b'|]; cbn [reply_to]; [|auto].
    rewrite (each_ext (act f 0) (taken f)); [auto|]. intros id v b2. unfold act. rewrite E. cbn [Z.eqb]. destruct (taken f id v b2); reflexivity.
Qed.
Lemma transfer_ok w c f t ids vs d e b p : agree e b -> book_fits b -> m_paused b = p -> is_address c -> is_address f -> is_address t ->
  numbers_fit ids -> numbers_fit vs -> Z.of_nat (length ids) < two256 -> Z.of_nat (length vs) < two256 ->
  meets (Erc1155.safe_batch_transfer_from Erc1155.base (deployed w) (Erc1155Example.answers (hook1155 w c f t ids vs d)) c f t ids vs d e)
    (reply_to (checks (entitled b c f ++ somebody t (ERC1155InvalidReceiver 0) ++ somebody f (ERC1155InvalidSender 0) ++ paired ids vs) b) (fun b =>
     reply_to (each (fun id v b => reply_to (taken f id v b) (given t id v)) ids vs b) (asking w c f t ids vs d))) p.
Proof.
  intros A F P Hc Hf Ht Hi Hv Li Lv. unfold Erc1155.safe_batch_transfer_from. apply entitled_ok; [assumption..|]. unfold Erc1155.do_safe_transfer_from.
  apply meets_check; [|discriminate|].
  - intros E. replace t with 0 by lia. split; [reflexivity|fit].
  - intros Et. cbn [app]. apply meets_check; [|discriminate|].
    + intros E. replace f with 0 by lia. split; [reflexivity|fit].
    + intros Ef. pose proof (accepted_ok w c f t ids vs d e b p A F P Hf Ht Hi Hv Li Lv ltac:(lia)) as H.
      revert H. cbn [app]. destruct (checks (paired ids vs) b) as [b'|]; cbn [reply_to]; [|auto].
      rewrite (each_ext (act f t) (fun id v b => reply_to (taken f id v b) (given t id v))); [auto|]. intros id v b2. unfold act. rewrite Ef, Et. reflexivity.
Qed.

(** ** The example *)
Definition op_of (w : world) (c : Z) (r : request) : Erc1155Example.op :=
  match r with
  | Mint t i v d => Erc1155Example.Mint t i v d (hook1155 w c 0 t [i] [v] d)
  | MintBatch t is vs d => Erc1155Example.MintBatch t is vs d (hook1155 w c 0 t is vs d)
  | Burn f i v => Erc1155Example.Burn f i v
  | BurnBatch f is vs => Erc1155Example.BurnBatch f is vs
  | Transfer f t i v d => Erc1155Example.SafeTransferFrom f t i v d (hook1155 w c f t [i] [v] d)
  | TransferBatch f t is vs d => Erc1155Example.SafeBatchTransferFrom f t is vs d (hook1155 w c f t is vs d)
  | SetApprovalForAll p v => Erc1155Example.SetApprovalForAll p v
  | Pause => Erc1155Example.Pause
  | Unpause => Erc1155Example.Unpause
  end.
Definition agrees (s : Erc1155Example.state) (b : mbook) : Prop :=
  agree (Erc1155Example.erc1155 s) b /\ m_paused b = Pausable.paused (Erc1155Example.pausable s).
Definition speaks (e : Erc1155Example.error) (why : refusal) : Prop :=
  match why with
  | Silent => False
  | _ => match e with Erc1155Example.Erc1155Error e => says e why | Erc1155Example.PausableError e => why = Because (reason_pausable e) end
  end.
Definition outcome_is (x : res Erc1155Example.error unit * Erc1155Example.state) (v : verdict) : Prop :=
  match v with
  | Granted b => exists s, x = (Ok tt, s) /\ agrees s b /\ book_fits b
  | Denied Silent => fst x = Panic
  | Denied why => exists er, fst x = Err er /\ speaks er why
  end.
Lemma on_erc1155_ok m (s : Erc1155Example.state) v : meets (m (Erc1155Example.erc1155 s)) v (Pausable.paused (Erc1155Example.pausable s)) ->
  outcome_is (Erc1155Example.on_erc1155 m s) v.
Proof.
  intros H. unfold Erc1155Example.on_erc1155, map_err, zoom. destruct (m (Erc1155Example.erc1155 s)) as [r e].
  destruct v as [b|why]; cbn [meets outcome_is fst snd] in *.
  - destruct H as (-> & A & F & P). eexists. split; [reflexivity|]. split; [|exact F]. split; assumption.
  - destruct why; [destruct H as (er & -> & H)|destruct H as (er & -> & H)|rewrite H]; cbn [fst]; try reflexivity;
      (eexists; split; [reflexivity|]; exact H).
Qed.
Lemma running_ok m (s : Erc1155Example.state) b l nxt : m_paused b = Pausable.paused (Erc1155Example.pausable s) ->
  meets (m (Erc1155Example.erc1155 s)) (reply_to (checks l b) nxt) (Pausable.paused (Erc1155Example.pausable s)) ->
  outcome_is (bind (Erc1155Example.on_pausable Pausable.when_not_paused) (fun _ => Erc1155Example.on_erc1155 m) s) (reply_to (checks (running b ++ l) b) nxt).
Proof.
  intros P H. unfold running. cbn [app checks]. rewrite P. unfold Erc1155Example.on_pausable, Pausable.when_not_paused. mred.
  destruct (Pausable.paused (Erc1155Example.pausable s)) eqn:E.
  - cbn [reply_to outcome_is]. eexists. split; [reflexivity|]. reflexivity.
  - rewrite <- E in H. pose proof (on_erc1155_ok m s _ H) as K. destruct s as [e q]. exact K.
Qed.
Lemma length_1 (x : Z) : Z.of_nat (length [x]) < two256. Proof. reflexivity. Qed.
Lemma one_fits x : is_u256 x -> numbers_fit [x]. Proof. intros H. apply List.Forall_cons; [exact H|apply List.Forall_nil]. Qed.
Lemma in_tail_size a l : In a l -> size (tail_of a) <= size (flat_map tail_of l).
Proof.
  induction l as [|y l IH]; [intros []|]; intros [->|H]; cbn [flat_map]; rewrite size_app; [pose proof (size_nonneg (flat_map tail_of l)); lia|].
  specialize (IH H). pose proof (size_nonneg (tail_of y)). lia.
Qed.
Lemma words_tail_size l : size (tail_of (Words l)) = 32 + 32 * size l.
Proof.
  cbn [tail_of]. rewrite size_app, size_word. f_equal. induction l as [|x l IH]; [reflexivity|]. cbn [flat_map]. rewrite size_app, size_word, IH. unfold size. cbn [length]. lia.
Qed.
Lemma list_fits sig args l : In (Words l) args -> size (calldata sig args) < two256 -> Z.of_nat (length l) < two256.
Proof.
  intros Hin H. unfold calldata in H. rewrite size_app, abi_params_size in H. pose proof (in_tail_size _ _ Hin) as K. rewrite words_tail_size in K.
  pose proof (size_nonneg (be_bytes 4 (sig_selector sig))). fold (size l). pose proof (size_nonneg l). unfold count in H. lia.
Qed.
Lemma step_ok w s b c r : agrees s b -> book_fits b -> is_address c -> request_fits r ->
  outcome_is (Erc1155Example.exec (deployed w) c (op_of w c r) s) (ideal w c r b).
Proof.
  intros [A P] F Hc [Hsz Hr].
  destruct r as [t i v d|t is vs d|f i v|f is vs|f t i v d|f t is vs d|q v| |]; cbn [op_of Erc1155Example.exec ideal]; unfold request_data in Hsz; cbv beta iota in Hr.
  - destruct Hr as (H1 & H2 & H3 & _). apply running_ok; [exact P|]. apply mint_ok; auto using one_fits, length_1.
  - destruct Hr as (H1 & H2 & H3 & _). apply running_ok; [exact P|].
    apply mint_ok; try assumption; try reflexivity; (eapply list_fits; [|exact Hsz]; cbn; auto).
  - destruct Hr as (H1 & H2 & H3). apply running_ok; [exact P|]. apply (burn_ok c f [i] [v]); auto using one_fits, length_1.
  - destruct Hr as (H1 & H2 & H3). apply running_ok; [exact P|].
    apply burn_ok; try assumption; (eapply list_fits; [|exact Hsz]; cbn; auto).
  - destruct Hr as (H1 & H2 & H3 & H4 & _). apply running_ok; [exact P|]. apply (transfer_ok w c f t [i] [v]); auto using one_fits, length_1.
  - destruct Hr as (H1 & H2 & H3 & H4 & _). apply running_ok; [exact P|].
    apply transfer_ok; try assumption; (eapply list_fits; [|exact Hsz]; cbn; auto).
  - apply on_erc1155_ok. rewrite <- P. clear P. destruct A as [A1 A2 A3]. unfold Erc1155.set_approval_for_all, Erc1155._set_approval_for_all, somebody. cbn [checks]. mred.
    destruct (q =? 0) eqn:E; cbn [meets fst snd].
    + exists (Erc1155.InvalidOperator q). split; [reflexivity|]. replace q with 0 by lia. split; [reflexivity|fit].
    + split; [reflexivity|]. split; [|split; [exact F|reflexivity]]. split; [exact A1| |exact A3].
      intros o p Ho Hp. unfold Erc1155.is_approved_for_all. cbn [operates m_operator Erc1155.operator_approvals snd Erc1155.emit modify]. rewrite getd_set.
      destruct (stdpp.base.decide ((c, q) = (o, p))) as [E2|D].
      * injection E2 as -> ->. rewrite !Z.eqb_refl. reflexivity.
      * destruct (Z.eqb_spec o c); destruct (Z.eqb_spec p q); cbn [andb]; subst; try apply (A2 _ _ Ho Hp). congruence.
  - unfold Erc1155Example.pause, Erc1155Example.on_pausable, Pausable.pause, Pausable.when_not_paused, running. cbn [checks]. mred. rewrite P.
    destruct (Pausable.paused (Erc1155Example.pausable s)); cbn [outcome_is fst].
    + eexists. split; reflexivity.
    + eexists. split; [reflexivity|]. split; [|exact F]. split; [|reflexivity]. destruct A as [A1 A2 A3]. split; assumption.
  - unfold Erc1155Example.unpause, Erc1155Example.on_pausable, Pausable.unpause, Pausable.when_paused. cbn [checks]. mred. rewrite P.
    destruct (Pausable.paused (Erc1155Example.pausable s)); cbn [outcome_is fst negb].
    + eexists. split; [reflexivity|]. split; [|exact F]. split; [|reflexivity]. destruct A as [A1 A2 A3]. split; assumption.
    + eexists. split; reflexivity.
Qed.
Lemma agrees_init : agrees Erc1155Example.init new_book.
Proof.
  split; [split|reflexivity].
  - intros a id _ _. unfold Erc1155.balance_of. cbn. rewrite getd_empty, mget_empty. reflexivity.
  - intros o p _ _. unfold Erc1155.is_approved_for_all. cbn. rewrite getd_empty. reflexivity.
  - intros a id. unfold Erc1155.balance_of. cbn. rewrite getd_empty, mget_empty. split; [lia|reflexivity].
Qed.
Lemma new_fits : book_fits new_book.
Proof. intros a id. split; [cbn; lia|reflexivity]. Qed.
