(** C92: bytes in, bytes out for examples/erc1155. *)
From Verif.Base Require Import Prelude Bytes Keccak Maps.
From stdpp Require Import gmap.
From Coq Require Import String List.
From Verif.Model Require Import Introspection Router Entry EntryErc721 EntryErc1155.
From Verif.Model Require SolAbi Erc1155 Pausable Erc1155Example.
From Verif.Spec Require Import Router_spec SolAbi_spec LogMeaning_spec.
From Verif.Spec Require Entry_spec EntryMulti_spec.
From Verif.Proofs Require Import Router_lemmas Entry_lemmas.
From Verif.Proofs Require EntryNft_lemmas EntryMulti_lemmas.
From Verif.Props Require Import SolAbi_props.
From Verif.Props Require Introspection_props Entry_props EntryNft_props.
Import SolAbi.
Import Entry_spec (calldata, is_address, has_type, word_of_type).
Import EntryMulti_spec.
Import EntryNft_lemmas (bytes_val, abi_params_bytes, abi_params_size, one_word, addr0, addr_u256).
Import EntryNft_props (same_entry).
Import EntryMulti_lemmas.
#[global] Open Scope Z_scope.
Local Open Scope list_scope.
Local Open Scope Z_scope.
Opaque keccak256.

Lemma known1155 w : all_known (blocks (Example1155 w)) = true.
Proof. vm_compute. reflexivity. Qed.
Definition exposed1155 := Eval vm_compute in exposed Pub.Erc1155Example.
Lemma exposed1155_ok w : exposed (blocks (Example1155 w)) = exposed1155.
Proof. vm_compute. reflexivity. Qed.
Lemma call_request w sig args c s t f :
  k_fits sig = true -> find_fn_k Pub.Erc1155Example (k sig) = Some (t, f) ->
  List.Forall2 has_type (arg_types f) args -> List.Forall bytes_val args -> size (calldata sig args) < two256 ->
  entry (Example1155 w) c 0 (calldata sig args) s =
  finish (Example1155 w) (body_of (code (Example1155 w)) t (rust_name f) args c s) s.
Proof.
  intros H1 H2 H3 H4 H5. apply entry_calldata; auto using known1155, abi_params_bytes.
  unfold calldata in H5. rewrite size_app in H5. pose proof (size_nonneg (be_bytes 4 (sig_selector sig))). lia.
Qed.
Lemma nothing_finish w (m : M Erc1155Example.state Erc1155Example.error unit) s :
  finish (Example1155 w) (nothing m s) s =
  match m s with (Ok _, s') => (Returned [], s') | (Err e, _) => (Reverted (revert_erc1155_example e), s) | (Panic, _) => (Reverted [], s) end.
Proof. unfold nothing. mred. destruct (m s) as [[[]|e|] s']; reflexivity. Qed.
Lemma words_typed l : numbers_fit l -> has_type (Vec U256) (Words l).
Proof. intros H. exists U256. split; [reflexivity|exact H]. Qed.
Lemma bytes_typed d : bytes_fit d -> has_type Bytes (Octets d).
Proof. intros H. split; [left; reflexivity|exact H]. Qed.
Ltac types := repeat (apply List.Forall2_cons; [first [assumption|apply words_typed; assumption|apply bytes_typed; assumption]|]); apply List.Forall2_nil.
Ltac vals := repeat (apply List.Forall_cons; [first [exact I|assumption]|]); apply List.Forall_nil.
Ltac call w sg l t f := refine (eq_trans (call_request w sg l _ _ t f _ _ _ _ _) _); [vm_compute; reflexivity|vm_compute; reflexivity|types|vals|try assumption|].
Lemma entry_request w c r s : request_fits r ->
  entry (Example1155 w) c 0 (request_data r) s =
  match Erc1155Example.exec (deployed w) c (op_of w c r) s with
  | (Ok _, s') => (Returned [], s')
  | (Err e, _) => (Reverted (revert_erc1155_example e), s)
  | (Panic, _) => (Reverted [], s)
  end.
Proof.
  intros [Hsz Hr]. rewrite <- (nothing_finish w).
  destruct r as [t i v d|t is vs d|f i v|f is vs|f t i v d|f t is vs d|q v| |]; unfold request_data in *; cbn [op_of Erc1155Example.exec]; cbv beta iota in Hr.
  - destruct Hr as (H1 & H2 & H3 & H4).
    call w "mint(address,uint256,uint256,bytes)"%string [Word t; Word i; Word v; Octets d] "Erc1155Example"%string (fn "mint" [Address; U256; U256; Bytes]). reflexivity.
  - destruct Hr as (H1 & H2 & H3 & H4).
    call w "mintBatch(address,uint256[],uint256[],bytes)"%string [Word t; Words is; Words vs; Octets d] "Erc1155Example"%string (fn "mint_batch" [Address; Vec U256; Vec U256; Bytes]). reflexivity.
  - destruct Hr as (H1 & H2 & H3).
    call w "burn(address,uint256,uint256)"%string [Word f; Word i; Word v] "Erc1155Example"%string (fn "burn" [Address; U256; U256]). reflexivity.
  - destruct Hr as (H1 & H2 & H3).
    call w "burnBatch(address,uint256[],uint256[])"%string [Word f; Words is; Words vs] "Erc1155Example"%string (fn "burn_batch" [Address; Vec U256; Vec U256]). reflexivity.
  - destruct Hr as (H1 & H2 & H3 & H4 & H5).
    call w "safeTransferFrom(address,address,uint256,uint256,bytes)"%string [Word f; Word t; Word i; Word v; Octets d] "Erc1155Example"%string (fn "safe_transfer_from" [Address; Address; U256; U256; Bytes]). reflexivity.
  - destruct Hr as (H1 & H2 & H3 & H4 & H5).
    call w "safeBatchTransferFrom(address,address,uint256[],uint256[],bytes)"%string [Word f; Word t; Words is; Words vs; Octets d] "Erc1155Example"%string (fn "safe_batch_transfer_from" [Address; Address; Vec U256; Vec U256; Bytes]). reflexivity.
  - refine (eq_trans (call_request w "setApprovalForAll(address,bool)"%string [Word q; Word (if v then 1 else 0)] _ _ "Erc1155"%string (fn "set_approval_for_all" [Address; bool_]) _ _ _ _ _) _);
      [vm_compute; reflexivity|vm_compute; reflexivity| |vals|exact Hsz|].
    + apply List.Forall2_cons; [exact Hr|]. apply List.Forall2_cons; [|apply List.Forall2_nil]. cbn [has_type word_of_type]. destruct v; auto.
    + destruct v; reflexivity.
  - call w "pause()"%string (@nil val) "Erc1155Example"%string (fn "pause" []). reflexivity.
  - call w "unpause()"%string (@nil val) "Erc1155Example"%string (fn "unpause" []). reflexivity.
Qed.

(** What the getters answer. *)
Lemma small_data sig ws : size ws < 10 -> size (calldata sig (map Word ws)) < two256.
Proof.
  intros H. unfold calldata. rewrite size_app, abi_words_size. unfold size at 1. rewrite be_bytes_length. transitivity 400; [lia|reflexivity].
Qed.
Ltac small l := apply (small_data _ l); reflexivity.
Lemma ask_balance w s c a i : is_address a -> is_u256 i ->
  entry (Example1155 w) c 0 (calldata "balanceOf(address,uint256)" [Word a; Word i]) s = (Returned (word (Erc1155.balance_of a i (Erc1155Example.erc1155 s))), s).
Proof.
  intros H H'. call w "balanceOf(address,uint256)"%string [Word a; Word i] "Erc1155"%string (fn "balance_of" [Address; U256]); [small [a; i]|].
  rewrite <- one_word. reflexivity.
Qed.
Lemma ask_operator w s c a b : is_address a -> is_address b ->
  entry (Example1155 w) c 0 (calldata "isApprovedForAll(address,address)" [Word a; Word b]) s =
  (Returned (word (of_bool (Erc1155.is_approved_for_all a b (Erc1155Example.erc1155 s)))), s).
Proof.
  intros H H'. call w "isApprovedForAll(address,address)"%string [Word a; Word b] "Erc1155"%string (fn "is_approved_for_all" [Address; Address]); [small [a; b]|].
  rewrite <- one_word. reflexivity.
Qed.
Lemma ask_paused w s c : entry (Example1155 w) c 0 (calldata "paused()" []) s = (Returned (word (of_bool (Pausable.paused (Erc1155Example.pausable s)))), s).
Proof.
  call w "paused()"%string (@nil val) "Pausable"%string (fn "paused" []); [small (@nil Z)|].
  rewrite <- one_word. reflexivity.
Qed.

(** A call changes nothing or is one of the requests, to the letter. *)
Lemma batch_still w accounts ids s :
  snd (finish (Example1155 w) ((l <~ Erc1155Example.on_erc1155 (Erc1155.balance_of_batch accounts ids) ;; ret [Words l]) s) s) = s.
Proof.
  unfold Erc1155Example.on_erc1155, Erc1155.balance_of_batch, Erc1155.require_equal_arrays_length. mred.
  destruct (negb _); cbn [finish snd]; [reflexivity|]. destruct s; reflexivity.
Qed.
Lemma any_call w c v d s : data_fits d ->
  snd (entry (Example1155 w) c v d s) = s \/ exists r, v = 0 /\ d = request_data r /\ request_fits r.
Proof.
  intros Hdf. assert (Hb := proj1 Hdf). assert (Hsz := proj2 Hdf).
  destruct (entry_cases (Example1155 w) c v d s (known1155 w) Hb Hsz) as [->|(t & f & args & Hin & -> & Ht & Hd & He)]; [left; reflexivity|].
  rewrite exposed1155_ok in Hin. unfold exposed1155 in Hin. rewrite He. clear He Hb Hdf. subst d.
  repeat (destruct Hin as [Hin|Hin];
    [injection Hin as <- <-; cbn [arg_types] in Ht;
     repeat match goal with
     | H : List.Forall2 _ (_ :: _) _ |- _ => inversion H; subst; clear H
     | H : List.Forall2 _ [] _ |- _ => inversion H; subst; clear H
     | H : has_type Bytes ?y |- _ => destruct y; cbn [has_type word_of_type] in H;
         [destruct H|exfalso; destruct H as (? & H & _); discriminate H|destruct H as [_ H]]
     | H : has_type (Vec _) ?y |- _ => destruct y; cbn [has_type word_of_type] in H;
         [destruct H|let E := fresh in destruct H as (? & E & H); injection E as <-|exfalso; destruct H as [[H|H] _]; discriminate H]
     | H : has_type _ ?y |- _ => destruct y; cbn [has_type word_of_type] in H;
         [|exfalso; first [destruct H as (? & H & _); discriminate H | destruct H as [[H|H] _]; discriminate H]..]
     end|]); [..|destruct Hin].
  all: match goal with |- context [fn_sig ?f] => let x := eval vm_compute in (fn_sig f) in change (fn_sig f) with x in * | _ => idtac end.
  Ltac req r := right; exists r; split; [reflexivity|]; split; [reflexivity|]; split; [assumption|]; cbv beta iota; auto.
  all: match goal with
    | |- context [calldata "mint(address,uint256,uint256,bytes)" [Word ?t; Word ?i; Word ?v; Octets ?d]] => req (Mint t i v d)
    | |- context [calldata "mintBatch(address,uint256[],uint256[],bytes)" [Word ?t; Words ?i; Words ?v; Octets ?d]] => req (MintBatch t i v d)
    | |- context [calldata "burn(address,uint256,uint256)" [Word ?t; Word ?i; Word ?v]] => req (Burn t i v)
    | |- context [calldata "burnBatch(address,uint256[],uint256[])" [Word ?t; Words ?i; Words ?v]] => req (BurnBatch t i v)
    | |- context [calldata "safeTransferFrom(address,address,uint256,uint256,bytes)" [Word ?f; Word ?t; Word ?i; Word ?v; Octets ?d]] => req (Transfer f t i v d)
    | |- context [calldata "safeBatchTransferFrom(address,address,uint256[],uint256[],bytes)" [Word ?f; Word ?t; Words ?i; Words ?v; Octets ?d]] => req (TransferBatch f t i v d)
    | |- context [calldata "pause()" []] => req Pause
    | |- context [calldata "unpause()" []] => req Unpause
    | H : _ \/ _ |- context [calldata "setApprovalForAll(address,bool)" [Word ?a; Word ?v]] =>
        destruct H as [H|H]; rewrite H in *; [req (SetApprovalForAll a false)|req (SetApprovalForAll a true)]
    | _ => left
    end.
  all: first [reflexivity|apply batch_still].
Qed.

(** *** What the getters show is what the model holds *)
Notation call1155 := (fun w => entry (Example1155 w)).
Definition nobody : world := mkWorld (fun _ => false) (fun _ _ => Returned []).
Lemma bool_word (x y : bool) (s : Erc1155Example.state) :
  (Returned (word (of_bool x)), s) = (Returned (word (if y then 1 else 0)), s) -> y = x.
Proof.
  intros E. assert (E' : word (of_bool x) = word (if y then 1 else 0)) by congruence.
  apply word_inj in E'; [destruct x, y; cbn [of_bool] in E'; congruence|destruct x|destruct y]; split; cbn [of_bool]; try lia; reflexivity.
Qed.
Lemma shows_agree s b : Erc1155_lemmas.ranged (Erc1155Example.erc1155 s) -> book_fits b -> (shows call1155 s b <-> agrees s b).
Proof.
  intros G F. unfold shows, tells. split.
  - intros (H1 & H2 & H3).
    assert (W : forall x y, is_u256 x -> is_u256 y -> (Returned (word x), s) = (Returned (word y), s) -> y = x).
    { intros x y Hx Hy E. assert (E' : word x = word y) by congruence. symmetry. exact (word_inj _ _ Hx Hy E'). }
    split; [split|].
    + intros a i Ha Hi. specialize (H1 a i Ha Hi nobody 0). rewrite (ask_balance nobody s 0 a i Ha Hi) in H1. apply W in H1; [exact H1|apply G|apply F].
    + intros o p Ho Hp. specialize (H2 o p Ho Hp nobody 0). rewrite (ask_operator nobody s 0 o p Ho Hp) in H2. apply bool_word in H2. exact H2.
    + exact G.
    + specialize (H3 nobody 0). rewrite (ask_paused nobody s 0) in H3. apply bool_word in H3. exact H3.
  - intros [A P]. split; [|split].
    + intros a i Ha Hi w c. rewrite (ask_balance w s c a i Ha Hi), (a_bal _ _ A a i Ha Hi). reflexivity.
    + intros o p Ho Hp w c. rewrite (ask_operator w s c o p Ho Hp), (a_op _ _ A o p Ho Hp). reflexivity.
    + intros w c. rewrite (ask_paused w s c), P. reflexivity.
Qed.

(** *** Histories *)
Definition sound (s : Erc1155Example.state) : Prop := exists b, book_fits b /\ agrees s b.
Lemma sound_step w c v d s b : book_fits b -> agrees s b -> is_address c -> data_fits d ->
  exists b', book_fits b' /\ agrees (snd (entry (Example1155 w) c v d s)) b' /\
    (b' = b \/ exists r, v = 0 /\ d = request_data r /\ request_fits r /\ ideal w c r b = Granted b').
Proof.
  intros F A Hc Hd. destruct (any_call w c v d s Hd) as [->|(r & -> & -> & Hr)]; [exists b; auto|].
  pose proof (step_ok w s b c r A F Hc Hr) as O. rewrite (entry_request w c r s Hr).
  destruct (Erc1155Example.exec (deployed w) c (op_of w c r) s) as [[u|e'|] s'] eqn:X; destruct (ideal w c r b) as [b'|why] eqn:I; cbn [outcome_is fst snd] in *.
  - destruct O as (s2 & E & A' & F'). exists b'. injection E as _ ->. split; [exact F'|]. split; [exact A'|]. right. exists r. auto.
  - exfalso. destruct why; [destruct O as (er & O & _)|destruct O as (er & O & _)|]; discriminate.
  - exfalso. destruct O as (s2 & E & _). discriminate.
  - exists b. auto.
  - exfalso. destruct O as (s2 & E & _). discriminate.
  - exists b. auto.
Qed.
Lemma sound_run h : sane h -> forall s b, book_fits b -> agrees s b ->
  exists b', book_fits b' /\ agrees (raw_run1155 h s) b'.
Proof.
  induction h as [|[w [[c v] d]] h IH]; intros Hh s b F A; [exists b; auto|].
  destruct (proj1 (List.Forall_cons_iff _ _ _) Hh) as [[Hc Hd] Hh'].
  change (raw_run1155 ((w, (c, v, d)) :: h) s) with (raw_run1155 h (snd (entry (Example1155 w) c v d s))).
  destruct (sound_step w c v d s b F A (proj1 Hc) Hd) as (b' & F' & A' & _). apply (IH Hh' _ b' F' A').
Qed.
Lemma speaks_reason e r : speaks e (Because r) -> decode_reason (revert_erc1155_example e) = Some r.
Proof.
  destruct e as [e|e]; cbn [speaks says revert_erc1155_example].
  - intros [H1 H2]. apply revert_erc1155_ok; assumption.
  - intros H. replace r with (reason_pausable e) by congruence. apply revert_pausable_ok.
Qed.
Lemma follows_ok w s b c r : book_fits b -> agrees s b -> is_address c -> request_fits r -> follows call1155 w s b c r.
Proof.
  intros F A Hc Hr. pose proof (step_ok w s b c r A F Hc Hr) as O. unfold follows. cbv beta. pose proof (entry_request w c r s Hr) as E.
  destruct (ideal w c r b) as [b'|why]; cbn [outcome_is] in O.
  - destruct O as (s' & X & A' & F'). rewrite X in E. exists s'. split; [exact E|]. split; [|exact F']. apply shows_agree; [apply (a_fit _ _ (proj1 A'))|assumption..].
  - destruct why as [why|d|].
    + destruct O as (e & X & Y). destruct (Erc1155Example.exec (deployed w) c (op_of w c r) s) as [[u|e'|] s']; cbn [fst] in X; try discriminate.
      replace e' with e in E by congruence. eexists. split; [exact E|]. apply speaks_reason, Y.
    + destruct O as (e & X & Y). destruct (Erc1155Example.exec (deployed w) c (op_of w c r) s) as [[u|e'|] s']; cbn [fst] in X; try discriminate.
      replace e' with e in E by congruence. rewrite E. destruct e as [e|e]; cbn [speaks says] in Y; [|discriminate]. rewrite Y. reflexivity.
    + destruct (Erc1155Example.exec (deployed w) c (op_of w c r) s) as [[u|e'|] s']; cbn [fst] in O; try discriminate. exact E.
Qed.
(** ** Theorems *)

(** A user who reads the getters knows what every request will do: after every history of calls
    by anybody, with any bytes and any value, among any receivers, the getters show a book, and
    the answer to every request and the book shown afterwards are those of the ideal one. *)
Theorem c92_erc1155_is_the_ideal_collection :
  forall h, sane h ->
  let call := fun w => entry (Example1155 w) in
  let s := raw_run1155 h Erc1155Example.init in
  (exists b, book_fits b /\ shows call s b) /\
  (forall w b c r, book_fits b -> shows call s b -> caller_ok c -> request_fits r -> follows call w s b c r) /\
  shows call Erc1155Example.init new_book.
Proof.
  intros h Hh call s. destruct (sound_run h Hh _ new_book new_fits agrees_init) as (b & F & A). fold s in A.
  assert (G := a_fit _ _ (proj1 A)). split; [|split].
  - exists b. split; [exact F|]. apply (shows_agree s b G F). exact A.
  - intros w b' c r F' S' Hc Hr. apply (shows_agree s b' G F') in S'. apply follows_ok; [assumption..|apply Hc|assumption].
  - apply (shows_agree _ _ (a_fit _ _ (proj1 agrees_init)) new_fits), agrees_init.
Qed.
Print Assumptions c92_erc1155_is_the_ideal_collection.

(** In particular the book shown after a series of requests is the one computed by hand. *)
Theorem c92_erc1155_computed_by_hand :
  forall l, List.Forall (fun x => caller_ok (snd (fst x)) /\ request_fits (snd x)) l ->
  let b := ideal_run l new_book in
  book_fits b /\ shows (fun w => entry (Example1155 w)) (raw_run1155 (sends l) Erc1155Example.init) b.
Proof.
  assert (K : forall l, List.Forall (fun x => caller_ok (snd (fst x)) /\ request_fits (snd x)) l ->
    forall s b, book_fits b -> agrees s b -> book_fits (ideal_run l b) /\ agrees (raw_run1155 (sends l) s) (ideal_run l b)).
  { induction 1 as [|[[w c] r] l [Hc Hr] Hl IH]; intros s b F A; [split; assumption|]. cbn [fst snd] in Hc, Hr.
    change (raw_run1155 (sends ((w, c, r) :: l)) s) with (raw_run1155 (sends l) (snd (entry (Example1155 w) c 0 (request_data r) s))).
    change (ideal_run ((w, c, r) :: l) b) with (ideal_run l (ideal_step b (w, c, r))). unfold ideal_step. cbn [fst snd].
    pose proof (step_ok w s b c r A F (proj1 Hc) Hr) as O. rewrite (entry_request w c r s Hr).
    destruct (ideal w c r b) as [b'|why]; cbn [outcome_is] in O.
    - destruct O as (s' & -> & A' & F'). cbn [snd]. apply IH; assumption.
    - destruct (Erc1155Example.exec (deployed w) c (op_of w c r) s) as [[u|e'|] s']; cbn [fst snd] in *; [|apply IH; assumption..].
      exfalso. destruct why; [destruct O as (er & O & _)|destruct O as (er & O & _)|]; discriminate. }
  intros l Hl b. destruct (K l Hl _ new_book new_fits agrees_init) as (F & A). fold b in F, A. split; [exact F|].
  apply shows_agree; [apply (a_fit _ _ (proj1 A))|assumption..].
Qed.
Print Assumptions c92_erc1155_computed_by_hand.

(** Many balances in one question: the list of them, in order, or a complaint about the lengths. *)
Theorem c92_many_balances :
  forall h, sane h ->
  let s := raw_run1155 h Erc1155Example.init in
  forall b, book_fits b -> shows (fun w => entry (Example1155 w)) s b ->
  forall w c accounts ids, List.Forall is_address accounts -> numbers_fit ids ->
  let asked := calldata "balanceOfBatch(address[],uint256[])" [Words accounts; Words ids] in
  size asked < two256 ->
  if (length accounts =? length ids)%nat then
    entry (Example1155 w) c 0 asked s = (Returned (abi_params [Words (map (fun p => m_balance b (fst p) (snd p)) (combine accounts ids))]), s)
  else exists d, entry (Example1155 w) c 0 asked s = (Reverted d, s) /\
    decode_reason d = Some (ERC1155InvalidArrayLength (Z.of_nat (length ids)) (Z.of_nat (length accounts))).
Proof.
  intros h Hh s b F S w c accounts ids Ha Hi asked Hsz.
  destruct (sound_run h Hh _ new_book new_fits agrees_init) as (b0 & _ & A0). fold s in A0.
  apply (shows_agree s b (a_fit _ _ (proj1 A0)) F) in S. destruct S as [A _].
  assert (L1 : Z.of_nat (length accounts) < two256) by (eapply list_fits; [|exact Hsz]; cbn; auto).
  assert (L2 : Z.of_nat (length ids) < two256) by (eapply list_fits; [|exact Hsz]; cbn; auto).
  assert (E : entry (Example1155 w) c 0 asked s =
    finish (Example1155 w) ((l <~ Erc1155Example.on_erc1155 (Erc1155.balance_of_batch accounts ids) ;; ret [Words l]) s) s).
  { unfold asked. refine (eq_trans (call_request w "balanceOfBatch(address[],uint256[])"%string [Words accounts; Words ids] c s "Erc1155"%string
      (fn "balance_of_batch" [Vec Address; Vec U256]) _ _ _ _ _) _); [vm_compute; reflexivity|vm_compute; reflexivity| |vals|exact Hsz|reflexivity].
    apply List.Forall2_cons; [exists Address; split; [reflexivity|exact Ha]|]. apply List.Forall2_cons; [apply words_typed, Hi|apply List.Forall2_nil]. }
  rewrite E. clear E. generalize asked. intros _. clear asked Hsz. clearbody s.
  unfold Erc1155Example.on_erc1155, Erc1155.balance_of_batch, Erc1155.require_equal_arrays_length. mred.
  rewrite (Nat.eqb_sym (length ids)). destruct (length accounts =? length ids)%nat; cbn [negb finish].
  - f_equal; [|destruct s; reflexivity]. do 4 f_equal. clear L1 L2. revert ids Hi. induction Ha as [|a accounts Ha1 Ha IH]; intros [|i ids] Hi; cbn [combine map]; try reflexivity.
    destruct (proj1 (List.Forall_cons_iff _ _ _) Hi) as [Hi1 Hi2]. f_equal; [|apply IH, Hi2]. cbn [fst snd]. symmetry. apply (a_bal _ _ A); assumption.
  - eexists. split; [reflexivity|]. apply (revert_erc1155_ok (Erc1155.InvalidArrayLength (Z.of_nat (length ids)) (Z.of_nat (length accounts)))); [reflexivity|].
    unfold reason_fits. cbn [numbers]. repeat (apply List.Forall_cons; [apply length_u256; assumption|]). apply List.Forall_nil.
Qed.
Print Assumptions c92_many_balances.

Lemma exposed1155_interface w t f : In (t, f) (exposed (blocks (Example1155 w))) -> In (fn_sig f, arg_types f) erc1155_interface.
Proof.
  rewrite exposed1155_ok. intros Hin.
  assert (K : forallb (fun tf => if in_dec same_entry (fn_sig (snd tf), arg_types (snd tf)) erc1155_interface then true else false) exposed1155 = true)
    by (vm_compute; reflexivity).
  rewrite forallb_forall in K. specialize (K (t, f) Hin). cbn [snd] in K. destruct (in_dec _ _ _) as [I|]; [exact I|discriminate].
Qed.
(** Anything but a well-formed call of a public function without value fails without a reason
    and without effect; whatever changes the state is one of the nine requests, to the letter. *)
Theorem c92_erc1155_nothing_else :
  forall w c v d s, data_fits d ->
  let call := entry (Example1155 w) in
  (~ proper v d -> call c v d s = (Reverted [], s)) /\
  (snd (call c v d s) <> s -> exists r, v = 0 /\ d = request_data r /\ request_fits r) /\
  (forall out s', call c v d s = (Returned out, s') -> proper v d).
Proof.
  intros w c v d s Hdf call.
  assert (P : call c v d s = (Reverted [], s) \/ proper v d).
  { destruct (entry_cases (Example1155 w) c v d s (known1155 w) (proj1 Hdf) (proj2 Hdf)) as [K|(t & f & args & Hin & Hv & Ht & Hd & _)]; [left; exact K|right].
    split; [exact Hv|]. exists (fn_sig f), (arg_types f), args. split; [apply (exposed1155_interface w t), Hin|]. split; assumption. }
  split; [destruct P; tauto|]. split.
  - intros Hs. destruct (any_call w c v d s Hdf) as [K|K]; [contradiction (Hs K)|exact K].
  - intros out s' E. destruct P as [P|P]; [congruence|exact P].
Qed.
Print Assumptions c92_erc1155_nothing_else.

(** *** What the ideal book does *)
Lemma checks_granted l b b' : checks l b = Granted b' -> b' = b /\ List.Forall (fun x => fst x = false) l.
Proof.
  induction l as [|[[] r] l IH]; cbn [checks]; intros H; [split; [congruence|apply List.Forall_nil]|discriminate|].
  destruct (IH H) as [-> L]. split; [reflexivity|]. apply List.Forall_cons; [reflexivity|exact L].
Qed.
Lemma reply_granted v nxt b' : reply_to v nxt = Granted b' -> exists b, v = Granted b /\ nxt b = Granted b'.
Proof. destruct v as [b|]; cbn [reply_to]; intros H; [eauto|discriminate]. Qed.
Lemma asking_granted w c f t ids vs d b b' : asking w c f t ids vs d b = Granted b' -> b' = b.
Proof.
  unfold asking. destruct (deployed w t); [|congruence]. destruct (question c f ids vs d) as [a k].
  destruct (replies w t a) as [out|[|]]; [destruct (list_eq_dec _ _ _)|..]; congruence.
Qed.
Lemma each_shifted act g : (forall id v b b', act id v b = Granted b' -> shifted (fun a i => if id =? i then g a v else 0) b b') ->
  (forall a x y, g a (x + y) = g a x + g a y) -> (forall a, g a 0 = 0) ->
  forall ids vs b b', each act ids vs b = Granted b' -> shifted (fun a i => g a (amount ids vs i)) b b'.
Proof.
  intros H G0 G1 ids. induction ids as [|id ids IH]; intros [|v vs] b b'; cbn [each amount].
  1-3: intros [= <-]; split; [|auto]; intros a i; rewrite G1; lia.
  intros E. apply reply_granted in E. destruct E as (b1 & E1 & E2). destruct (H _ _ _ _ E1) as (B1 & O1 & P1). destruct (IH _ _ _ E2) as (B2 & O2 & P2).
  split; [|split; congruence]. intros a i. rewrite B2, B1, G0. destruct (id =? i); [lia|]. rewrite G1. lia.
Qed.
Lemma taken_shifted f id v b b' : taken f id v b = Granted b' -> shifted (fun a i => if id =? i then (if a =? f then - v else 0) else 0) b b'.
Proof.
  unfold taken. destruct (_ <? _); [discriminate|]. intros [= <-]. split; [|auto]. intros a i. cbn [holds m_balance].
  rewrite (Z.eqb_sym id i). destruct (Z.eqb_spec a f) as [->|]; destruct (Z.eqb_spec i id) as [->|]; cbn [andb]; lia.
Qed.
Lemma given_shifted t id v b b' : given t id v b = Granted b' -> shifted (fun a i => if id =? i then (if a =? t then v else 0) else 0) b b'.
Proof.
  unfold given. destruct (_ <=? _); [discriminate|]. intros [= <-]. split; [|auto]. intros a i. cbn [holds m_balance].
  rewrite (Z.eqb_sym id i). destruct (Z.eqb_spec a t) as [->|]; destruct (Z.eqb_spec i id) as [->|]; cbn [andb]; lia.
Qed.
Lemma minting_shifted w c t ids vs d b b' : minting w c t ids vs d b = Granted b' ->
  length ids = length vs /\ t <> 0 /\ m_paused b = false /\ shifted (fun a i => if a =? t then amount ids vs i else 0) b b'.
Proof.
  unfold minting. intros H. apply reply_granted in H. destruct H as (b1 & E1 & H). apply checks_granted in E1. destruct E1 as [-> L].
  apply reply_granted in H. destruct H as (b2 & E2 & H). apply asking_granted in H. subst b'.
  apply List.Forall_app in L. destruct L as [L1 L]. apply List.Forall_app in L. destruct L as [L2 L3]. unfold running, somebody, paired in *.
  inversion L1 as [|? ? K1 _]; inversion L2 as [|? ? K2 _]; inversion L3 as [|? ? K3 _]; subst. cbn [fst] in *. apply negb_false_iff, Nat.eqb_eq in K3.
  split; [exact K3|]. split; [lia|]. split; [exact K1|].
  apply (each_shifted (given t) (fun a x => if a =? t then x else 0)); [apply given_shifted|intros a x y; destruct (a =? t); lia|intros a; destruct (a =? t); reflexivity|exact E2].
Qed.
Lemma burning_shifted c f ids vs b b' : burning c f ids vs b = Granted b' ->
  length ids = length vs /\ f <> 0 /\ m_paused b = false /\ (c = f \/ m_operator b f c = true) /\ shifted (fun a i => if a =? f then - amount ids vs i else 0) b b'.
Proof.
  unfold burning. intros H. apply reply_granted in H. destruct H as (b1 & E1 & E2). apply checks_granted in E1. destruct E1 as [-> L].
  apply List.Forall_app in L. destruct L as [L1 L]. apply List.Forall_app in L. destruct L as [L0 L]. apply List.Forall_app in L. destruct L as [L2 L3].
  unfold running, entitled, somebody, paired in *.
  inversion L1 as [|? ? K1 _]; inversion L0 as [|? ? K0 _]; inversion L2 as [|? ? K2 _]; inversion L3 as [|? ? K3 _]; subst. cbn [fst] in *. apply negb_false_iff, Nat.eqb_eq in K3.
  split; [exact K3|]. split; [lia|]. split; [exact K1|]. split.
  { destruct (m_operator b f c); [auto|]. left. lia. }
  apply (each_shifted (taken f) (fun a x => if a =? f then - x else 0)); [apply taken_shifted|intros a x y; destruct (a =? f); lia|intros a; destruct (a =? f); reflexivity|exact E2].
Qed.
Lemma moving_shifted w c f t ids vs d b b' : moving w c f t ids vs d b = Granted b' ->
  length ids = length vs /\ f <> 0 /\ t <> 0 /\ m_paused b = false /\ (c = f \/ m_operator b f c = true) /\
  shifted (fun a i => (if a =? t then amount ids vs i else 0) - (if a =? f then amount ids vs i else 0)) b b'.
Proof.
  unfold moving. intros H. apply reply_granted in H. destruct H as (b1 & E1 & H). apply checks_granted in E1. destruct E1 as [-> L].
  apply reply_granted in H. destruct H as (b2 & E2 & H). apply asking_granted in H. subst b'.
  apply List.Forall_app in L. destruct L as [L1 L]. apply List.Forall_app in L. destruct L as [L0 L]. apply List.Forall_app in L. destruct L as [L2 L].
  apply List.Forall_app in L. destruct L as [L4 L3].
  unfold running, entitled, somebody, paired in *.
  inversion L1 as [|? ? K1 _]; inversion L0 as [|? ? K0 _]; inversion L2 as [|? ? K2 _]; inversion L4 as [|? ? K4 _]; inversion L3 as [|? ? K3 _]; subst. cbn [fst] in *.
  apply negb_false_iff, Nat.eqb_eq in K3.
  split; [exact K3|]. split; [lia|]. split; [lia|]. split; [exact K1|]. split.
  { destruct (m_operator b f c); [auto|]. left. lia. }
  apply (each_shifted (fun id v b => reply_to (taken f id v b) (given t id v)) (fun a x => (if a =? t then x else 0) - (if a =? f then x else 0)));
    [|intros a x y; destruct (a =? t), (a =? f); lia|intros a; destruct (a =? t), (a =? f); reflexivity|exact E2].
  intros id v b3 b4 H. apply reply_granted in H. destruct H as (b5 & H1 & H2). destruct (taken_shifted _ _ _ _ _ H1) as (B1 & O1 & P1).
  destruct (given_shifted _ _ _ _ _ H2) as (B2 & O2 & P2). split; [|split; congruence].
  intros a i. rewrite B2, B1. destruct (id =? i), (a =? t), (a =? f); lia.
Qed.

(** What a granted request did: the holder's balances went down and the receiver's up by exactly
    what the lists say, nobody else's changed, and neither did approvals or the pause. *)
Theorem c92_what_was_moved :
  forall w c b b',
  (forall t ids vs d, ideal w c (MintBatch t ids vs d) b = Granted b' ->
     length ids = length vs /\ t <> 0 /\ m_paused b = false /\ shifted (fun a i => if a =? t then amount ids vs i else 0) b b') /\
  (forall f ids vs, ideal w c (BurnBatch f ids vs) b = Granted b' ->
     length ids = length vs /\ f <> 0 /\ m_paused b = false /\ (c = f \/ m_operator b f c = true) /\
     shifted (fun a i => if a =? f then - amount ids vs i else 0) b b') /\
  (forall f t ids vs d, ideal w c (TransferBatch f t ids vs d) b = Granted b' ->
     length ids = length vs /\ f <> 0 /\ t <> 0 /\ m_paused b = false /\ (c = f \/ m_operator b f c = true) /\
     shifted (fun a i => (if a =? t then amount ids vs i else 0) - (if a =? f then amount ids vs i else 0)) b b') /\
  (forall f t id v d, ideal w c (Transfer f t id v d) b = ideal w c (TransferBatch f t [id] [v] d) b /\
     ideal w c (Mint t id v d) b = ideal w c (MintBatch t [id] [v] d) b /\ ideal w c (Burn f id v) b = ideal w c (BurnBatch f [id] [v]) b).
Proof.
  intros w c b b'. split; [intros t ids vs d; apply minting_shifted|]. split; [intros f ids vs; apply burning_shifted|].
  split; [intros f t ids vs d; apply moving_shifted|]. intros f t id v d. exact (conj eq_refl (conj eq_refl eq_refl)).
Qed.
Print Assumptions c92_what_was_moved.

Lemma amount_nonneg ids : forall vs id, numbers_fit vs -> 0 <= amount ids vs id.
Proof.
  induction ids as [|i ids IH]; intros [|v vs] id H; cbn [amount]; try lia.
  destruct (proj1 (List.Forall_cons_iff _ _ _) H) as [H1 H2]. specialize (IH vs id H2). unfold is_u256 in H1. destruct (i =? id); lia.
Qed.
Lemma ideal_sleep w c r b b' a : request_fits r -> ideal w c r b = Granted b' -> c <> a -> m_operator b a c = false ->
  (forall id, m_balance b a id <= m_balance b' a id) /\ (forall p, m_operator b' a p = m_operator b a p).
Proof.
  intros [_ Hr] H Hc Ho.
  destruct r as [t i v d|t is vs d|f i v|f is vs|f t i v d|f t is vs d|q v| |]; cbn [ideal] in H; cbv beta iota in Hr.
  1-2: apply minting_shifted in H; destruct H as (_ & _ & _ & B & O & _); split; [|intros; congruence]; intros id; rewrite B;
    destruct (a =? t); [|lia]; match goal with |- context [amount ?i ?v id] => pose proof (amount_nonneg i v id ltac:(first [apply one_fits; tauto|tauto])) end; lia.
  1-2: apply burning_shifted in H; destruct H as (_ & _ & _ & E & B & O & _); split; [|intros; congruence]; intros id; rewrite B;
    destruct (Z.eqb_spec a f) as [->|]; [destruct E; congruence|lia].
  1-2: apply moving_shifted in H; destruct H as (_ & _ & _ & _ & E & B & O & _); split; [|intros; congruence]; intros id; rewrite B;
    destruct (Z.eqb_spec a f) as [->|]; [destruct E; congruence|];
    match goal with |- context [amount ?i ?v id] => pose proof (amount_nonneg i v id ltac:(first [apply one_fits; tauto|tauto])) end; destruct (a =? t); lia.
  - apply checks_granted in H. destruct H as [-> _]. split; [intros id; cbn; lia|]. intros p. cbn [operates m_operator]. replace (a =? c) with false by lia. reflexivity.
  - apply checks_granted in H. destruct H as [-> _]. split; [intros id; cbn; lia|reflexivity].
  - apply checks_granted in H. destruct H as [-> _]. split; [intros id; cbn; lia|reflexivity].
Qed.
Lemma sleep_run a h : sane h -> asleep a h -> forall s b, book_fits b -> agrees s b -> (forall p, is_address p -> m_operator b a p = false) ->
  exists b', book_fits b' /\ agrees (raw_run1155 h s) b' /\ (forall id, m_balance b a id <= m_balance b' a id) /\ (forall p, is_address p -> m_operator b' a p = false).
Proof.
  induction h as [|[w [[c v] d]] h IH]; intros Hh Hs s b F A O; [exists b; split; [exact F|]; split; [exact A|]; split; [intros; lia|exact O]|].
  destruct (proj1 (List.Forall_cons_iff _ _ _) Hh) as [[Hc Hd] Hh']. destruct (proj1 (List.Forall_cons_iff _ _ _) Hs) as [Hs1 Hs2]. cbn [fst snd] in Hs1.
  change (raw_run1155 ((w, (c, v, d)) :: h) s) with (raw_run1155 h (snd (entry (Example1155 w) c v d s))).
  destruct (sound_step w c v d s b F A (proj1 Hc) Hd) as (b1 & F1 & A1 & K).
  assert (K' : (forall id, m_balance b a id <= m_balance b1 a id) /\ (forall p, is_address p -> m_operator b1 a p = false)).
  { destruct K as [->|(r & _ & _ & Hr & K)]; [split; [intros; lia|exact O]|].
    destruct (ideal_sleep w c r b b1 a Hr K Hs1 (O c (proj1 Hc))) as [K1 K2]. split; [exact K1|]. intros p Hp. rewrite K2. apply O, Hp. }
  destruct K' as [K1 K2]. destruct (IH Hh' Hs2 _ b1 F1 A1 K2) as (b2 & F2 & A2 & L1 & L2). exists b2. split; [exact F2|]. split; [exact A2|]. split; [|exact L2].
  intros id. specialize (K1 id). specialize (L1 id). lia.
Qed.
(** A holder without operators who does nothing loses nothing, whatever anybody else sends. *)
Theorem c92_sleeping_holder :
  forall h0 h a, sane h0 -> sane h -> asleep a h -> is_address a ->
  let call := fun w => entry (Example1155 w) in
  let s := raw_run1155 h0 Erc1155Example.init in
  let s' := raw_run1155 h s in
  forall b b', book_fits b -> book_fits b' -> shows call s b -> shows call s' b' ->
  (forall p, is_address p -> m_operator b a p = false) ->
  (forall id, is_u256 id -> m_balance b a id <= m_balance b' a id) /\ (forall p, is_address p -> m_operator b' a p = false).
Proof.
  intros h0 h a Hh0 Hh Hs Ha call s s' b b' F F' S S' O.
  destruct (sound_run h0 Hh0 _ new_book new_fits agrees_init) as (b0 & _ & A0). fold s in A0.
  apply (shows_agree s b (a_fit _ _ (proj1 A0)) F) in S.
  destruct (sleep_run a h Hh Hs s b F S O) as (b1 & F1 & A1 & K1 & K2). fold s' in A1.
  apply (shows_agree s' b' (a_fit _ _ (proj1 A1)) F') in S'. split.
  - intros id Hid. rewrite (a_bal _ _ (proj1 S') a id Ha Hid), <- (a_bal _ _ (proj1 A1) a id Ha Hid). apply K1.
  - intros p Hp. rewrite (a_op _ _ (proj1 S') a p Ha Hp), <- (a_op _ _ (proj1 A1) a p Ha Hp). apply K2, Hp.
Qed.
Print Assumptions c92_sleeping_holder.

Lemma ideal_frozen w c r b b' : ideal w c r b = Granted b' -> m_paused b = true -> r <> Unpause -> m_balance b' = m_balance b /\ m_paused b' = true.
Proof.
  intros H Hp Hr. destruct r as [t i v d|t is vs d|f i v|f is vs|f t i v d|f t is vs d|q v| |]; cbn [ideal] in H.
  1-2: apply minting_shifted in H; destruct H as (_ & _ & P & _); congruence.
  1-2: apply burning_shifted in H; destruct H as (_ & _ & P & _); congruence.
  1-2: apply moving_shifted in H; destruct H as (_ & _ & _ & P & _); congruence.
  - apply checks_granted in H. destruct H as [-> _]. split; [reflexivity|exact Hp].
  - apply checks_granted in H. destruct H as [-> _]. split; reflexivity.
  - congruence.
Qed.
Lemma frozen_run h : sane h -> no_unpause h -> forall s b, book_fits b -> agrees s b -> m_paused b = true ->
  exists b', book_fits b' /\ agrees (raw_run1155 h s) b' /\ m_balance b' = m_balance b /\ m_paused b' = true.
Proof.
  induction h as [|[w [[c v] d]] h IH]; intros Hh Hs s b F A O; [exists b; auto|].
  destruct (proj1 (List.Forall_cons_iff _ _ _) Hh) as [[Hc Hd] Hh']. destruct (proj1 (List.Forall_cons_iff _ _ _) Hs) as [Hs1 Hs2]. cbn [fst snd] in Hs1.
  change (raw_run1155 ((w, (c, v, d)) :: h) s) with (raw_run1155 h (snd (entry (Example1155 w) c v d s))).
  destruct (sound_step w c v d s b F A (proj1 Hc) Hd) as (b1 & F1 & A1 & K).
  assert (K' : m_balance b1 = m_balance b /\ m_paused b1 = true).
  { destruct K as [->|(r & _ & E & Hr & K)]; [auto|]. apply (ideal_frozen w c r b b1 K O). intros ->. apply Hs1, E. }
  destruct K' as [K1 K2]. destruct (IH Hh' Hs2 _ b1 F1 A1 K2) as (b2 & F2 & A2 & L1 & L2). exists b2. split; [exact F2|]. split; [exact A2|]. split; [congruence|exact L2].
Qed.
(** A pause freezes all balances until somebody ends it. *)
Theorem c92_frozen :
  forall h0 h, sane h0 -> sane h -> no_unpause h ->
  let call := fun w => entry (Example1155 w) in
  let s := raw_run1155 h0 Erc1155Example.init in
  let s' := raw_run1155 h s in
  forall b b', book_fits b -> book_fits b' -> shows call s b -> shows call s' b' -> m_paused b = true ->
  m_paused b' = true /\ forall a id, is_address a -> is_u256 id -> m_balance b' a id = m_balance b a id.
Proof.
  intros h0 h Hh0 Hh Hs call s s' b b' F F' S S' O.
  destruct (sound_run h0 Hh0 _ new_book new_fits agrees_init) as (b0 & _ & A0). fold s in A0.
  apply (shows_agree s b (a_fit _ _ (proj1 A0)) F) in S.
  destruct (frozen_run h Hh Hs s b F S O) as (b1 & F1 & A1 & K1 & K2). fold s' in A1.
  apply (shows_agree s' b' (a_fit _ _ (proj1 A1)) F') in S'. split.
  - rewrite (proj2 S'), <- (proj2 A1). exact K2.
  - intros a id Ha Hid. rewrite (a_bal _ _ (proj1 S') a id Ha Hid), <- (a_bal _ _ (proj1 A1) a id Ha Hid). rewrite K1. reflexivity.
Qed.
Print Assumptions c92_frozen.

(** The interfaces the contract says it supports. *)
Theorem c92_constants :
  forall w s c id, 0 <= id < 2 ^ 32 -> exists yes : bool,
  entry (Example1155 w) c 0 (calldata "supportsInterface(bytes4)" [Word (id * 2 ^ 224)]) s = (Returned (word (if yes then 1 else 0)), s) /\
  (yes = true <-> In id [0xd9b67a26; 0x01ffc9a7]).
Proof.
  intros w s c id Hid. exists (Introspection.Erc1155Example (firstn 4 (word (id * 2 ^ 224)))). split.
  - rewrite (call_request w "supportsInterface(bytes4)"%string [Word (id * 2 ^ 224)] c s "Erc1155Example"%string (fn "supports_interface" [FixedBytes4])).
    + rewrite <- one_word. generalize (id * 2 ^ 224). intros x.
      change (body_of _ _ _ _ c s) with (@gets Erc1155Example.state Erc1155Example.error (list val)
        (fun _ => [Word (of_bool (Introspection.Erc1155Example (firstn 4 (word x))))]) s).
      destruct (Introspection.Erc1155Example (firstn 4 (word x))); reflexivity.
    + vm_compute. reflexivity.
    + vm_compute. reflexivity.
    + apply List.Forall2_cons; [|constructor]. cbn [has_type word_of_type]. exists id. split; [exact Hid|reflexivity].
    + vals.
    + small [id * 2 ^ 224].
  - destruct (Entry_props.bytes4_of id Hid) as (B1 & B2 & B3). pose proof Introspection_props.c70_examples as X.
    decompose [and] X. match goal with H : context [Introspection.Erc1155Example] |- _ => rewrite (H _ B1 B2), B3 end. reflexivity.
Qed.
Print Assumptions c92_constants.

(** ** The hypotheses hold: a history by bytes *)
(** A shop that takes every batch, and one that wants nothing and says so. *)
Definition shop_open : world := mkWorld (fun a => a =? 20) (fun _ _ => Returned (word (0xbc197c81 * 2 ^ 224))).
Definition shop_closed : world := mkWorld (fun a => a =? 20) (fun _ _ => Reverted [1; 2; 3]).
Definition story : list (world * Z * request) :=
  [(shop_closed, 10, MintBatch 10 [7; 8; 7] [5; 6; 1] []); (shop_closed, 10, TransferBatch 10 20 [7; 8] [1; 2] [9]);
   (shop_open, 10, TransferBatch 10 20 [7; 8] [1; 2] [9]); (shop_open, 10, SetApprovalForAll 30 true); (shop_open, 30, Burn 10 8 4)].
Lemma story_data sig args n : n < two256 -> List.Forall bytes_val args -> 4 + size (abi_params args) = n -> data_fits (calldata sig args).
Proof.
  intros Hn Hb H. split.
  - unfold calldata. apply List.Forall_app. split; [apply be_bytes_byte|apply abi_params_bytes, Hb].
  - unfold calldata. rewrite size_app. unfold size at 1. rewrite be_bytes_length. change (Z.of_nat 4) with 4. lia.
Qed.
Ltac data_ok n := apply (story_data _ _ n); [reflexivity|repeat (apply List.Forall_cons; [first [exact I|repeat (apply List.Forall_cons; [unfold is_byte; lia|]); apply List.Forall_nil]|]); apply List.Forall_nil|
  rewrite abi_params_size; reflexivity].
Example c92_nonvacuous :
  let h := sends story in
  let call := fun w => entry (Example1155 w) in
  let s := raw_run1155 h Erc1155Example.init in
  sane h /\ asleep 20 h /\ no_unpause h /\
  List.Forall (fun x => caller_ok (snd (fst x)) /\ request_fits (snd x)) story /\
  exists b, book_fits b /\ shows call s b /\
    m_balance b 10 7 = 5 /\ m_balance b 10 8 = 0 /\ m_balance b 20 7 = 1 /\ m_balance b 20 8 = 2 /\
    ideal shop_closed 10 (Transfer 10 20 7 1 []) b = Denied (Quoting [1; 2; 3]) /\
    ideal shop_open 10 (Transfer 10 20 7 1 []) b = Denied (Because (ERC1155InvalidReceiver 20)) /\
    ideal shop_open 30 (Transfer 10 40 8 1 []) b = Denied (Because (ERC1155InsufficientBalance 10 0 1 8)) /\
    ideal shop_open 30 (Mint 10 7 (two256 - 5) []) b = Denied Silent /\
    (exists b', ideal shop_open 10 Pause b = Granted b' /\ m_paused b' = true).
Proof.
  intros h call s.
  assert (B : forall x, 0 <= x < 100 -> is_u256 x) by (intros x Hx; split; [lia|transitivity 100; [lia|reflexivity]]).
  assert (A : forall x, 0 <= x < 100 -> is_address x) by (intros x Hx; split; [lia|transitivity 100; [lia|reflexivity]]).
  assert (C : forall x, 0 < x < 100 -> caller_ok x) by (intros x Hx; split; [apply A; lia|lia]).
  assert (D : List.Forall (fun x => data_fits (request_data (snd x))) story).
  { unfold story. apply List.Forall_cons; [cbn [snd]; unfold request_data; data_ok 420|].
    apply List.Forall_cons; [cbn [snd]; unfold request_data; data_ok 420|]. apply List.Forall_cons; [cbn [snd]; unfold request_data; data_ok 420|].
    apply List.Forall_cons; [cbn [snd]; unfold request_data; data_ok 68|]. apply List.Forall_cons; [cbn [snd]; unfold request_data; data_ok 100|]. apply List.Forall_nil. }
  assert (R : List.Forall (fun x => caller_ok (snd (fst x)) /\ request_fits (snd x)) story).
  { unfold story in *. repeat (destruct (proj1 (List.Forall_cons_iff _ _ _) D) as [[_ D1] D']; clear D; rename D' into D;
      apply List.Forall_cons; [split; [apply C; cbn [fst snd]; lia|split; [exact D1|]]; clear D1|clear D1]); [..|apply List.Forall_nil].
    all: cbn [snd]; repeat match goal with |- _ /\ _ => split end.
    all: try (apply A; lia); try (apply B; lia).
    all: unfold numbers_fit, bytes_fit; repeat (apply List.Forall_cons; [first [apply B; lia|unfold is_byte; lia]|]); try apply List.Forall_nil. }
  assert (S : sane h).
  { unfold sane, h, sends. rewrite List.Forall_map. rewrite List.Forall_forall in *. intros x Hx. specialize (D x Hx). destruct (R x Hx) as [R1 _]. exact (conj R1 D). }
  split; [exact S|]. split; [|split; [|split; [exact R|]]].
  - unfold asleep, h, sends. rewrite List.Forall_map. unfold story. repeat (apply List.Forall_cons; [cbn [fst snd]; lia|]). apply List.Forall_nil.
  - unfold no_unpause, h, sends. rewrite List.Forall_map.
    assert (K : forall sig args, size (abi_params args) <> 0 -> calldata sig args <> request_data Unpause).
    { intros sig args Hs E. apply Hs. apply (f_equal size) in E. unfold request_data, calldata in E. rewrite !size_app in E. unfold size at 1 3 in E.
      rewrite !be_bytes_length in E. change (size (abi_params [])) with 0 in E. lia. }
    unfold story. repeat (apply List.Forall_cons; [cbn [fst snd]; apply K; rewrite abi_params_size; discriminate|]). apply List.Forall_nil.
  - destruct (c92_erc1155_computed_by_hand story R) as [F Sh]. fold h in Sh. fold s in Sh. fold call in Sh.
    exists (ideal_run story new_book). split; [exact F|]. split; [exact Sh|]. clear.
    do 8 (split; [reflexivity|]). eexists. split; reflexivity.
Qed.
