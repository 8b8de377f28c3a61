(** C101: bytes in, bytes out for examples/erc1155-metadata-uri. *)
From Verif.Base Require Import Prelude Bytes Keccak Maps.
From stdpp Require Import gmap.
From Coq Require Import String List.
From Verif.Model Require Import Introspection Router Entry EntryErc721 EntryErc1155 EntryUri.
From Verif.Model Require SolAbi Erc1155 Erc1155Example Erc721Uri Utf8.
From Verif.Spec Require Import Router_spec SolAbi_spec LogMeaning_spec Utf8_spec.
From Verif.Spec Require Entry_spec EntryMulti_spec EntryUri_spec.
From Verif.Proofs Require Import Router_lemmas Entry_lemmas.
From Verif.Proofs Require SolAbi_lemmas Utf8_lemmas EntryNft_lemmas EntryMulti_lemmas EntryUri_lemmas.
From Verif.Props Require Import SolAbi_props.
From Verif.Props Require Introspection_props Entry_props EntryNft_props EntryMulti_props EntryMeta_props.
Import SolAbi.
Import Entry_spec (calldata, is_address, has_type, word_of_type).
Import EntryMulti_spec.
Import EntryNft_lemmas (bytes_val, abi_params_bytes, abi_params_size, one_word, addr0, addr_u256).
Import EntryMulti_lemmas.
Import EntryNft_props (same_entry).
Import EntryMulti_props (words_typed, bytes_typed, small_data, nobody, story_data).
Import EntryUri_spec EntryUri_lemmas.
#[global] Open Scope Z_scope.
Local Open Scope list_scope.
Local Open Scope Z_scope.
Opaque keccak256.

Lemma known_uri w : all_known (blocks (ExampleUri w)) = true.
Proof. vm_compute. reflexivity. Qed.
Definition exposed_uri := Eval vm_compute in exposed Pub.Erc1155MetadataUriExample.
Lemma exposed_uri_ok w : exposed (blocks (ExampleUri w)) = exposed_uri.
Proof. vm_compute. reflexivity. Qed.
Lemma call_request w sig args c s t f :
  k_fits sig = true -> find_fn_k Pub.Erc1155MetadataUriExample (k sig) = Some (t, f) ->
  List.Forall2 has_type (arg_types f) args -> List.Forall bytes_val args -> size (calldata sig args) < two256 ->
  entry (ExampleUri w) c 0 (calldata sig args) s =
  finish (ExampleUri w) (body_of (code (ExampleUri w)) t (rust_name f) args c s) s.
Proof.
  intros H1 H2 H3 H4 H5. apply entry_calldata; auto using known_uri, abi_params_bytes.
  unfold calldata in H5. rewrite size_app in H5. pose proof (size_nonneg (be_bytes 4 (sig_selector sig))). lia.
Qed.
Lemma nothing_finish w (m : M state Erc1155.error unit) s :
  finish (ExampleUri w) (nothing m s) s =
  match m s with (Ok _, s') => (Returned [], s') | (Err e, _) => (Reverted (revert_erc1155 e), s) | (Panic, _) => (Reverted [], s) end.
Proof. unfold nothing. mred. destruct (m s) as [[[]|e|] s']; reflexivity. Qed.
Lemma text_typed d : text d -> has_type String_ (Octets d).
Proof. intros H. split; [right; reflexivity|exact H]. Qed.
Ltac types := repeat (apply List.Forall2_cons; [first [assumption|apply words_typed; assumption|apply bytes_typed; assumption|apply text_typed; assumption]|]); apply List.Forall2_nil.
Ltac vals := repeat (apply List.Forall_cons; [first [exact I|assumption]|]); apply List.Forall_nil.
Ltac call w sg l t f := refine (eq_trans (call_request w sg l _ _ t f _ _ _ _ _) _); [vm_compute; reflexivity|vm_compute; reflexivity|types|vals|try assumption|].
Ltac small l := apply (small_data _ l); reflexivity.
Lemma entry_request w c r s : asks r ->
  entry (ExampleUri w) c 0 (urequest_data r) s =
  match uexec_of w c r s with
  | (Ok _, s') => (Returned [], s')
  | (Err e, _) => (Reverted (revert_erc1155 e), s)
  | (Panic, _) => (Reverted [], s)
  end.
Proof.
  intros Hr. rewrite <- (nothing_finish w).
  destruct r as [[t i v d|t is vs d|f i v|f is vs|f t i v d|f t is vs d|q v| |]|id u|u]; cbn [asks available] in Hr; try contradiction (proj2 Hr); cbn [uexec_of exec_of].
  - destruct Hr as [[Hsz (H1 & H2 & H3 & H4 & H5)] _]. unfold urequest_data, request_data in *.
    call w "safeTransferFrom(address,address,uint256,uint256,bytes)"%string [Word f; Word t; Word i; Word v; Octets d] "Erc1155"%string (fn "safe_transfer_from" [Address; Address; U256; U256; Bytes]). reflexivity.
  - destruct Hr as [[Hsz (H1 & H2 & H3 & H4 & H5)] _]. unfold urequest_data, request_data in *.
    call w "safeBatchTransferFrom(address,address,uint256[],uint256[],bytes)"%string [Word f; Word t; Words is; Words vs; Octets d] "Erc1155"%string (fn "safe_batch_transfer_from" [Address; Address; Vec U256; Vec U256; Bytes]). reflexivity.
  - destruct Hr as [[Hsz Hr] _]. unfold urequest_data, request_data in *.
    refine (eq_trans (call_request w "setApprovalForAll(address,bool)"%string [Word q; Word (if v then 1 else 0)] _ _ "Erc1155"%string (fn "set_approval_for_all" [Address; bool_]) _ _ _ _ _) _);
      [vm_compute; reflexivity|vm_compute; reflexivity| |vals|exact Hsz|].
    + apply List.Forall2_cons; [exact Hr|]. apply List.Forall2_cons; [|apply List.Forall2_nil]. cbn [has_type word_of_type]. destruct v; auto.
    + destruct v; reflexivity.
  - destruct Hr as (H1 & H2 & H3). pose proof (Utf8_lemmas.text_bytes u H2) as H4. unfold urequest_data in *.
    call w "setTokenURI(uint256,string)"%string [Word id; Octets u] "Erc1155MetadataUriExample"%string (fn_as "setTokenURI" "set_token_uri" [U256; String_]). reflexivity.
  - destruct Hr as (H2 & H3). pose proof (Utf8_lemmas.text_bytes u H2) as H4. unfold urequest_data in *.
    call w "setBaseURI(string)"%string [Octets u] "Erc1155MetadataUriExample"%string (fn_as "setBaseURI" "set_base_uri" [String_]). reflexivity.
Qed.

(** What the getters answer. *)
Lemma ask_balance w s c a i : is_address a -> is_u256 i ->
  entry (ExampleUri w) c 0 (calldata "balanceOf(address,uint256)" [Word a; Word i]) s = (Returned (word (Erc1155.balance_of a i (tokens s))), s).
Proof.
  intros H H'. call w "balanceOf(address,uint256)"%string [Word a; Word i] "Erc1155"%string (fn "balance_of" [Address; U256]); [small [a; i]|].
  rewrite <- one_word. reflexivity.
Qed.
Lemma ask_operator w s c a b : is_address a -> is_address b ->
  entry (ExampleUri w) c 0 (calldata "isApprovedForAll(address,address)" [Word a; Word b]) s =
  (Returned (word (of_bool (Erc1155.is_approved_for_all a b (tokens s)))), s).
Proof.
  intros H H'. call w "isApprovedForAll(address,address)"%string [Word a; Word b] "Erc1155"%string (fn "is_approved_for_all" [Address; Address]); [small [a; b]|].
  rewrite <- one_word. reflexivity.
Qed.
Lemma ask_uri w s c i : is_u256 i ->
  entry (ExampleUri w) c 0 (calldata "uri(uint256)" [Word i]) s = (Returned (abi_params [Octets (Erc721Uri.Erc1155Uri.uri i (uris s))]), s).
Proof. intros H. call w "uri(uint256)"%string [Word i] "Erc1155MetadataUriExample"%string (fn "uri" [U256]); [small [i]|]. reflexivity. Qed.

(** A call changes nothing or is one of the requests, to the letter. *)
Lemma batch_still w accounts ids s :
  snd (finish (ExampleUri w) ((l <~ on_tokens (Erc1155.balance_of_batch accounts ids) ;; ret [Words l]) s) s) = s.
Proof.
  unfold on_tokens, Erc1155.balance_of_batch, Erc1155.require_equal_arrays_length. mred.
  destruct (negb _); cbn [finish snd]; [reflexivity|]. destruct s; reflexivity.
Qed.
Ltac open_args := repeat match goal with
     | H : List.Forall2 _ (_ :: _) _ |- _ => inversion H; subst; clear H
     | H : List.Forall2 _ [] _ |- _ => inversion H; subst; clear H
     | H : has_type Bytes ?y |- _ => destruct y; cbn [has_type word_of_type] in H;
         [destruct H|exfalso; destruct H as (? & H & _); discriminate H|destruct H as [_ H]]
     | H : has_type String_ ?y |- _ => destruct y; cbn [has_type word_of_type] in H;
         [destruct H|exfalso; destruct H as (? & H & _); discriminate H|destruct H as [_ H]]
     | H : has_type (Vec _) ?y |- _ => destruct y; cbn [has_type word_of_type] in H;
         [destruct H|let E := fresh in destruct H as (? & E & H); injection E as <-|exfalso; destruct H as [[H|H] _]; discriminate H]
     | H : has_type _ ?y |- _ => destruct y; cbn [has_type word_of_type] in H;
         [|exfalso; first [destruct H as (? & H & _); discriminate H | destruct H as [[H|H] _]; discriminate H]..]
     end.
Lemma any_call w c v d s : data_fits d ->
  snd (entry (ExampleUri w) c v d s) = s \/ exists r, v = 0 /\ d = urequest_data r /\ asks r.
Proof.
  intros Hdf. assert (Hb := proj1 Hdf). assert (Hsz := proj2 Hdf).
  destruct (entry_cases (ExampleUri w) c v d s (known_uri w) Hb Hsz) as [->|(t & f & args & Hin & -> & Ht & Hd & He)]; [left; reflexivity|].
  rewrite exposed_uri_ok in Hin. unfold exposed_uri in Hin. rewrite He. clear He Hb Hdf. subst d.
  repeat (destruct Hin as [Hin|Hin]; [injection Hin as <- <-; cbn [arg_types] in Ht; open_args|]); [..|destruct Hin].
  all: match goal with |- context [fn_sig ?f] => let x := eval vm_compute in (fn_sig f) in change (fn_sig f) with x in * | _ => idtac end.
  Ltac req r := right; exists (Tokens r); split; [reflexivity|]; split; [reflexivity|]; split; [split; [assumption|]; cbv beta iota; auto|exact I].
  all: match goal with
    | |- context [calldata "safeTransferFrom(address,address,uint256,uint256,bytes)" [Word ?f; Word ?t; Word ?i; Word ?v; Octets ?d]] => req (Transfer f t i v d)
    | |- context [calldata "safeBatchTransferFrom(address,address,uint256[],uint256[],bytes)" [Word ?f; Word ?t; Words ?i; Words ?v; Octets ?d]] => req (TransferBatch f t i v d)
    | H : _ \/ _ |- context [calldata "setApprovalForAll(address,bool)" [Word ?a; Word ?v]] =>
        destruct H as [H|H]; rewrite H in *; [req (SetApprovalForAll a false)|req (SetApprovalForAll a true)]
    | |- context [calldata "setTokenURI(uint256,string)" [Word ?i; Octets ?u]] =>
        right; exists (SetTokenURI i u); split; [reflexivity|]; split; [reflexivity|]; split; [assumption|split; assumption]
    | |- context [calldata "setBaseURI(string)" [Octets ?u]] =>
        right; exists (SetBaseURI u); split; [reflexivity|]; split; [reflexivity|]; split; assumption
    | _ => left
    end.
  all: first [reflexivity|apply batch_still].
Qed.

(** Whether a call is a request can be told from its bytes. *)
Lemma calldata_dec sig ts d : data_fits d ->
  (exists args, List.Forall2 has_type ts args /\ d = calldata sig args) \/
  (forall args, List.Forall2 has_type ts args -> d <> calldata sig args).
Proof.
  intros [Hb Hd]. unfold calldata. set (p := be_bytes 4 (sig_selector sig)). assert (L : length p = 4%nat) by apply be_bytes_length. clearbody p.
  assert (X : List.Forall is_byte (skipn 4 d)) by (apply Forall_skipn, Hb).
  assert (Y : size (skipn 4 d) < two256) by (unfold size in *; rewrite skipn_length; lia).
  destruct (list_eq_dec Z.eq_dec (firstn 4 d) p) as [E|E].
  - destruct (decode_params ts (skipn 4 d)) as [args|] eqn:D.
    + left. exists args. apply decode_params_iff in D; [|exact X|exact Y]. destruct D as [T D]. split; [exact T|].
      rewrite <- D, <- E. symmetry. apply firstn_skipn.
    + right. intros args T K. assert (D' : decode_params ts (skipn 4 d) = Some args); [|congruence].
      apply decode_params_iff; [exact X|exact Y|]. split; [exact T|]. rewrite K. apply SolAbi_lemmas.drop_app, L.
  - right. intros args T K. apply E. rewrite K. apply SolAbi_lemmas.take_app, L.
Qed.
Definition is_request (v : Z) (d : list Z) : Prop := exists r, asks r /\ v = 0 /\ d = urequest_data r.
Lemma request_cases v d : data_fits d -> is_request v d \/ (forall r, asks r -> ~ (v = 0 /\ d = urequest_data r)).
Proof.
  intros Hd. destruct (BinInt.Z.eq_dec v 0) as [->|N]; [|right; intros r _ [E _]; contradiction]. assert (Hs := proj2 Hd).
  destruct (calldata_dec "safeTransferFrom(address,address,uint256,uint256,bytes)" [Address; Address; U256; U256; Bytes] d Hd) as [(a & T & ->)|N1].
  { left. open_args. match goal with |- is_request _ (calldata _ [Word ?f; Word ?t; Word ?i; Word ?v; Octets ?o]) => exists (Tokens (Transfer f t i v o)) end.
    split; [split; [split; [exact Hs|cbv beta iota; auto]|exact I]|]. split; reflexivity. }
  destruct (calldata_dec "safeBatchTransferFrom(address,address,uint256[],uint256[],bytes)" [Address; Address; Vec U256; Vec U256; Bytes] d Hd) as [(a & T & ->)|N2].
  { left. open_args. match goal with |- is_request _ (calldata _ [Word ?f; Word ?t; Words ?i; Words ?v; Octets ?o]) => exists (Tokens (TransferBatch f t i v o)) end.
    split; [split; [split; [exact Hs|cbv beta iota; auto]|exact I]|]. split; reflexivity. }
  destruct (calldata_dec "setApprovalForAll(address,bool)" [Address; bool_] d Hd) as [(a & T & ->)|N3].
  { left. open_args. match goal with H : _ \/ _ |- _ => destruct H as [->| ->] end;
      match goal with |- is_request _ (calldata _ [Word ?n; Word ?b]) => exists (Tokens (SetApprovalForAll n (negb (b =? 0)))) end;
      (split; [split; [split; [exact Hs|assumption]|exact I]|]; split; reflexivity). }
  destruct (calldata_dec "setTokenURI(uint256,string)" [U256; String_] d Hd) as [(a & T & ->)|N4].
  { left. open_args. match goal with |- is_request _ (calldata _ [Word ?n; Octets ?l]) => exists (SetTokenURI n l) end.
    split; [split; [assumption|split; [assumption|exact Hs]]|]. split; reflexivity. }
  destruct (calldata_dec "setBaseURI(string)" [String_] d Hd) as [(a & T & ->)|N5].
  { left. open_args. match goal with |- is_request _ (calldata _ [Octets ?l]) => exists (SetBaseURI l) end.
    split; [split; [assumption|exact Hs]|]. split; reflexivity. }
  right. intros r Hr [_ E].
  destruct r as [[t i v d'|t is vs d'|f i v|f is vs|f t i v d'|f t is vs d'|q v| |]|id u|u]; cbn [asks available] in Hr; try contradiction (proj2 Hr);
    unfold urequest_data, request_data in E.
  - destruct Hr as [[_ (H1 & H2 & H3 & H4 & H5)] _]. apply (N1 [Word f; Word t; Word i; Word v; Octets d']); [types|exact E].
  - destruct Hr as [[_ (H1 & H2 & H3 & H4 & H5)] _]. apply (N2 [Word f; Word t; Words is; Words vs; Octets d']); [types|exact E].
  - destruct Hr as [[_ H1] _]. apply (N3 [Word q; Word (if v then 1 else 0)]); [|exact E].
    apply List.Forall2_cons; [exact H1|]. apply List.Forall2_cons; [|apply List.Forall2_nil]. cbn [has_type word_of_type]. destruct v; auto.
  - destruct Hr as (H1 & H2 & _). apply (N4 [Word id; Octets u]); [types|exact E].
  - destruct Hr as (H2 & _). apply (N5 [Octets u]); [types|exact E].
Qed.
Lemma requests_exist h : sane h -> exists l, requests_of h l.
Proof.
  induction h as [|[w [[c v] d]] h IH]; intros Hh; [exists []; constructor|].
  destruct (proj1 (List.Forall_cons_iff _ _ _) Hh) as [[Hc Hd] Hh']. destruct (IH Hh') as (l & Hl).
  destruct (request_cases v d Hd) as [(r & Hr & -> & ->)|N].
  - exists ((w, c, r) :: l). apply a_request; assumption.
  - exists l. apply another_call; assumption.
Qed.
Notation call_uri := (fun w => entry (ExampleUri w)).
Lemma shows_of_fine common s b : fine common s b -> shows call_uri common s b.
Proof.
  intros F. pose proof (f_tokens _ _ _ F) as A. unfold shows, tells, says_text. cbv beta. split; [|split].
  - intros a id Ha Hi w c. rewrite (ask_balance w s c a id Ha Hi), (a_bal _ _ A a id Ha Hi). reflexivity.
  - intros o p Ho Hp w c. rewrite (ask_operator w s c o p Ho Hp), (a_op _ _ A o p Ho Hp). reflexivity.
  - intros id Hi w c. rewrite (ask_uri w s c id Hi), (link_ok common s b id F). reflexivity.
Qed.
Lemma fine_request common w s b c r : fine common s b -> is_address c -> asks r ->
  fine common (snd (entry (ExampleUri w) c 0 (urequest_data r) s)) (ideal_step b (w, c, r)).
Proof.
  intros F Hc Hr. pose proof (ustep_ok common w s b c r F Hc Hr) as O. rewrite (entry_request w c r s Hr). unfold ideal_step. cbn [fst snd].
  destruct (ideal w c r b) as [b'|why]; cbn [umeets] in O.
  - destruct O as (s' & -> & F'). exact F'.
  - destruct (uexec_of w c r s) as [[u|e'|] s']; cbn [fst snd] in *; [|exact F..].
    exfalso. destruct why; [destruct O as (er & O & _)|destruct O as (er & O & _)|]; discriminate.
Qed.
Lemma fine_run common h l : requests_of h l -> sane h -> forall s b, fine common s b -> fine common (raw_run_uri h s) (ideal_run l b).
Proof.
  induction 1 as [|w c r h l Hr Hl IH|w c v d h l N Hl IH]; intros Hh s b F; [exact F| |];
    destruct (proj1 (List.Forall_cons_iff _ _ _) Hh) as [[Hc Hd] Hh'].
  - change (raw_run_uri ((w, (c, 0, urequest_data r)) :: h) s) with (raw_run_uri h (snd (entry (ExampleUri w) c 0 (urequest_data r) s))).
    change (ideal_run ((w, c, r) :: l) b) with (ideal_run l (ideal_step b (w, c, r))).
    apply (IH Hh'). apply fine_request; [exact F|apply Hc|exact Hr].
  - change (raw_run_uri ((w, (c, v, d)) :: h) s) with (raw_run_uri h (snd (entry (ExampleUri w) c v d s))).
    destruct (any_call w c v d s Hd) as [->|(r & Hv & Hdr & Hr)]; [|contradiction (N r Hr (conj Hv Hdr))]. apply (IH Hh'), F.
Qed.
Lemma follows_ok common w s b c r : fine common s b -> is_address c -> asks r -> follows call_uri common w s b c r.
Proof.
  intros F Hc Hr. pose proof (ustep_ok common w s b c r F Hc Hr) as O. unfold follows. cbv beta. pose proof (entry_request w c r s Hr) as E.
  destruct (ideal w c r b) as [b'|why]; cbn [umeets] in O.
  - destruct O as (s' & X & F'). rewrite X in E. exists s'. split; [exact E|]. split; [exact (shows_of_fine common s' b' F')|exact (f_fits _ _ _ F')].
  - destruct why as [why|d|].
    + destruct O as (e & X & Y). destruct (uexec_of w c r s) as [[u|e'|] s']; cbn [fst] in X; try discriminate.
      replace e' with e in E by congruence. eexists. split; [exact E|]. cbn [says] in Y. apply revert_erc1155_ok; apply Y.
    + destruct O as (e & X & Y). destruct (uexec_of w c r s) as [[u|e'|] s']; cbn [fst] in X; try discriminate.
      replace e' with e in E by congruence. rewrite E. cbn [says] in Y. rewrite Y. reflexivity.
    + destruct (uexec_of w c r s) as [[u|e'|] s']; cbn [fst] in O; try discriminate. exact E.
Qed.

(** ** Theorems *)

(** After every history of calls by anybody, with any bytes and any value, among any receivers,
    the getters show the book of the requests among them, and the answer to every further request
    is the ideal collection's. *)
Theorem c101_uri_is_the_ideal_collection :
  forall common h, sane h ->
  let call := fun w => entry (ExampleUri w) in
  let s := raw_run_uri h (init common) in
  (exists l, requests_of h l) /\
  forall l, requests_of h l ->
    let b := ideal_run l new_ubook in
    ubook_fits b /\ shows call common s b /\
    forall w c r, caller_ok c -> asks r -> follows call common w s b c r.
Proof.
  intros common h Hh call s. split; [apply requests_exist, Hh|]. intros l Hl b.
  pose proof (fine_run common h l Hl Hh _ _ (fine_init common)) as F. fold s in F. fold b in F.
  split; [exact (f_fits _ _ _ F)|]. split; [exact (shows_of_fine common s b F)|].
  intros w c r Hc Hr. exact (follows_ok common w s b c r F (proj1 Hc) Hr).
Qed.
Print Assumptions c101_uri_is_the_ideal_collection.

(** In particular the book after a series of requests is the one computed by hand. *)
Theorem c101_uri_computed_by_hand :
  forall common l, List.Forall (fun x => caller_ok (snd (fst x)) /\ asks (snd x)) l -> sane (sends l) ->
  let b := ideal_run l new_ubook in
  ubook_fits b /\ shows (fun w => entry (ExampleUri w)) common (raw_run_uri (sends l) (init common)) b.
Proof.
  intros common l Hl Hs b. assert (R : requests_of (sends l) l).
  { clear - Hl. induction Hl as [|[[w c] r] l [_ Hr] Hl IH]; [constructor|]. apply a_request; [exact Hr|exact IH]. }
  destruct (c101_uri_is_the_ideal_collection common (sends l) Hs) as [_ X]. destruct (X l R) as (X1 & X2 & _). exact (conj X1 X2).
Qed.
Print Assumptions c101_uri_computed_by_hand.

(** The example has nothing to mint with: whatever anybody does, nobody ever has any token, and
    nobody ever moves a positive amount. *)
Theorem c101_no_tokens_ever :
  forall common h, sane h ->
  let call := fun w => entry (ExampleUri w) in
  let s := raw_run_uri h (init common) in
  (forall a id, is_address a -> is_u256 id -> tells call s "balanceOf(address,uint256)" [Word a; Word id] 0) /\
  (forall w c f t id v d, caller_ok c -> request_fits (Transfer f t id v d) -> 0 < v ->
     exists why, call w c 0 (request_data (Transfer f t id v d)) s = (Reverted why, s) /\
       (f = c -> t <> 0 -> decode_reason why = Some (ERC1155InsufficientBalance f 0 v id))).
Proof.
  intros common h Hh call s. destruct (requests_exist h Hh) as (l & Hl).
  pose proof (fine_run common h l Hl Hh _ _ (fine_init common)) as F. fold s in F.
  assert (E : empty (u_tokens (ideal_run l new_ubook))).
  { assert (K : forall b, empty (u_tokens b) -> empty (u_tokens (ideal_run l b))).
    { clear - Hl. induction Hl as [|w c r h l Hr Hl IH|w c v d h l N Hl IH]; intros b E; [exact E| |exact (IH b E)].
      change (ideal_run ((w, c, r) :: l) b) with (ideal_run l (ideal_step b (w, c, r))). apply IH. unfold ideal_step. cbn [fst snd].
      destruct (ideal w c r b) as [b'|] eqn:K; [|exact E]. exact (ideal_nothing w c r b b' Hr E K). }
    apply K. intros a id. reflexivity. }
  set (b := ideal_run l new_ubook) in *. clearbody b. split.
  - destruct (shows_of_fine common s b F) as (H & _). intros a id Ha Hi. rewrite <- (E a id). exact (H a id Ha Hi).
  - intros w c f t id v d Hc Hr Hv.
    pose proof (follows_ok common w s b c (Tokens (Transfer f t id v d)) F (proj1 Hc) (conj Hr I)) as X. unfold follows in X. cbv beta in X. fold call in X.
    assert (V : exists why, ideal w c (Tokens (Transfer f t id v d)) b = No why /\
      (f = c -> t <> 0 -> why = Because (ERC1155InsufficientBalance f 0 v id))).
    { cbn [ideal EntryMulti_spec.ideal]. unfold moving. cbn [running app checks]. destruct F as [_ _ _ _ (_ & P & _)]. rewrite P.
      unfold entitled, somebody. cbn [app checks].
      destruct (negb (c =? f) && negb (m_operator (u_tokens b) f c)) eqn:E1.
      { eexists. split; [reflexivity|]. intros -> _. rewrite Z.eqb_refl in E1. discriminate. }
      destruct (t =? 0) eqn:E2. { eexists. split; [reflexivity|]. intros _ Ht. lia. }
      destruct (f =? 0) eqn:E3. { eexists. split; [reflexivity|]. intros -> _. destruct Hc as [_ Hc]. lia. }
      unfold paired. cbn [length Nat.eqb negb checks reply_to each]. unfold taken. rewrite (E f id).
      replace (0 <? v) with true by lia. cbn [reply_to]. eexists. split; [reflexivity|]. intros _ _. reflexivity. }
    destruct V as (why & V & W). rewrite V in X. destruct why as [why|d'|].
    + destruct X as (d' & X & Y). exists d'. split; [exact X|]. intros Hf Ht. specialize (W Hf Ht). congruence.
    + exists d'. split; [exact X|]. intros Hf Ht. specialize (W Hf Ht). discriminate.
    + exists []. split; [exact X|]. intros Hf Ht. specialize (W Hf Ht). discriminate.
Qed.
Print Assumptions c101_no_tokens_ever.

(** The base is everybody's to change, and changes all links that were set at once. *)
Theorem c101_base_for_all :
  forall common h w c u, sane h -> caller_ok c -> text u -> data_fits (urequest_data (SetBaseURI u)) ->
  let call := fun w => entry (ExampleUri w) in
  let s := raw_run_uri h (init common) in
  exists own s', call w c 0 (urequest_data (SetBaseURI u)) s = (Returned [], s') /\
    forall id, is_u256 id ->
      (exists base, says_text call s "uri(uint256)" [Word id] (match own id with [] => common | x => base ++ x end)) /\
      says_text call s' "uri(uint256)" [Word id] (match own id with [] => common | x => u ++ x end).
Proof.
  intros common h w c u Hh Hc Hu Hd call s. destruct (requests_exist h Hh) as (l & Hl).
  pose proof (fine_run common h l Hl Hh _ _ (fine_init common)) as F. fold s in F. set (b := ideal_run l new_ubook) in *. clearbody b.
  assert (Hr : asks (SetBaseURI u)) by (split; [exact Hu|apply Hd]).
  pose proof (follows_ok common w s b c (SetBaseURI u) F (proj1 Hc) Hr) as X. unfold follows in X. cbn [ideal] in X. cbv beta in X. fold call in X.
  destruct X as (s' & X1 & X2 & _). exists (u_own b), s'. split; [exact X1|]. intros id Hi. split.
  - exists (u_base b). destruct (shows_of_fine common s b F) as (_ & _ & H). exact (H id Hi).
  - destruct X2 as (_ & _ & H). exact (H id Hi).
Qed.
Print Assumptions c101_base_for_all.

Lemma exposed_interface w t f : In (t, f) (exposed (blocks (ExampleUri w))) -> In (fn_sig f, arg_types f) uri_interface.
Proof.
  rewrite exposed_uri_ok. intros Hin.
  assert (K : forallb (fun tf => if in_dec same_entry (fn_sig (snd tf), arg_types (snd tf)) uri_interface then true else false) exposed_uri = true)
    by (vm_compute; reflexivity).
  rewrite forallb_forall in K. specialize (K (t, f) Hin). cbn [snd] in K. destruct (in_dec _ _ _) as [I|]; [exact I|discriminate].
Qed.
(** Nothing else: other bytes, and calls with value, revert; only the requests change the state. *)
Theorem c101_uri_nothing_else :
  forall w c v d s, data_fits d ->
  let call := entry (ExampleUri w) in
  (~ proper v d -> call c v d s = (Reverted [], s)) /\
  (snd (call c v d s) <> s -> exists r, v = 0 /\ d = urequest_data r /\ asks r) /\
  (forall out s', call c v d s = (Returned out, s') -> proper v d).
Proof.
  intros w c v d s Hdf call.
  assert (P : call c v d s = (Reverted [], s) \/ proper v d).
  { destruct (entry_cases (ExampleUri w) c v d s (known_uri w) (proj1 Hdf) (proj2 Hdf)) as [K|(t & f & args & Hin & Hv & Ht & Hd & _)]; [left; exact K|right].
    split; [exact Hv|]. exists (fn_sig f), (arg_types f), args. split; [apply (exposed_interface w t), Hin|]. split; assumption. }
  split; [destruct P; tauto|]. split.
  - intros Hs. destruct (any_call w c v d s Hdf) as [K|K]; [contradiction (Hs K)|exact K].
  - intros out s' E. destruct P as [P|P]; [congruence|exact P].
Qed.
Print Assumptions c101_uri_nothing_else.

(** The interfaces the contract says it supports. *)
Theorem c101_constants :
  forall w s c id, 0 <= id < 2 ^ 32 -> exists yes : bool,
  entry (ExampleUri w) c 0 (calldata "supportsInterface(bytes4)" [Word (id * 2 ^ 224)]) s = (Returned (word (if yes then 1 else 0)), s) /\
  (yes = true <-> In id [0xd9b67a26; 0x0e89341c; 0x01ffc9a7]).
Proof.
  intros w s c id Hid. exists (Introspection.Erc1155MetadataUriExample (firstn 4 (word (id * 2 ^ 224)))). split.
  - rewrite (call_request w "supportsInterface(bytes4)"%string [Word (id * 2 ^ 224)] c s "Erc1155MetadataUriExample"%string (fn "supports_interface" [FixedBytes4])).
    + rewrite <- one_word. generalize (id * 2 ^ 224). intros x.
      change (body_of _ _ _ _ c s) with (@gets state Erc1155.error (list val)
        (fun _ => [Word (of_bool (Introspection.Erc1155MetadataUriExample (firstn 4 (word x))))]) s).
      destruct (Introspection.Erc1155MetadataUriExample (firstn 4 (word x))); reflexivity.
    + vm_compute. reflexivity.
    + vm_compute. reflexivity.
    + apply List.Forall2_cons; [|constructor]. cbn [has_type word_of_type]. exists id. split; [exact Hid|reflexivity].
    + vals.
    + small [id * 2 ^ 224].
  - destruct (Entry_props.bytes4_of id Hid) as (B1 & B2 & B3). pose proof Introspection_props.c70_examples as X.
    decompose [and] X. match goal with H : context [Introspection.Erc1155MetadataUriExample] |- _ => rewrite (H _ B1 B2), B3 end. reflexivity.
Qed.
Print Assumptions c101_constants.

(** Somebody sets a link for token 7 and the base; token 8 links to what was chosen at deployment;
    the approved operator still has nothing to move. *)
Definition common_example : list Z := [0x69; 0x70; 0x66; 0x73].
Definition story : list (world * Z * urequest) :=
  [(nobody, 30, SetTokenURI 7 [0xC3; 0xA9]); (nobody, 40, SetBaseURI [0x2F; 0x2F]);
   (nobody, 10, Tokens (SetApprovalForAll 20 true)); (nobody, 20, Tokens (Transfer 10 30 7 1 []));
   (nobody, 20, Tokens (Transfer 10 30 7 0 [])); (nobody, 40, SetTokenURI 9 [0x61]); (nobody, 30, SetTokenURI 9 [])].
Ltac bytes := repeat (apply List.Forall_cons; [split; [apply Z.leb_le|apply Z.ltb_lt]; reflexivity|]); apply List.Forall_nil.
Example c101_nonvacuous :
  let h := sends story in
  let call := fun w => entry (ExampleUri w) in
  let s := raw_run_uri h (init common_example) in
  sane h /\ List.Forall (fun x => caller_ok (snd (fst x)) /\ asks (snd x)) story /\
  (exists b, ubook_fits b /\ shows call common_example s b /\
    link common_example b 7 = [0x2F; 0x2F; 0xC3; 0xA9] /\ link common_example b 8 = common_example /\ link common_example b 9 = common_example /\
    m_operator (u_tokens b) 10 20 = true /\ m_balance (u_tokens b) 30 7 = 0 /\
    ideal nobody 20 (Tokens (Transfer 10 30 7 1 [])) b = No (Because (ERC1155InsufficientBalance 10 0 1 7)) /\
    ideal nobody 30 (Tokens (Transfer 10 30 7 1 [])) b = No (Because (ERC1155MissingApprovalForAll 30 10))).
Proof.
  intros h call s.
  assert (B : forall x, 0 <= x < 100 -> is_u256 x) by (intros x Hx; split; [lia|transitivity 100; [lia|reflexivity]]).
  assert (A : forall x, 0 <= x < 100 -> is_address x) by (intros x Hx; split; [lia|transitivity 100; [lia|reflexivity]]).
  assert (K : forall x, 0 < x < 100 -> caller_ok x) by (intros x Hx; split; [apply A; lia|lia]).
  Ltac fin := rewrite abi_params_size; reflexivity.
  assert (D : forall sig args n, n < 2 ^ 255 -> List.Forall bytes_val args -> 4 + size (abi_params args) = n -> data_fits (calldata sig args)).
  { intros sig args n Hn Hb Hs. apply (EntryMulti_props.story_data sig args n); [apply (Z.lt_trans _ (2 ^ 255)); [exact Hn|reflexivity]|exact Hb|exact Hs]. }
  assert (S : sane h).
  { unfold sane, h, sends, story. cbn [map fst snd]. unfold urequest_data, request_data.
    repeat (apply List.Forall_cons; [split; [apply K; lia|];
      first [solve [apply (D _ _ 68); [reflexivity|repeat (apply List.Forall_cons; [first [exact I|bytes]|]); apply List.Forall_nil|fin]]
            |solve [apply (D _ _ 132); [reflexivity|repeat (apply List.Forall_cons; [first [exact I|bytes]|]); apply List.Forall_nil|fin]]
            |solve [apply (D _ _ 100); [reflexivity|repeat (apply List.Forall_cons; [first [exact I|bytes]|]); apply List.Forall_nil|fin]]
            |solve [apply (D _ _ 196); [reflexivity|repeat (apply List.Forall_cons; [first [exact I|bytes]|]); apply List.Forall_nil|fin]]]|]).
    apply List.Forall_nil. }
  assert (R : List.Forall (fun x => caller_ok (snd (fst x)) /\ asks (snd x)) story).
  { unfold sane, h, sends, story in S. cbn [map fst snd] in S. unfold story.
    repeat match goal with
      | H : List.Forall _ (_ :: _) |- _ => let X := fresh "X" in apply List.Forall_cons_iff in H; destruct H as [[_ [_ X]] H]; cbn [fst snd] in X
      end.
    Ltac done B A := solve [assumption|apply A; lia|apply B; lia|apply EntryMeta_props.is_text; [bytes|vm_compute; reflexivity]|bytes|exact I].
    repeat (apply List.Forall_cons; [split; [apply K; cbn [fst snd]; lia|]; cbn [snd asks available];
      first [done B A|split; first [done B A|split; first [done B A|repeat match goal with |- _ /\ _ => split end; done B A]]]|]).
    apply List.Forall_nil. }
  split; [exact S|]. split; [exact R|].
  destruct (c101_uri_computed_by_hand common_example story R S) as [F Sh]. fold h in Sh. fold s in Sh. fold call in Sh.
  exists (ideal_run story new_ubook). split; [exact F|]. split; [exact Sh|]. clear.
  do 6 (split; [reflexivity|]). reflexivity.
Qed.
