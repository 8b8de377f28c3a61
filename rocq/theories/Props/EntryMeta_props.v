(** C100: bytes in, bytes out for examples/erc721-metadata; strings are text. *)
From Verif.Base Require Import Prelude Bytes Keccak Maps.
From stdpp Require Import gmap.
From Coq Require Import String List.
From Verif.Model Require Import Introspection Router Entry EntryErc721 EntryMeta.
From Verif.Model Require SolAbi Erc721 Erc721Example Erc721Uri Utf8.
From Verif.Spec Require Import Router_spec SolAbi_spec LogMeaning_spec Utf8_spec.
From Verif.Spec Require Uri_spec Entry_spec EntryNft_spec EntryMulti_spec EntryMeta_spec.
From Verif.Proofs Require Import Router_lemmas Entry_lemmas.
From Verif.Proofs Require Utf8_lemmas EntryNft_lemmas EntryMeta_lemmas.
From Verif.Props Require Import SolAbi_props.
From Verif.Props Require Introspection_props Entry_props EntryNft_props EntryMulti_props.
Import SolAbi.
Import Entry_spec (calldata, is_address, has_type, word_of_type).
Import EntryNft_spec EntryMeta_spec.
Import EntryNft_lemmas (bytes_val, abi_params_bytes, abi_params_size, one_word, addr0, addr_u256, octets_tail_size, octets_tail_size_ge).
Import EntryNft_props (same_entry, balance_of_eq, nobody).
Import EntryMulti_props (small_data).
Import EntryMeta_lemmas.
#[global] Open Scope Z_scope.
Local Open Scope list_scope.
Local Open Scope Z_scope.
Opaque keccak256.

Notation C lb w := (ExampleMeta (l_name lb) (l_symbol lb) w).
Lemma known_meta lb w : all_known (blocks (C lb w)) = true.
Proof. vm_compute. reflexivity. Qed.
Definition exposed_meta := Eval vm_compute in exposed Pub.Erc721MetadataExample.
Lemma exposed_meta_ok lb w : exposed (blocks (C lb w)) = exposed_meta.
Proof. vm_compute. reflexivity. Qed.
Lemma call_request lb w sig args c s t f :
  k_fits sig = true -> find_fn_k Pub.Erc721MetadataExample (k sig) = Some (t, f) ->
  List.Forall2 has_type (arg_types f) args -> List.Forall bytes_val args -> size (calldata sig args) < two256 ->
  entry (C lb w) c 0 (calldata sig args) s =
  finish (C lb w) (body_of (code (C lb w)) t (rust_name f) args c s) s.
Proof.
  intros H1 H2 H3 H4 H5. apply entry_calldata; auto using known_meta, abi_params_bytes.
  unfold calldata in H5. rewrite size_app in H5. pose proof (size_nonneg (be_bytes 4 (sig_selector sig))). lia.
Qed.
Lemma nothing_finish lb w (m : M Erc721Uri.state Erc721.error unit) s :
  finish (C lb w) (nothing m s) s =
  match m s with (Ok _, s') => (Returned [], s') | (Err e, _) => (Reverted (revert_erc721 e), s) | (Panic, _) => (Reverted [], s) end.
Proof. unfold nothing. mred. destruct (m s) as [[[]|e|] s']; reflexivity. Qed.
Lemma bytes_typed d : List.Forall is_byte d -> has_type Bytes (Octets d).
Proof. intros H. split; [left; reflexivity|exact H]. Qed.
Lemma text_typed d : text d -> has_type String_ (Octets d).
Proof. intros H. split; [right; reflexivity|exact H]. Qed.
Lemma data_size sig ws d : size ws < 10 -> size d < 2 ^ 255 -> size (calldata sig (map Word ws ++ [Octets d])) < two256.
Proof.
  intros H1 H2. unfold calldata. rewrite size_app, EntryNft_lemmas.words_then_octets_size. unfold size at 1. rewrite be_bytes_length.
  pose proof (octets_tail_size d). unfold two256. change (2 ^ 256) with (2 ^ 255 + 2 ^ 255). assert (1000 < 2 ^ 255) by reflexivity.
  change (Z.of_nat 4) with 4. lia.
Qed.
Ltac types := repeat (apply List.Forall2_cons; [first [assumption|apply bytes_typed; assumption|apply text_typed; assumption]|]); apply List.Forall2_nil.
Ltac vals := repeat (apply List.Forall_cons; [first [exact I|assumption]|]); apply List.Forall_nil.
Ltac small l := apply (small_data _ l); reflexivity.
Ltac call lb w sg l t f := refine (eq_trans (call_request lb w sg l _ _ t f _ _ _ _ _) _); [vm_compute; reflexivity|vm_compute; reflexivity|types|vals|try assumption|].
Lemma entry_request lb w c r s : asks r ->
  entry (C lb w) c 0 (mrequest_data r) s =
  match mexec_of w c r s with
  | (Ok _, s') => (Returned [], s')
  | (Err e, _) => (Reverted (revert_erc721 e), s)
  | (Panic, _) => (Reverted [], s)
  end.
Proof.
  intros Hr. rewrite <- (nothing_finish lb w).
  destruct r as [[id|t id|t id d|f t id|f t id|f t id d|t id|q v| |]|id u]; cbn [asks request_fits available] in Hr;
    unfold mrequest_data, request_data; cbn [mexec_of exec_of]; try contradiction (proj2 Hr).
  - destruct Hr as [H1 _]. call lb w "burn(uint256)"%string [Word id] "Erc721MetadataExample"%string (fn "burn" [U256]); [small [id]|]. reflexivity.
  - destruct Hr as [[H1 H2] _]. call lb w "mint(address,uint256)"%string [Word t; Word id] "Erc721MetadataExample"%string (fn "mint" [Address; U256]); [small [t; id]|]. reflexivity.
  - destruct Hr as [(H1 & H2 & H3) _].
    call lb w "transferFrom(address,address,uint256)"%string [Word f; Word t; Word id] "Erc721"%string (fn "transfer_from" [Address; Address; U256]); [small [f; t; id]|]. reflexivity.
  - destruct Hr as [(H1 & H2 & H3) _].
    call lb w "safeTransferFrom(address,address,uint256)"%string [Word f; Word t; Word id] "Erc721"%string (fn "safe_transfer_from" [Address; Address; U256]); [small [f; t; id]|]. reflexivity.
  - destruct Hr as [(H1 & H2 & H3 & H4 & H5) _].
    call lb w "safeTransferFrom(address,address,uint256,bytes)"%string [Word f; Word t; Word id; Octets d] "Erc721"%string
      (fn_as "safeTransferFrom" "safe_transfer_from_with_data" [Address; Address; U256; Bytes]).
    + exact (data_size _ [f; t; id] d ltac:(reflexivity) H5).
    + reflexivity.
  - destruct Hr as [[H1 H2] _]. call lb w "approve(address,uint256)"%string [Word t; Word id] "Erc721"%string (fn "approve" [Address; U256]); [small [t; id]|]. reflexivity.
  - destruct Hr as [H1 _].
    refine (eq_trans (call_request lb w "setApprovalForAll(address,bool)"%string [Word q; Word (if v then 1 else 0)] _ _ "Erc721"%string (fn "set_approval_for_all" [Address; bool_]) _ _ _ _ _) _);
      [vm_compute; reflexivity|vm_compute; reflexivity| |vals|small [q; if v then 1 else 0]|].
    + apply List.Forall2_cons; [exact H1|]. apply List.Forall2_cons; [|apply List.Forall2_nil]. cbn [has_type word_of_type]. destruct v; auto.
    + destruct v; reflexivity.
  - destruct Hr as (H1 & H2 & H3). pose proof (Utf8_lemmas.text_bytes u H2) as H4.
    call lb w "setTokenURI(uint256,string)"%string [Word id; Octets u] "Erc721MetadataExample"%string (fn_as "setTokenURI" "set_token_uri" [U256; String_]).
    + exact (data_size _ [id] u ltac:(reflexivity) H3).
    + reflexivity.
Qed.

(** What the getters answer. *)
Definition told (r : res Erc721.error Z) (s : Erc721Uri.state) : answer * Erc721Uri.state :=
  match r with Ok v => (Returned (word v), s) | Err e => (Reverted (revert_erc721 e), s) | Panic => (Reverted [], s) end.
Lemma ask_finish lb w (m : M Erc721Uri.state Erc721.error Z) (r : res Erc721.error Z) s : m s = (r, s) ->
  finish (C lb w) ((v <~ m ;; ret [Word v]) s) s = told r s.
Proof. intros H. mred. rewrite H. destruct r as [v|e|]; cbn [finish told]; rewrite ?one_word; reflexivity. Qed.
Lemma on_erc721_eq {A} (m : M Erc721.state Erc721.error A) r s : m (Erc721Uri.erc721 s) = (r, Erc721Uri.erc721 s) -> Erc721Uri.on_erc721 m s = (r, s).
Proof. intros H. unfold Erc721Uri.on_erc721, zoom. rewrite H. destruct s; reflexivity. Qed.
Definition owner_answer (s : Erc721Uri.state) (i : Z) : res Erc721.error Z :=
  if own (Erc721Uri.erc721 s) i =? 0 then Err (Erc721.NonexistentToken i) else Ok (own (Erc721Uri.erc721 s) i).
Definition approved_answer (s : Erc721Uri.state) (i : Z) : res Erc721.error Z :=
  if own (Erc721Uri.erc721 s) i =? 0 then Err (Erc721.NonexistentToken i) else Ok (appr (Erc721Uri.erc721 s) i).
Definition balance_answer (s : Erc721Uri.state) (a : Z) : res Erc721.error Z :=
  if a =? 0 then Err (Erc721.InvalidOwner 0) else Ok (mget (Erc721.balances (Erc721Uri.erc721 s)) a).
Lemma owner_m s i : Erc721Uri.on_erc721 (Erc721.owner_of i) s = (owner_answer s i, s).
Proof.
  apply on_erc721_eq. unfold Erc721.owner_of, Erc721._require_owned, owner_answer. mred.
  destruct (own (Erc721Uri.erc721 s) i =? 0); reflexivity.
Qed.
Lemma approved_m s i : Erc721Uri.on_erc721 (Erc721.get_approved i) s = (approved_answer s i, s).
Proof.
  apply on_erc721_eq. unfold Erc721.get_approved, Erc721._require_owned, approved_answer. mred.
  destruct (own (Erc721Uri.erc721 s) i =? 0); reflexivity.
Qed.
Lemma balance_m s a : Erc721Uri.on_erc721 (Erc721.balance_of a) s = (balance_answer s a, s).
Proof. apply on_erc721_eq. rewrite balance_of_eq. unfold balance_answer. destruct (a =? 0); reflexivity. Qed.
Lemma ask_owner lb w s c i : is_u256 i -> entry (C lb w) c 0 (calldata "ownerOf(uint256)" [Word i]) s = told (owner_answer s i) s.
Proof.
  intros H. call lb w "ownerOf(uint256)"%string [Word i] "Erc721"%string (fn "owner_of" [U256]); [small [i]|].
  exact (ask_finish lb w _ _ s (owner_m s i)).
Qed.
Lemma ask_approved lb w s c i : is_u256 i -> entry (C lb w) c 0 (calldata "getApproved(uint256)" [Word i]) s = told (approved_answer s i) s.
Proof.
  intros H. call lb w "getApproved(uint256)"%string [Word i] "Erc721"%string (fn "get_approved" [U256]); [small [i]|].
  exact (ask_finish lb w _ _ s (approved_m s i)).
Qed.
Lemma ask_balance lb w s c a : is_address a -> entry (C lb w) c 0 (calldata "balanceOf(address)" [Word a]) s = told (balance_answer s a) s.
Proof.
  intros H. call lb w "balanceOf(address)"%string [Word a] "Erc721"%string (fn "balance_of" [Address]); [small [a]|].
  exact (ask_finish lb w _ _ s (balance_m s a)).
Qed.
Lemma ask_operator lb w s c a b : is_address a -> is_address b ->
  entry (C lb w) c 0 (calldata "isApprovedForAll(address,address)" [Word a; Word b]) s = (Returned (word (of_bool (oper (Erc721Uri.erc721 s) a b))), s).
Proof.
  intros H H'. call lb w "isApprovedForAll(address,address)"%string [Word a; Word b] "Erc721"%string (fn "is_approved_for_all" [Address; Address]); [small [a; b]|].
  rewrite <- one_word. reflexivity.
Qed.
Lemma ask_uri lb w s c i : is_u256 i -> entry (C lb w) c 0 (calldata "tokenURI(uint256)" [Word i]) s =
  finish (C lb w) ((v <~ Erc721Uri.token_uri i ;; ret [Octets v]) s) s.
Proof.
  intros H. call lb w "tokenURI(uint256)"%string [Word i] "Erc721MetadataExample"%string (fn_as "tokenURI" "token_uri" [U256]); [small [i]|]. reflexivity.
Qed.
Lemma ask_name lb w s c : entry (C lb w) c 0 (calldata "name()" []) s = (Returned (abi_params [Octets (l_name lb)]), s).
Proof. call lb w "name()"%string (@nil val) "Erc721Metadata"%string (fn "name" []); [small (@nil Z)|]. reflexivity. Qed.
Lemma ask_symbol lb w s c : entry (C lb w) c 0 (calldata "symbol()" []) s = (Returned (abi_params [Octets (l_symbol lb)]), s).
Proof. call lb w "symbol()"%string (@nil val) "Erc721Metadata"%string (fn "symbol" []); [small (@nil Z)|]. reflexivity. Qed.

(** A call changes nothing or is one of the requests, to the letter. *)
Lemma calldata_data sig ws d : data_fits (calldata sig (map Word ws ++ [Octets d])) -> size d < 2 ^ 255.
Proof.
  intros [_ H]. unfold calldata in H. rewrite size_app, EntryNft_lemmas.words_then_octets_size in H.
  pose proof (octets_tail_size_ge d). pose proof (size_nonneg (be_bytes 4 (sig_selector sig))). pose proof (size_nonneg ws). lia.
Qed.
Lemma uri_still lb w i s : snd (finish (C lb w) ((v <~ Erc721Uri.token_uri i ;; ret [Octets v]) s) s) = s.
Proof.
  destruct s as [e base uris ups].
  unfold Erc721Uri.token_uri, Erc721Uri.metadata_token_uri, Erc721Uri.on_erc721, Erc721.owner_of, Erc721._require_owned. mred.
  cbn [Erc721Uri.erc721 Erc721Uri.base_uri Erc721Uri.token_uris Erc721Uri.updates].
  destruct (own e i =? 0) eqn:E; [reflexivity|]. cbn [Erc721Uri.erc721 Erc721Uri.base_uri Erc721Uri.token_uris Erc721Uri.updates].
  destruct (decide (base = [])) as [Eb|Eb]; [reflexivity|]. destruct (decide (getd [] uris i = [])); [|reflexivity].
  cbn [Erc721Uri.erc721 Erc721Uri.base_uri Erc721Uri.token_uris Erc721Uri.updates]. rewrite E.
  cbn [Erc721Uri.erc721 Erc721Uri.base_uri Erc721Uri.token_uris Erc721Uri.updates]. reflexivity.
Qed.
Lemma any_call lb w c v d s : data_fits d ->
  snd (entry (C lb w) c v d s) = s \/ exists r, v = 0 /\ d = mrequest_data r /\ asks r.
Proof.
  intros Hdf. assert (Hb := proj1 Hdf). assert (Hsz : size d < two256) by (apply (Z.lt_trans _ (2 ^ 255)); [apply Hdf|reflexivity]).
  destruct (entry_cases (C lb w) c v d s (known_meta lb w) Hb Hsz) as [->|(t & f & args & Hin & -> & Ht & Hd & He)]; [left; reflexivity|].
  rewrite exposed_meta_ok in Hin. unfold exposed_meta in Hin. rewrite He. clear He Hb Hsz. subst d.
  repeat (destruct Hin as [Hin|Hin];
    [injection Hin as <- <-; cbn [arg_types] in Ht;
     repeat match goal with
     | H : List.Forall2 _ (_ :: _) _ |- _ => inversion H; subst; clear H
     | H : List.Forall2 _ [] _ |- _ => inversion H; subst; clear H
     | H : has_type Bytes ?y |- _ => destruct y; cbn [has_type word_of_type] in H;
         [destruct H|exfalso; destruct H as (? & H & _); discriminate H|destruct H as [_ H]]
     | H : has_type String_ ?y |- _ => destruct y; cbn [has_type word_of_type] in H;
         [destruct H|exfalso; destruct H as (? & H & _); discriminate H|destruct H as [_ H]]
     | H : has_type _ ?y |- _ => destruct y; cbn [has_type word_of_type] in H;
         [|exfalso; first [destruct H as (? & H & _); discriminate H | destruct H as [[H|H] _]; discriminate H]..]
     end|]); [..|destruct Hin].
  all: match goal with |- context [fn_sig ?f] => let x := eval vm_compute in (fn_sig f) in change (fn_sig f) with x in * | _ => idtac end.
  Ltac req r := right; exists (Token r); split; [reflexivity|]; split; [reflexivity|split; [cbn [request_fits]; auto|exact I]].
  all: match goal with
    | |- context [calldata "burn(uint256)" [Word ?v]] => req (Burn v)
    | |- context [calldata "mint(address,uint256)" [Word ?a; Word ?v]] => req (Mint a v)
    | |- context [calldata "transferFrom(address,address,uint256)" [Word ?a; Word ?b; Word ?v]] => req (TransferFrom a b v)
    | |- context [calldata "safeTransferFrom(address,address,uint256)" [Word ?a; Word ?b; Word ?v]] => req (SafeTransferFrom a b v)
    | |- context [calldata "approve(address,uint256)" [Word ?a; Word ?v]] => req (Approve a v)
    | |- context [calldata "safeTransferFrom(address,address,uint256,bytes)" [Word ?x; Word ?a; Word ?b; Octets ?o]] =>
        apply (calldata_data "safeTransferFrom(address,address,uint256,bytes)"%string [x; a; b] o) in Hdf;
        right; exists (Token (SafeTransferFromData x a b o)); split; [reflexivity|]; split; [reflexivity|];
        split; [split; [assumption|split; [assumption|split; [assumption|split; assumption]]]|exact I]
    | |- context [calldata "setTokenURI(uint256,string)" [Word ?a; Octets ?o]] =>
        apply (calldata_data "setTokenURI(uint256,string)"%string [a] o) in Hdf;
        right; exists (SetTokenURI a o); split; [reflexivity|]; split; [reflexivity|];
        split; [assumption|split; assumption]
    | H : _ \/ _ |- context [calldata "setApprovalForAll(address,bool)" [Word ?a; Word ?v]] =>
        destruct H as [H|H]; rewrite H; [req (SetApprovalForAll a false)|req (SetApprovalForAll a true)]
    | _ => left
    end.
  all: try reflexivity.
  all: assert (Told : forall r, snd (told r s) = s) by (intros []; reflexivity).
  all: first [apply uri_still
    | exact (eq_trans (f_equal snd (ask_finish lb w _ _ s (balance_m s _))) (Told _))
    | exact (eq_trans (f_equal snd (ask_finish lb w _ _ s (owner_m s _))) (Told _))
    | exact (eq_trans (f_equal snd (ask_finish lb w _ _ s (approved_m s _))) (Told _))].
Qed.

(** Whether a call is a request can be told from its bytes. *)
Lemma calldata_dec sig ts d : data_fits d ->
  (exists args, List.Forall2 has_type ts args /\ d = calldata sig args) \/
  (forall args, List.Forall2 has_type ts args -> d <> calldata sig args).
Proof.
  intros [Hb Hd]. assert (Hd' : size d < two256) by (apply (Z.lt_trans _ (2 ^ 255)); [exact Hd|reflexivity]). clear Hd.
  unfold calldata. set (p := be_bytes 4 (sig_selector sig)). assert (L : length p = 4%nat) by apply be_bytes_length. clearbody p.
  assert (X : List.Forall is_byte (skipn 4 d)) by (apply Forall_skipn, Hb).
  assert (Y : size (skipn 4 d) < two256) by (unfold size in *; rewrite skipn_length; lia).
  destruct (list_eq_dec Z.eq_dec (firstn 4 d) p) as [E|E].
  - destruct (decode_params ts (skipn 4 d)) as [args|] eqn:D.
    + left. exists args. apply decode_params_iff in D; [|exact X|exact Y]. destruct D as [T D]. split; [exact T|].
      rewrite <- D, <- E. symmetry. apply firstn_skipn.
    + right. intros args T K. assert (D' : decode_params ts (skipn 4 d) = Some args); [|congruence].
      apply decode_params_iff; [exact X|exact Y|]. split; [exact T|]. rewrite K. apply SolAbi_lemmas.drop_app, L.
  - right. intros args T K. apply E. rewrite K. apply SolAbi_lemmas.take_app, L.
Qed.
Definition is_request (v : Z) (d : list Z) : Prop := exists r, asks r /\ v = 0 /\ d = mrequest_data r.
Ltac open_args := repeat match goal with
     | H : List.Forall2 _ (_ :: _) _ |- _ => inversion H; subst; clear H
     | H : List.Forall2 _ [] _ |- _ => inversion H; subst; clear H
     | H : has_type Bytes ?y |- _ => destruct y; cbn [has_type word_of_type] in H;
         [destruct H|exfalso; destruct H as (? & H & _); discriminate H|destruct H as [_ H]]
     | H : has_type String_ ?y |- _ => destruct y; cbn [has_type word_of_type] in H;
         [destruct H|exfalso; destruct H as (? & H & _); discriminate H|destruct H as [_ H]]
     | H : has_type _ ?y |- _ => destruct y; cbn [has_type word_of_type] in H;
         [|exfalso; first [destruct H as (? & H & _); discriminate H | destruct H as [[H|H] _]; discriminate H]..]
     end.
Lemma request_cases v d : data_fits d -> is_request v d \/ (forall r, asks r -> ~ (v = 0 /\ d = mrequest_data r)).
Proof.
  intros Hd. destruct (BinInt.Z.eq_dec v 0) as [->|N]; [|right; intros r _ [E _]; contradiction].
  destruct (calldata_dec "burn(uint256)" [U256] d Hd) as [(a & T & ->)|N1].
  { left. open_args. match goal with |- is_request _ (calldata _ [Word ?n]) => exists (Token (Burn n)) end. split; [split; [assumption|exact I]|]. split; reflexivity. }
  destruct (calldata_dec "mint(address,uint256)" [Address; U256] d Hd) as [(a & T & ->)|N2].
  { left. open_args. match goal with |- is_request _ (calldata _ [Word ?n; Word ?n0]) => exists (Token (Mint n n0)) end. split; [split; [split; assumption|exact I]|]. split; reflexivity. }
  destruct (calldata_dec "transferFrom(address,address,uint256)" [Address; Address; U256] d Hd) as [(a & T & ->)|N3].
  { left. open_args. match goal with |- is_request _ (calldata _ [Word ?n; Word ?n0; Word ?n1]) => exists (Token (TransferFrom n n0 n1)) end. split; [split; [split; [assumption|split; assumption]|exact I]|]. split; reflexivity. }
  destruct (calldata_dec "safeTransferFrom(address,address,uint256)" [Address; Address; U256] d Hd) as [(a & T & ->)|N4].
  { left. open_args. match goal with |- is_request _ (calldata _ [Word ?n; Word ?n0; Word ?n1]) => exists (Token (SafeTransferFrom n n0 n1)) end. split; [split; [split; [assumption|split; assumption]|exact I]|]. split; reflexivity. }
  destruct (calldata_dec "safeTransferFrom(address,address,uint256,bytes)" [Address; Address; U256; Bytes] d Hd) as [(a & T & ->)|N5].
  { left. open_args. match goal with |- is_request _ (calldata _ [Word ?n; Word ?n0; Word ?n1; Octets ?l]) => pose proof (calldata_data _ [n; n0; n1] l Hd) as Hs; exists (Token (SafeTransferFromData n n0 n1 l)) end.
     split; [split; [split; [assumption|split; [assumption|split; [assumption|split; assumption]]]|exact I]|]. split; reflexivity. }
  destruct (calldata_dec "approve(address,uint256)" [Address; U256] d Hd) as [(a & T & ->)|N6].
  { left. open_args. match goal with |- is_request _ (calldata _ [Word ?n; Word ?n0]) => exists (Token (Approve n n0)) end. split; [split; [split; assumption|exact I]|]. split; reflexivity. }
  destruct (calldata_dec "setApprovalForAll(address,bool)" [Address; bool_] d Hd) as [(a & T & ->)|N7].
  { left. open_args. match goal with H : _ \/ _ |- _ => destruct H as [->| ->] end.
    - match goal with |- is_request _ (calldata _ [Word ?n; _]) => exists (Token (SetApprovalForAll n false)) end. split; [split; [assumption|exact I]|]. split; reflexivity.
    - match goal with |- is_request _ (calldata _ [Word ?n; _]) => exists (Token (SetApprovalForAll n true)) end. split; [split; [assumption|exact I]|]. split; reflexivity. }
  destruct (calldata_dec "setTokenURI(uint256,string)" [U256; String_] d Hd) as [(a & T & ->)|N8].
  { left. open_args. match goal with |- is_request _ (calldata _ [Word ?n; Octets ?l]) => pose proof (calldata_data _ [n] l Hd) as Hs; exists (SetTokenURI n l) end.
     split; [split; [assumption|split; assumption]|]. split; reflexivity. }
  right. intros r Hr [_ E].
  destruct r as [[id|t id|t id o|f t id|f t id|f t id o|t id|q b| |]|id u]; cbn [asks request_fits available] in Hr;
    unfold mrequest_data, request_data in E; try contradiction (proj2 Hr).
  - destruct Hr as [H1 _]. apply (N1 [Word id]); [types|exact E].
  - destruct Hr as [[H1 H2] _]. apply (N2 [Word t; Word id]); [types|exact E].
  - destruct Hr as [(H1 & H2 & H3) _]. apply (N3 [Word f; Word t; Word id]); [types|exact E].
  - destruct Hr as [(H1 & H2 & H3) _]. apply (N4 [Word f; Word t; Word id]); [types|exact E].
  - destruct Hr as [(H1 & H2 & H3 & H4 & H5) _]. apply (N5 [Word f; Word t; Word id; Octets o]); [types|exact E].
  - destruct Hr as [[H1 H2] _]. apply (N6 [Word t; Word id]); [types|exact E].
  - destruct Hr as [H1 _]. apply (N7 [Word q; Word (if b then 1 else 0)]); [|exact E].
    apply List.Forall2_cons; [exact H1|]. apply List.Forall2_cons; [|apply List.Forall2_nil]. cbn [has_type word_of_type]. destruct b; auto.
  - destruct Hr as (H1 & H2 & H3). apply (N8 [Word id; Octets u]); [types|exact E].
Qed.
Lemma requests_exist h : sane h -> exists l, requests_of h l.
Proof.
  induction h as [|[w [[c v] d]] h IH]; intros Hh; [exists []; constructor|].
  destruct (proj1 (List.Forall_cons_iff _ _ _) Hh) as [[Hc Hd] Hh']. destruct (IH Hh') as (l & Hl).
  destruct (request_cases v d Hd) as [(r & Hr & -> & ->)|N].
  - exists ((w, c, r) :: l). apply a_request; assumption.
  - exists l. apply another_call; assumption.
Qed.
Lemma requests_app h1 l1 h2 l2 : requests_of h1 l1 -> requests_of h2 l2 -> requests_of (h1 ++ h2) (l1 ++ l2).
Proof. induction 1; intros H2; [exact H2|apply a_request; auto|apply another_call; auto]. Qed.

(** What the getters show. *)
Notation meta lb := (fun w => entry (C lb w)).
Ltac fit := unfold reason_fits; cbn [numbers]; repeat (apply List.Forall_cons; [solve [auto using addr_u256, addr0]|]); apply List.Forall_nil.
Lemma shows_of_fine lb n s b : fine lb n s b -> text (l_base lb) -> shows (meta lb) lb s b.
Proof.
  intros F Tb. pose proof (f_tokens _ _ _ _ F) as H. unfold shows, tells, objects, says_text. cbv beta. split; [|split; [|split; [|split; [|split]]]].
  - intros i Hi. pose proof (uri_ok lb n s b i F Tb Hi) as U. pose proof (h_own _ _ _ H i) as Ho.
    destruct (owner_in (r_tokens (m_tokens b)) i =? 0) eqn:E; rewrite Ho in E.
    + assert (D : decode_reason (revert_erc721 (Erc721.NonexistentToken i)) = Some (ERC721NonexistentToken i)) by (apply revert_erc721_ok; [reflexivity|fit]).
      split; [|split]; intros w c; exists (revert_erc721 (Erc721.NonexistentToken i)); (split; [|exact D]).
      * rewrite (ask_owner lb w s c i Hi). unfold owner_answer. rewrite E. reflexivity.
      * rewrite (ask_approved lb w s c i Hi). unfold approved_answer. rewrite E. reflexivity.
      * rewrite (ask_uri lb w s c i Hi). mred. rewrite U. reflexivity.
    + split; [|split].
      * intros w c. rewrite (ask_owner lb w s c i Hi). unfold owner_answer. rewrite E, Ho. reflexivity.
      * intros w c. rewrite (ask_approved lb w s c i Hi). unfold approved_answer. rewrite E. cbn [told].
        rewrite (h_appr _ _ _ H i) by lia. reflexivity.
      * destruct U as (u & U & K & T). exists u. split; [exact K|]. split; [exact T|]. intros w c. rewrite (ask_uri lb w s c i Hi). mred. rewrite U. reflexivity.
  - intros a Ha Ha0 w c. rewrite (ask_balance lb w s c a Ha). unfold balance_answer. replace (a =? 0) with false by lia.
    cbn [told]. rewrite (h_hold _ _ _ H a Ha Ha0). reflexivity.
  - intros w c. exists (revert_erc721 (Erc721.InvalidOwner 0)). rewrite (ask_balance lb w s c 0 addr0). split; [reflexivity|].
    apply revert_erc721_ok; [reflexivity|fit].
  - intros o p Ho Hp w c. rewrite (ask_operator lb w s c o p Ho Hp), (h_oper _ _ _ H o p Ho Hp). reflexivity.
  - intros w c. apply ask_name.
  - intros w c. apply ask_symbol.
Qed.
Lemma fine_request lb n w s b c r : fine lb n s b -> n + 1 < two256 -> caller_ok c -> asks r ->
  fine lb (n + 1) (snd (entry (C lb w) c 0 (mrequest_data r) s)) (ideal_step b (w, c, r)).
Proof.
  intros F Hn Hc Hr. pose proof (mstep_ok lb n w s b c r F Hn Hc Hr) as O. rewrite (entry_request lb w c r s Hr). unfold ideal_step. cbn [fst snd].
  destruct (ideal w c r b) as [b'|why]; cbn [mmeets] in O.
  - destruct O as (s' & -> & F'). exact F'.
  - destruct O as (er & O & _). destruct (mexec_of w c r s) as [[u|e'|] s']; cbn [fst snd] in *; try discriminate. apply (fine_weaken lb n); [exact F|lia].
Qed.
Lemma fine_run lb h l : requests_of h l -> sane h -> forall n s b, fine lb n s b -> n + Z.of_nat (length h) < two256 ->
  fine lb (n + Z.of_nat (length h)) (raw_run_meta (l_name lb) (l_symbol lb) h s) (ideal_run l b).
Proof.
  induction 1 as [|w c r h l Hr Hl IH|w c v d h l N Hl IH]; intros Hh n s b F Hn.
  - cbn [length]. rewrite Z.add_0_r. exact F.
  - destruct (proj1 (List.Forall_cons_iff _ _ _) Hh) as [[Hc Hd] Hh'].
    change (raw_run_meta (l_name lb) (l_symbol lb) ((w, (c, 0, mrequest_data r)) :: h) s)
      with (raw_run_meta (l_name lb) (l_symbol lb) h (snd (entry (C lb w) c 0 (mrequest_data r) s))).
    change (ideal_run ((w, c, r) :: l) b) with (ideal_run l (ideal_step b (w, c, r))).
    cbn [length] in *. rewrite Nat2Z.inj_succ in *. replace (n + Z.succ (Z.of_nat (length h))) with ((n + 1) + Z.of_nat (length h)) by lia.
    apply (IH Hh' (n + 1)); [apply fine_request; [exact F|lia|exact Hc|exact Hr]|lia].
  - destruct (proj1 (List.Forall_cons_iff _ _ _) Hh) as [[Hc Hd] Hh'].
    change (raw_run_meta (l_name lb) (l_symbol lb) ((w, (c, v, d)) :: h) s)
      with (raw_run_meta (l_name lb) (l_symbol lb) h (snd (entry (C lb w) c v d s))).
    destruct (any_call lb w c v d s Hd) as [->|(r & Hv & Hdr & Hr)]; [|contradiction (N r Hr (conj Hv Hdr))].
    cbn [length] in *. rewrite Nat2Z.inj_succ in *. apply (fine_weaken lb (n + Z.of_nat (length h))); [|lia].
    apply (IH Hh' n); [exact F|lia].
Qed.
Lemma follows_ok lb n w s b c r : fine lb n s b -> n + 1 < two256 -> text (l_base lb) -> caller_ok c -> asks r -> follows (meta lb) lb w s b c r.
Proof.
  intros F Hn Tb Hc Hr. pose proof (mstep_ok lb n w s b c r F Hn Hc Hr) as O. unfold follows. cbv beta. pose proof (entry_request lb w c r s Hr) as E.
  destruct (ideal w c r b) as [b'|why]; cbn [mmeets] in O.
  - destruct O as (s' & X & F'). rewrite X in E. exists s'. split; [exact E|]. split; [exact (shows_of_fine lb _ s' b' F' Tb)|exact (fine_fits _ _ _ _ F')].
  - destruct O as (e & X & Y). destruct (mexec_of w c r s) as [[u|e'|] s']; cbn [fst] in X; try discriminate.
    replace e' with e in E by congruence. destruct why as [why|d]; cbn [says] in Y.
    + eexists. split; [exact E|]. apply revert_erc721_ok; apply Y.
    + rewrite E, Y. reflexivity.
Qed.

(** ** Theorems *)

(** After every history of calls by anybody, with any bytes and any value, among any receivers,
    the getters show the book of the requests among them, and the answer to every further request
    is the ideal collection's.  (What was set for a token that does not exist is not shown, so
    the book is the one of the history, not the one of the answers.) *)
Theorem c100_metadata_is_the_ideal_collection :
  forall lb h, text (l_base lb) -> sane h -> Z.of_nat (length h) + 1 < two256 ->
  let call := fun w => entry (ExampleMeta (l_name lb) (l_symbol lb) w) in
  let s := raw_run_meta (l_name lb) (l_symbol lb) h (Erc721Uri.init (l_base lb)) in
  (exists l, requests_of h l) /\
  forall l, requests_of h l ->
    let b := ideal_run l new_book in
    mbook_fits b /\ shows call lb s b /\
    forall w c r, caller_ok c -> asks r -> follows call lb w s b c r.
Proof.
  intros lb h Tb Hh Hn call s. split; [apply requests_exist, Hh|]. intros l Hl b.
  pose proof (fine_run lb h l Hl Hh 0 _ _ (fine_init lb) ltac:(lia)) as F. fold s in F. fold b in F. rewrite Z.add_0_l in F.
  split; [exact (fine_fits _ _ _ _ F)|]. split; [exact (shows_of_fine lb _ s b F Tb)|].
  intros w c r Hc Hr. exact (follows_ok lb _ w s b c r F Hn Tb Hc Hr).
Qed.
Print Assumptions c100_metadata_is_the_ideal_collection.

(** In particular the book after a series of requests is the one computed by hand. *)
Theorem c100_metadata_computed_by_hand :
  forall lb l, text (l_base lb) -> List.Forall (fun x => caller_ok (snd (fst x)) /\ asks (snd x)) l -> sane (sends l) ->
  Z.of_nat (length l) + 1 < two256 ->
  let b := ideal_run l new_book in
  mbook_fits b /\ shows (fun w => entry (ExampleMeta (l_name lb) (l_symbol lb) w)) lb
    (raw_run_meta (l_name lb) (l_symbol lb) (sends l) (Erc721Uri.init (l_base lb))) b.
Proof.
  intros lb l Tb Hl Hs Hn b. assert (R : requests_of (sends l) l).
  { clear - Hl. induction Hl as [|[[w c] r] l [_ Hr] Hl IH]; [constructor|]. apply a_request; [exact Hr|exact IH]. }
  assert (Hn' : Z.of_nat (length (sends l)) + 1 < two256) by (unfold sends; rewrite map_length; exact Hn).
  destruct (c100_metadata_is_the_ideal_collection lb (sends l) Tb Hs Hn') as [_ X]. destruct (X l R) as (X1 & X2 & _). exact (conj X1 X2).
Qed.
Print Assumptions c100_metadata_computed_by_hand.

(** Anybody sets the address of any token, and it outlives the token: whatever calls came before
    and whatever calls come after, as long as none of them sets that token's address again, the
    token links to what the stranger set whenever it exists; minting, burning and moving it do not
    matter, nor whether it existed when the address was set. *)
Theorem c100_uri_outlives_tokens :
  forall lb h1 w c id u h2, text (l_base lb) -> sane h1 -> sane h2 ->
  Z.of_nat (length h1 + length h2) + 2 < two256 ->
  caller_ok c -> is_u256 id -> text u -> data_fits (mrequest_data (SetTokenURI id u)) ->
  List.Forall (fun x => forall u', snd (snd x) <> mrequest_data (SetTokenURI id u')) h2 ->
  let call := fun w => entry (ExampleMeta (l_name lb) (l_symbol lb) w) in
  let s := raw_run_meta (l_name lb) (l_symbol lb) h1 (Erc721Uri.init (l_base lb)) in
  let s' := raw_run_meta (l_name lb) (l_symbol lb) (h1 ++ (w, (c, 0, mrequest_data (SetTokenURI id u))) :: h2) (Erc721Uri.init (l_base lb)) in
  fst (call w c 0 (mrequest_data (SetTokenURI id u)) s) = Returned [] /\
  (objects call s' "tokenURI(uint256)" [Word id] (ERC721NonexistentToken id) /\
   objects call s' "ownerOf(uint256)" [Word id] (ERC721NonexistentToken id) \/
   exists v o, o <> 0 /\ tells call s' "ownerOf(uint256)" [Word id] o /\
     links (l_base lb) u id v /\ says_text call s' "tokenURI(uint256)" [Word id] v).
Proof.
  intros lb h1 w c id u h2 Tb S1 S2 Hn Hc Hi Hu Hd N call s s'.
  assert (Hr : asks (SetTokenURI id u)).
  { split; [exact Hi|]. split; [exact Hu|]. exact (calldata_data "setTokenURI(uint256,string)" [id] u Hd). }
  split; [unfold call; rewrite (entry_request lb w c _ s Hr); reflexivity|].
  destruct (requests_exist h1 S1) as (l1 & R1). destruct (requests_exist h2 S2) as (l2 & R2).
  assert (R : requests_of (h1 ++ (w, (c, 0, mrequest_data (SetTokenURI id u))) :: h2) (l1 ++ (w, c, SetTokenURI id u) :: l2)).
  { apply requests_app; [exact R1|]. apply a_request; assumption. }
  assert (S' : sane (h1 ++ (w, (c, 0, mrequest_data (SetTokenURI id u))) :: h2)).
  { apply List.Forall_app. split; [exact S1|]. apply List.Forall_cons; [exact (conj Hc Hd)|exact S2]. }
  assert (Hn' : Z.of_nat (length (h1 ++ (w, (c, 0, mrequest_data (SetTokenURI id u))) :: h2)) + 1 < two256).
  { rewrite app_length. cbn [length]. lia. }
  destruct (c100_metadata_is_the_ideal_collection lb _ Tb S' Hn') as [_ X]. destruct (X _ R) as (_ & X2 & _). clear X. fold s' in X2. fold call in X2.
  set (b := ideal_run (l1 ++ (w, c, SetTokenURI id u) :: l2) new_book) in *.
  assert (U : m_uri b id = u).
  { unfold b, ideal_run. rewrite fold_left_app. cbn [fold_left].
    set (b1 := ideal_step _ (w, c, SetTokenURI id u)). assert (U1 : m_uri b1 id = u) by (unfold b1, ideal_step; cbn [ideal fst snd m_uri]; rewrite Z.eqb_refl; reflexivity).
    clearbody b1. clear - R2 N U1. revert b1 U1. induction R2 as [|w' c' r h l Hr Hl IH|w' c' v' d h l _ Hl IH]; intros b1 U1; [exact U1| |].
    - destruct (proj1 (List.Forall_cons_iff _ _ _) N) as [N1 N']. cbn [fold_left]. apply (IH N'). unfold ideal_step. cbn [fst snd].
      destruct r as [r|id' u']; cbn [ideal].
      + destruct (plain w' c' r (m_tokens b1)); exact U1.
      + cbn [m_uri]. destruct (id =? id') eqn:E; [|exact U1]. apply Z.eqb_eq in E. subst id'. contradiction (N1 u' eq_refl).
    - destruct (proj1 (List.Forall_cons_iff _ _ _) N) as [_ N']. apply (IH N' _ U1). }
  destruct X2 as (X2 & _). specialize (X2 id Hi). rewrite U in X2.
  destruct (owner_in (r_tokens (m_tokens b)) id =? 0) eqn:E.
  - left. destruct X2 as (A & _ & B). split; assumption.
  - right. destruct X2 as (A & _ & v & K & _ & B). exists v, (owner_in (r_tokens (m_tokens b)) id). split; [lia|]. split; [exact A|]. split; [exact K|exact B].
Qed.
Print Assumptions c100_uri_outlives_tokens.

(** Bytes that are no text are not accepted as a string, whatever they are and whoever sends them. *)
Theorem c100_bad_text_refused :
  forall lb w c id u s, is_u256 id -> List.Forall is_byte u -> ~ text u -> data_fits (calldata "setTokenURI(uint256,string)" [Word id; Octets u]) ->
  entry (ExampleMeta (l_name lb) (l_symbol lb) w) c 0 (calldata "setTokenURI(uint256,string)" [Word id; Octets u]) s = (Reverted [], s).
Proof.
  intros lb w c id u s Hi Hb Ht Hd.
  assert (P : List.Forall is_byte (abi_params [Word id; Octets u])) by (apply abi_params_bytes; vals).
  assert (Z : size (abi_params [Word id; Octets u]) < two256).
  { destruct Hd as [_ Hd]. unfold calldata in Hd. rewrite size_app in Hd.
    pose proof (size_nonneg (be_bytes 4 (sig_selector "setTokenURI(uint256,string)"))). apply (Z.lt_trans _ (2 ^ 255)); [lia|reflexivity]. }
  assert (D : decode_params [U256; String_] (abi_params [Word id; Octets u]) = None).
  { destruct (decode_params [U256; String_] (abi_params [Word id; Octets u])) as [l|] eqn:D; [exfalso|reflexivity].
    apply decode_params_iff in D; [|exact P|exact Z]. destruct D as [T E]. open_args.
    match type of E with _ = abi_params [Word ?x; Octets ?y] => rename x into n, y into l end.
    assert (D1 : decode_params [U256; Bytes] (abi_params [Word id; Octets u]) = Some [Word id; Octets u]).
    { apply decode_params_iff; [exact P|exact Z|]. split; [types|reflexivity]. }
    assert (D2 : decode_params [U256; Bytes] (abi_params [Word id; Octets u]) = Some [Word n; Octets l]).
    { apply decode_params_iff; [exact P|exact Z|]. split; [|exact E].
      match goal with H : text l |- _ => pose proof (Utf8_lemmas.text_bytes l H) end. types. }
    rewrite D1 in D2. assert (l = u) by congruence. subst l. contradiction. }
  assert (L : length (be_bytes 4 (k "setTokenURI(uint256,string)")) = 4%nat) by apply be_bytes_length.
  unfold calldata. rewrite (k_ok "setTokenURI(uint256,string)") by (vm_compute; reflexivity). unfold entry.
  replace (length (be_bytes 4 (k "setTokenURI(uint256,string)") ++ abi_params [Word id; Octets u]) <? 4)%nat with false
    by (symmetry; apply Nat.ltb_ge; rewrite app_length, L; lia).
  rewrite SolAbi_lemmas.take_app by exact L. rewrite SolAbi_lemmas.drop_app by exact L.
  rewrite find_fn_k_ok by apply known_meta.
  replace (find_fn_k (blocks (C lb w)) (of_be (be_bytes 4 (k "setTokenURI(uint256,string)"))))
    with (Some ("Erc721MetadataExample"%string, fn_as "setTokenURI" "set_token_uri" [U256; String_])) by (vm_compute; reflexivity).
  cbn [Z.eqb negb arg_types fn_as]. rewrite D. reflexivity.
Qed.
Print Assumptions c100_bad_text_refused.

Lemma exposed_interface lb w t f : In (t, f) (exposed (blocks (C lb w))) -> In (fn_sig f, arg_types f) meta_interface.
Proof.
  rewrite exposed_meta_ok. intros Hin.
  assert (K : forallb (fun tf => if in_dec same_entry (fn_sig (snd tf), arg_types (snd tf)) meta_interface then true else false) exposed_meta = true)
    by (vm_compute; reflexivity).
  rewrite forallb_forall in K. specialize (K (t, f) Hin). cbn [snd] in K. destruct (in_dec _ _ _) as [I|]; [exact I|discriminate].
Qed.
(** Nothing else: other bytes, and calls with value, revert; only the requests change the state. *)
Theorem c100_metadata_nothing_else :
  forall lb w c v d s, data_fits d ->
  let call := entry (ExampleMeta (l_name lb) (l_symbol lb) w) in
  (~ proper v d -> call c v d s = (Reverted [], s)) /\
  (snd (call c v d s) <> s -> exists r, v = 0 /\ d = mrequest_data r /\ asks r) /\
  (forall out s', call c v d s = (Returned out, s') -> proper v d).
Proof.
  intros lb w c v d s Hdf call.
  assert (P : call c v d s = (Reverted [], s) \/ proper v d).
  { assert (Hsz : size d < two256) by (apply (Z.lt_trans _ (2 ^ 255)); [apply Hdf|reflexivity]).
    destruct (entry_cases (C lb w) c v d s (known_meta lb w) (proj1 Hdf) Hsz) as [K|(t & f & args & Hin & Hv & Ht & Hd & _)]; [left; exact K|right].
    split; [exact Hv|]. exists (fn_sig f), (arg_types f), args. split; [apply (exposed_interface lb w t), Hin|]. split; assumption. }
  split; [destruct P; tauto|]. split.
  - intros Hs. destruct (any_call lb w c v d s Hdf) as [K|K]; [contradiction (Hs K)|exact K].
  - intros out s' E. destruct P as [P|P]; [congruence|exact P].
Qed.
Print Assumptions c100_metadata_nothing_else.

(** The interfaces the contract says it supports. *)
Theorem c100_constants :
  forall lb w s c id, 0 <= id < 2 ^ 32 -> exists yes : bool,
  entry (ExampleMeta (l_name lb) (l_symbol lb) w) c 0 (calldata "supportsInterface(bytes4)" [Word (id * 2 ^ 224)]) s = (Returned (word (if yes then 1 else 0)), s) /\
  (yes = true <-> In id [0x80ac58cd; 0x5b5e139f; 0x01ffc9a7]).
Proof.
  intros lb w s c id Hid. exists (Introspection.Erc721MetadataExample (firstn 4 (word (id * 2 ^ 224)))). split.
  - rewrite (call_request lb w "supportsInterface(bytes4)"%string [Word (id * 2 ^ 224)] c s "Erc721MetadataExample"%string (fn "supports_interface" [FixedBytes4])).
    + rewrite <- one_word. generalize (id * 2 ^ 224). intros x.
      change (body_of _ _ _ _ c s) with (@gets Erc721Uri.state Erc721.error (list val)
        (fun _ => [Word (of_bool (Introspection.Erc721MetadataExample (firstn 4 (word x))))]) s).
      destruct (Introspection.Erc721MetadataExample (firstn 4 (word x))); reflexivity.
    + vm_compute. reflexivity.
    + vm_compute. reflexivity.
    + apply List.Forall2_cons; [|constructor]. cbn [has_type word_of_type]. exists id. split; [exact Hid|reflexivity].
    + vals.
    + small [id * 2 ^ 224].
  - destruct (Entry_props.bytes4_of id Hid) as (B1 & B2 & B3). pose proof Introspection_props.c70_examples as X.
    decompose [and] X. match goal with H : context [Introspection.Erc721MetadataExample] |- _ => rewrite (H _ B1 B2), B3 end. reflexivity.
Qed.
Print Assumptions c100_constants.

(** ** The hypotheses hold: a history by bytes *)
(** A stranger chooses where token 7 will link to before it exists; it is minted, burnt and minted
    again. *)
Definition example_labels : labels := mkLabels [78; 70; 84] [78] [104; 58; 47].
Definition story : list (world * Z * mrequest) :=
  [(nobody, 66, SetTokenURI 7 [0xC3; 0xA9; 0xE2; 0x82; 0xAC]); (nobody, 10, Token (Mint 10 7)); (nobody, 10, Token (Burn 7));
   (nobody, 10, Token (Mint 20 7)); (nobody, 10, Token (Mint 10 8))].
Lemma is_text d : List.Forall is_byte d -> Utf8.from_utf8 d = true -> text d.
Proof. intros H E. apply (Utf8_lemmas.from_utf8_iff d H), E. Qed.
Lemma no_text d : List.Forall is_byte d -> Utf8.from_utf8 d = false -> ~ text d.
Proof. intros H E T. apply (Utf8_lemmas.from_utf8_iff d H) in T. congruence. Qed.
Ltac bytes := repeat (apply List.Forall_cons; [unfold is_byte; lia|]); apply List.Forall_nil.
Lemma small_enough d n : n < 2 ^ 255 -> EntryMulti_spec.data_fits d -> size d = n -> data_fits d.
Proof. intros H [Hb _] Hs. split; [exact Hb|lia]. Qed.
Ltac fin1 := repeat (apply List.Forall_cons; [exact I|]); apply List.Forall_nil.
Ltac fin2 := rewrite abi_params_size; reflexivity.
Example c100_nonvacuous :
  let h := sends story in
  let call := fun w => entry (ExampleMeta (l_name example_labels) (l_symbol example_labels) w) in
  let s := raw_run_meta (l_name example_labels) (l_symbol example_labels) h (Erc721Uri.init (l_base example_labels)) in
  text (l_base example_labels) /\ sane h /\ List.Forall (fun x => caller_ok (snd (fst x)) /\ asks (snd x)) story /\
  (exists b, mbook_fits b /\ shows call example_labels s b /\
    owner_in (r_tokens (m_tokens b)) 7 = 20 /\ owner_in (r_tokens (m_tokens b)) 8 = 10 /\ owner_in (r_tokens (m_tokens b)) 9 = 0 /\
    m_uri b 7 = [0xC3; 0xA9; 0xE2; 0x82; 0xAC] /\ m_uri b 8 = [] /\
    ideal nobody 10 (Token (Burn 7)) b = No (Because (ERC721InsufficientApproval 10 7))) /\
  (** no text: a lone continuation byte, an overlong form, a surrogate, half of a character *)
  ~ text [0x80] /\ ~ text [0xC0; 0x80] /\ ~ text [0xED; 0xA0; 0x80] /\ ~ text [0x41; 0xE2; 0x82] /\
  data_fits (calldata "setTokenURI(uint256,string)" [Word 7; Octets [0xC0; 0x80]]).
Proof.
  intros h call s.
  assert (B : forall x, 0 <= x < 100 -> is_u256 x) by (intros x Hx; split; [lia|transitivity 100; [lia|reflexivity]]).
  assert (A : forall x, 0 <= x < 100 -> is_address x) by (intros x Hx; split; [lia|transitivity 100; [lia|reflexivity]]).
  assert (K : forall x, 0 < x < 100 -> caller_ok x) by (intros x Hx; split; [apply A; lia|lia]).
  assert (T : text (l_base example_labels)) by (apply is_text; [bytes|vm_compute; reflexivity]).
  assert (D : forall sig args n, n < 2 ^ 255 -> List.Forall bytes_val args -> 4 + size (abi_params args) = n -> data_fits (calldata sig args)).
  { intros sig args n Hn Hb Hs. apply (small_enough _ n Hn).
    - apply (EntryMulti_props.story_data sig args n); [apply (Z.lt_trans _ (2 ^ 255)); [exact Hn|reflexivity]|exact Hb|exact Hs].
    - unfold calldata. rewrite size_app. unfold size at 1. rewrite be_bytes_length. change (Z.of_nat 4) with 4. exact Hs. }
  assert (R : List.Forall (fun x => caller_ok (snd (fst x)) /\ asks (snd x)) story).
  { unfold story. apply List.Forall_cons.
    { split; [apply K; cbn [fst snd]; lia|]. split; [apply B; lia|]. split; [apply is_text; [bytes|vm_compute; reflexivity]|reflexivity]. }
    repeat (apply List.Forall_cons; [split; [apply K; cbn [fst snd]; lia|]; cbn [snd asks request_fits available]; split; [|exact I];
      repeat match goal with |- _ /\ _ => split end; first [apply A; lia|apply B; lia]|]). apply List.Forall_nil. }
  assert (S : sane h).
  { unfold sane, h, sends, story. cbn [map fst snd].
    apply List.Forall_cons. { split; [apply K; lia|]. apply (D _ _ 132); [reflexivity|apply List.Forall_cons; [exact I|]; apply List.Forall_cons; [bytes|apply List.Forall_nil]|rewrite abi_params_size; reflexivity]. }
    repeat (apply List.Forall_cons; [split; [apply K; lia|]; unfold mrequest_data, request_data;
      first [solve [apply (D _ _ 68); [reflexivity|fin1|fin2]]|solve [apply (D _ _ 36); [reflexivity|fin1|fin2]]]|]).
    apply List.Forall_nil. }
  split; [exact T|]. split; [exact S|]. split; [exact R|]. split.
  - destruct (c100_metadata_computed_by_hand example_labels story T R S ltac:(reflexivity)) as [F Sh]. fold h in Sh. fold s in Sh. fold call in Sh.
    exists (ideal_run story new_book). split; [exact F|]. split; [exact Sh|]. clear.
    do 5 (split; [reflexivity|]). reflexivity.
  - do 4 (split; [apply no_text; [bytes|vm_compute; reflexivity]|]).
    apply (D _ _ 132); [reflexivity|apply List.Forall_cons; [exact I|]; apply List.Forall_cons; [bytes|apply List.Forall_nil]|rewrite abi_params_size; reflexivity].
Qed.
