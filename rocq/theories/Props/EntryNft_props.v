(** C87: bytes in, bytes out for examples/erc721. *)
From Verif.Base Require Import Prelude Bytes Keccak Maps.
From stdpp Require Import gmap.
From Coq Require Import String List Permutation.
From Verif.Model Require Import Introspection Router Entry EntryErc721.
From Verif.Model Require SolAbi Erc721 Enumerable Pausable Erc721Example.
From Verif.Spec Require Import Router_spec SolAbi_spec LogMeaning_spec Entry_spec.
From Verif.Spec Require Introspection_spec Erc721_spec Enumerable_spec.
From Verif.Spec Require Import EntryNft_spec.
From Verif.Proofs Require Import Router_lemmas Entry_lemmas EntryNft_lemmas.
From Verif.Proofs Require Enumerable_lemmas.
From Verif.Props Require Import SolAbi_props.
From Verif.Props Require Introspection_props Enumerable_props Entry_props.
Import SolAbi.
Import Enumerable_lemmas (own_of, bal_of).
#[global] Open Scope Z_scope.
Local Open Scope list_scope.
Local Open Scope Z_scope.
Opaque keccak256.

Lemma known721 w : all_known (blocks (Example721 w)) = true.
Proof. vm_compute. reflexivity. Qed.
Definition exposed721 := Eval vm_compute in exposed Pub.Erc721Example.
Lemma exposed721_ok w : exposed (blocks (Example721 w)) = exposed721.
Proof. vm_compute. reflexivity. Qed.

Lemma call_request w sig l c s t f :
  k_fits sig = true -> find_fn_k Pub.Erc721Example (k sig) = Some (t, f) ->
  List.Forall2 has_type (arg_types f) (map Word l) -> size l < 10 ->
  entry (Example721 w) c 0 (calldata sig (map Word l)) s =
  finish (Example721 w) (body_of (code (Example721 w)) t (rust_name f) (map Word l) c s) s.
Proof.
  intros H1 H2 H3 H4. apply entry_calldata; auto using known721, abi_words_bytes.
  rewrite abi_words_size. transitivity 320; [lia|reflexivity].
Qed.
Lemma call_request_data w sig l d c s t f :
  k_fits sig = true -> find_fn_k Pub.Erc721Example (k sig) = Some (t, f) ->
  List.Forall2 has_type (arg_types f) (map Word l ++ [Octets d]) -> size l < 10 -> data_fits d ->
  entry (Example721 w) c 0 (calldata sig (map Word l ++ [Octets d])) s =
  finish (Example721 w) (body_of (code (Example721 w)) t (rust_name f) (map Word l ++ [Octets d]) c s) s.
Proof.
  intros H1 H2 H3 H4 [H5 H6]. apply entry_calldata; auto using known721.
  - apply abi_params_bytes. apply List.Forall_app. split; [|constructor; [exact H5|constructor]].
    apply List.Forall_forall. intros a Ha. apply in_map_iff in Ha. destruct Ha as (x & <- & _). exact I.
  - rewrite words_then_octets_size. pose proof (octets_tail_size d). unfold two256. change (2 ^ 256) with (2 ^ 255 + 2 ^ 255).
    assert (1000 < 2 ^ 255) by reflexivity. lia.
Qed.
Ltac types := repeat (apply List.Forall2_cons || apply List.Forall2_nil); cbn [has_type word_of_type]; tauto.
Ltac call w sg l t f := refine (eq_trans (call_request w sg l _ _ t f _ _ _ _) _); [vm_compute; reflexivity|vm_compute; reflexivity|types|reflexivity|].
Ltac call_d w sg l d t f := refine (eq_trans (call_request_data w sg l d _ _ t f _ _ _ _ _) _);
  [vm_compute; reflexivity|vm_compute; reflexivity|types|reflexivity|assumption|].

Lemma nothing_finish w (m : M Erc721Example.state Erc721Example.error unit) s :
  finish (Example721 w) (nothing m s) s =
  match m s with (Ok _, s') => (Returned [], s') | (Err e, _) => (Reverted (revert_erc721_example e), s) | (Panic, _) => (Reverted [], s) end.
Proof. unfold nothing. mred. destruct (m s) as [[[]|e|] s']; reflexivity. Qed.
Lemma entry_request w c r s : request_fits r ->
  entry (Example721 w) c 0 (request_data r) s =
  match Erc721Example.exec (deployed w) c (op_of w c r) s with
  | (Ok _, s') => (Returned [], s')
  | (Err e, _) => (Reverted (revert_erc721_example e), s)
  | (Panic, _) => (Reverted [], s)
  end.
Proof.
  intros Hr. rewrite <- (nothing_finish w).
  destruct r as [id|t id|t id d|f t id|f t id|f t id d|t id|q v| |]; cbn [request_fits] in Hr; unfold request_data; cbn [op_of Erc721Example.exec].
  - change [Word id] with (map Word [id]). call w "burn(uint256)"%string [id] "Erc721Example"%string (fn "burn" [U256]). reflexivity.
  - change [Word t; Word id] with (map Word [t; id]).
    call w "mint(address,uint256)"%string [t; id] "Erc721Example"%string (fn "mint" [Address; U256]). reflexivity.
  - destruct Hr as (H1 & H2 & H3). change [Word t; Word id; Octets d] with (map Word [t; id] ++ [Octets d]). pose proof (proj1 H3) as H4.
    call_d w "safeMint(address,uint256,bytes)"%string [t; id] d "Erc721Example"%string (fn "safe_mint" [Address; U256; Bytes]). reflexivity.
  - change [Word f; Word t; Word id] with (map Word [f; t; id]).
    call w "transferFrom(address,address,uint256)"%string [f; t; id] "Erc721Example"%string (fn "transfer_from" [Address; Address; U256]). reflexivity.
  - change [Word f; Word t; Word id] with (map Word [f; t; id]).
    call w "safeTransferFrom(address,address,uint256)"%string [f; t; id] "Erc721Example"%string (fn "safe_transfer_from" [Address; Address; U256]). reflexivity.
  - destruct Hr as (H1 & H2 & H3 & H5). change [Word f; Word t; Word id; Octets d] with (map Word [f; t; id] ++ [Octets d]). pose proof (proj1 H5) as H4.
    call_d w "safeTransferFrom(address,address,uint256,bytes)"%string [f; t; id] d "Erc721Example"%string
      (fn_as "safeTransferFrom" "safe_transfer_from_with_data" [Address; Address; U256; Bytes]). reflexivity.
  - change [Word t; Word id] with (map Word [t; id]).
    call w "approve(address,uint256)"%string [t; id] "Erc721"%string (fn "approve" [Address; U256]). reflexivity.
  - change [Word q; Word (if v then 1 else 0)] with (map Word [q; if v then 1 else 0]).
    refine (eq_trans (call_request w "setApprovalForAll(address,bool)"%string [q; if v then 1 else 0] _ _ "Erc721"%string (fn "set_approval_for_all" [Address; bool_]) _ _ _ _) _);
      [vm_compute; reflexivity|vm_compute; reflexivity| |reflexivity|].
    + apply List.Forall2_cons; [exact Hr|]. apply List.Forall2_cons; [|apply List.Forall2_nil]. cbn [has_type word_of_type]. destruct v; auto.
    + destruct v; reflexivity.
  - change (@nil val) with (map Word []). call w "pause()"%string (@nil Z) "Erc721Example"%string (fn "pause" []). reflexivity.
  - change (@nil val) with (map Word []). call w "unpause()"%string (@nil Z) "Erc721Example"%string (fn "unpause" []). reflexivity.
Qed.

(** What the getters answer. *)
Definition told {A} (w : world) (r : res Erc721Example.error A) (f : A -> Z) (s : Erc721Example.state) : answer * Erc721Example.state :=
  match r with Ok v => (Returned (word (f v)), s) | Err e => (Reverted (revert_erc721_example e), s) | Panic => (Reverted [], s) end.
Lemma ask_finish w (m : M Erc721Example.state Erc721Example.error Z) (r : res Erc721Example.error Z) s : m s = (r, s) ->
  finish (Example721 w) ((v <~ m ;; ret [Word v]) s) s = told w r id s.
Proof. intros H. mred. rewrite H. destruct r as [v|e|]; cbn [finish told id]; rewrite ?one_word; reflexivity. Qed.
Lemma on_erc721_eq {A} (m : M Erc721.state Erc721.error A) r s : m (Erc721Example.erc721 s) = (r, Erc721Example.erc721 s) ->
  Erc721Example.on_erc721 m s = (match r with Ok v => Ok v | Err e => Err (Erc721Example.Erc721Error e) | Panic => Panic end, s).
Proof. intros H. unfold Erc721Example.on_erc721. mred. rewrite H. destruct s, r; reflexivity. Qed.
Lemma balance_of_eq a e : Erc721.balance_of a e = (if a =? 0 then Err (Erc721.InvalidOwner 0) else Ok (mget (Erc721.balances e) a), e).
Proof. unfold Erc721.balance_of. mred. destruct (a =? 0); reflexivity. Qed.
Lemma get_approved_eq s i : Erc721.get_approved i (Erc721Example.erc721 s) =
  (if own_of s i =? 0 then Err (Erc721.NonexistentToken i) else Ok (approved_of s i), Erc721Example.erc721 s).
Proof.
  unfold Erc721.get_approved. mred. change (Erc721._require_owned i) with (Erc721.owner_of i). rewrite owner_of_eq.
  destruct (own_of s i =? 0); reflexivity.
Qed.
Definition owner_answer (s : Erc721Example.state) (i : Z) : res Erc721Example.error Z :=
  if own_of s i =? 0 then Err (Erc721Example.Erc721Error (Erc721.NonexistentToken i)) else Ok (own_of s i).
Definition approved_answer (s : Erc721Example.state) (i : Z) : res Erc721Example.error Z :=
  if own_of s i =? 0 then Err (Erc721Example.Erc721Error (Erc721.NonexistentToken i)) else Ok (approved_of s i).
Definition balance_answer (s : Erc721Example.state) (a : Z) : res Erc721Example.error Z :=
  if a =? 0 then Err (Erc721Example.Erc721Error (Erc721.InvalidOwner 0)) else Ok (bal_of s a).
Definition index_answer (s : Erc721Example.state) (i : Z) : res Erc721Example.error Z :=
  match nth_error (all_of s) (Z.to_nat i) with
  | Some id => Ok id
  | None => Err (Erc721Example.EnumerableError (Enumerable.OutOfBoundsIndex 0 i))
  end.
Definition owned_answer (s : Erc721Example.state) (a i : Z) : res Erc721Example.error Z :=
  match Enumerable.token_of_owner_by_index a i (Erc721Example.enumerable s) with
  | Ok id => Ok id
  | Err e => Err (Erc721Example.EnumerableError e)
  | Panic => Panic
  end.
Lemma owner_m s i : Erc721Example.on_erc721 (Erc721.owner_of i) s = (owner_answer s i, s).
Proof. rewrite (on_erc721_eq _ _ s (owner_of_eq s i)). unfold owner_answer. destruct (own_of s i =? 0); reflexivity. Qed.
Lemma approved_m s i : Erc721Example.on_erc721 (Erc721.get_approved i) s = (approved_answer s i, s).
Proof. rewrite (on_erc721_eq _ _ s (get_approved_eq s i)). unfold approved_answer. destruct (own_of s i =? 0); reflexivity. Qed.
Lemma balance_m s a : Erc721Example.on_erc721 (Erc721.balance_of a) s = (balance_answer s a, s).
Proof. rewrite (on_erc721_eq _ _ s (balance_of_eq a _)). unfold balance_answer, bal_of. destruct (a =? 0); reflexivity. Qed.
Lemma index_m s i : 0 <= i -> on_enumerable (Enumerable.token_by_index i) s = (index_answer s i, s).
Proof.
  intros Hi. unfold on_enumerable, Enumerable.token_by_index, Enumerable.vget, index_answer. replace (i <? 0) with false by lia.
  destruct (nth_error (all_of s) (Z.to_nat i)); reflexivity.
Qed.
Lemma owned_m s a i : on_enumerable (Enumerable.token_of_owner_by_index a i) s = (owned_answer s a i, s).
Proof. reflexivity. Qed.

Lemma ask_owner w s c i : is_u256 i -> entry (Example721 w) c 0 (calldata "ownerOf(uint256)" [Word i]) s = told w (owner_answer s i) id s.
Proof.
  intros H. change [Word i] with (map Word [i]). call w "ownerOf(uint256)"%string [i] "Erc721"%string (fn "owner_of" [U256]).
  refine (ask_finish w _ _ s (owner_m s i)).
Qed.
Lemma ask_approved w s c i : is_u256 i -> entry (Example721 w) c 0 (calldata "getApproved(uint256)" [Word i]) s = told w (approved_answer s i) id s.
Proof.
  intros H. change [Word i] with (map Word [i]). call w "getApproved(uint256)"%string [i] "Erc721"%string (fn "get_approved" [U256]).
  refine (ask_finish w _ _ s (approved_m s i)).
Qed.
Lemma ask_balance w s c a : is_address a -> entry (Example721 w) c 0 (calldata "balanceOf(address)" [Word a]) s = told w (balance_answer s a) id s.
Proof.
  intros H. change [Word a] with (map Word [a]). call w "balanceOf(address)"%string [a] "Erc721"%string (fn "balance_of" [Address]).
  refine (ask_finish w _ _ s (balance_m s a)).
Qed.
Lemma ask_index w s c i : is_u256 i -> entry (Example721 w) c 0 (calldata "tokenByIndex(uint256)" [Word i]) s = told w (index_answer s i) id s.
Proof.
  intros H. change [Word i] with (map Word [i]). call w "tokenByIndex(uint256)"%string [i] "Erc721Enumerable"%string (fn "token_by_index" [U256]).
  refine (ask_finish w _ _ s (index_m s i (proj1 H))).
Qed.
Lemma ask_owned w s c a i : is_address a -> is_u256 i ->
  entry (Example721 w) c 0 (calldata "tokenOfOwnerByIndex(address,uint256)" [Word a; Word i]) s = told w (owned_answer s a i) id s.
Proof.
  intros H H'. change [Word a; Word i] with (map Word [a; i]).
  call w "tokenOfOwnerByIndex(address,uint256)"%string [a; i] "Erc721Enumerable"%string (fn "token_of_owner_by_index" [Address; U256]).
  refine (ask_finish w _ _ s (owned_m s a i)).
Qed.
Lemma ask_operator w s c a b : is_address a -> is_address b ->
  entry (Example721 w) c 0 (calldata "isApprovedForAll(address,address)" [Word a; Word b]) s = (Returned (word (of_bool (operator_of s a b))), s).
Proof.
  intros H H'. change [Word a; Word b] with (map Word [a; b]).
  call w "isApprovedForAll(address,address)"%string [a; b] "Erc721"%string (fn "is_approved_for_all" [Address; Address]).
  rewrite <- one_word. reflexivity.
Qed.
Lemma ask_supply w s c : entry (Example721 w) c 0 (calldata "totalSupply()" []) s = (Returned (word (Z.of_nat (length (all_of s)))), s).
Proof.
  change (@nil val) with (map Word []). call w "totalSupply()"%string (@nil Z) "Erc721Enumerable"%string (fn "total_supply" []).
  rewrite <- one_word. reflexivity.
Qed.
Lemma ask_paused w s c : entry (Example721 w) c 0 (calldata "paused()" []) s = (Returned (word (of_bool (paused_of s))), s).
Proof.
  change (@nil val) with (map Word []). call w "paused()"%string (@nil Z) "Pausable"%string (fn "paused" []).
  rewrite <- one_word. reflexivity.
Qed.

(** A call changes nothing or is one of the requests, to the letter. *)
Lemma calldata_data sig ws d : data_fits (calldata sig (map Word ws ++ [Octets d])) -> List.Forall is_byte d -> data_fits d.
Proof.
  intros [_ H] Hd. split; [exact Hd|]. unfold calldata in H. rewrite size_app, words_then_octets_size in H.
  pose proof (octets_tail_size_ge d). pose proof (size_nonneg (be_bytes 4 (sig_selector sig))). pose proof (size_nonneg ws). lia.
Qed.
Lemma any_call w c v d s : data_fits d ->
  snd (entry (Example721 w) c v d s) = s \/ exists r, v = 0 /\ d = request_data r /\ request_fits r.
Proof.
  intros Hdf. assert (Hb := proj1 Hdf). assert (Hsz : size d < two256) by (apply (Z.lt_trans _ (2 ^ 255)); [apply Hdf|reflexivity]).
  destruct (entry_cases (Example721 w) c v d s (known721 w) Hb Hsz) as [->|(t & f & args & Hin & -> & Ht & Hd & He)]; [left; reflexivity|].
  rewrite exposed721_ok in Hin. unfold exposed721 in Hin. rewrite He. clear He Hb Hsz.
  repeat (destruct Hin as [Hin|Hin];
    [injection Hin as <- <-; cbn [arg_types] in Ht;
     repeat match goal with
     | H : List.Forall2 _ (_ :: _) _ |- _ => inversion H; subst; clear H
     | H : List.Forall2 _ [] _ |- _ => inversion H; subst; clear H
     | H : has_type Bytes ?y |- _ => destruct y; cbn [has_type word_of_type] in H;
         [destruct H|exfalso; destruct H as (? & H & _); discriminate H|destruct H as [_ H]]
     | H : has_type _ ?y |- _ => destruct y; cbn [has_type word_of_type] in H;
         [|exfalso; first [destruct H as (? & H & _); discriminate H | destruct H as [[H|H] _]; discriminate H]..]
     end|]); [..|destruct Hin].
  all: match goal with |- context [fn_sig ?f] => let x := eval vm_compute in (fn_sig f) in change (fn_sig f) with x in * | _ => idtac end.
  all: match goal with H : data_fits (calldata (fn_sig ?f) _) |- _ => let x := eval vm_compute in (fn_sig f) in change (fn_sig f) with x in * | _ => idtac end.
  Ltac req r := right; exists r; split; [reflexivity|]; split; [reflexivity|cbn [request_fits]; auto].
  all: match goal with
    | |- context [calldata "burn(uint256)" [Word ?v]] => req (Burn v)
    | |- context [calldata "mint(address,uint256)" [Word ?a; Word ?v]] => req (Mint a v)
    | |- context [calldata "transferFrom(address,address,uint256)" [Word ?a; Word ?b; Word ?v]] => req (TransferFrom a b v)
    | |- context [calldata "safeTransferFrom(address,address,uint256)" [Word ?a; Word ?b; Word ?v]] => req (SafeTransferFrom a b v)
    | |- context [calldata "approve(address,uint256)" [Word ?a; Word ?v]] => req (Approve a v)
    | |- context [calldata "pause()" []] => req Pause
    | |- context [calldata "unpause()" []] => req Unpause
    | |- context [calldata "safeMint(address,uint256,bytes)" [Word ?a; Word ?b; Octets ?o]] =>
        req (SafeMint a b o); apply (calldata_data "safeMint(address,uint256,bytes)"%string [a; b] o) in Hdf; auto
    | |- context [calldata "safeTransferFrom(address,address,uint256,bytes)" [Word ?x; Word ?a; Word ?b; Octets ?o]] =>
        req (SafeTransferFromData x a b o); apply (calldata_data "safeTransferFrom(address,address,uint256,bytes)"%string [x; a; b] o) in Hdf; auto
    | H : _ \/ _ |- context [calldata "setApprovalForAll(address,bool)" [Word ?a; Word ?v]] =>
        destruct H as [H|H]; rewrite H; [req (SetApprovalForAll a false)|req (SetApprovalForAll a true)]
    | _ => left
    end.
  all: try reflexivity.
  all: assert (Told : forall r f, snd (@told Z w r f s) = s) by (intros [] f0; reflexivity).
  - exact (eq_trans (f_equal snd (ask_finish w _ _ s (balance_m s _))) (Told _ _)).
  - exact (eq_trans (f_equal snd (ask_finish w _ _ s (owner_m s _))) (Told _ _)).
  - exact (eq_trans (f_equal snd (ask_finish w _ _ s (approved_m s _))) (Told _ _)).
  - exact (eq_trans (f_equal snd (ask_finish w _ _ s (owned_m s _ _))) (Told _ _)).
  - exact (eq_trans (f_equal snd (ask_finish w _ _ s (index_m s _ (proj1 H1)))) (Told _ _)).
Qed.

(** *** What the getters show is what the register of the model holds *)
Notation call721 := (fun w => entry (Example721 w)).
Definition nobody : world := mkWorld (fun _ => false) (fun _ _ => Returned []).
Lemma bool_word (x y : bool) (s : Erc721Example.state) :
  (Returned (word (of_bool x)), s) = (Returned (word (if y then 1 else 0)), s) -> y = x.
Proof.
  intros E. assert (E' : word (of_bool x) = word (if y then 1 else 0)) by congruence.
  apply word_inj in E'; [destruct x, y; cbn [of_bool] in E'; congruence|destruct x|destruct y]; split; cbn [of_bool]; try lia; reflexivity.
Qed.
Lemma fits_owner b i : register_fits b -> owner_in (r_tokens b) i <> 0 -> is_u256 i /\ is_address (owner_in (r_tokens b) i).
Proof.
  intros (_ & F & _) H. apply owner_in_In in H. rewrite List.Forall_forall in F. destruct (F _ H) as (F1 & F2 & _). split; assumption.
Qed.
Ltac fit := unfold reason_fits; cbn [numbers]; repeat (apply List.Forall_cons; [solve [auto using addr_u256, addr0]|]); apply List.Forall_nil.
Lemma shows_agree n s b : Good n s -> n < two256 -> register_fits b -> (shows call721 s b <-> agree s b).
Proof.
  intros G Hn F. assert (L := g_len _ _ G). unfold shows, tells, objects. split.
  - intros (H1 & H2 & _ & H4 & _ & _ & H7).
    assert (W : forall x y, is_u256 x -> is_u256 y -> (Returned (word x), s) = (Returned (word y), s) -> y = x).
    { intros x y Hx Hy E. assert (E' : word x = word y) by congruence. symmetry. exact (word_inj _ _ Hx Hy E'). }
    assert (Own : forall i, owner_in (r_tokens b) i = own_of s i).
    { intros i. destruct (BinInt.Z.eq_dec (own_of s i) 0) as [E|E].
      - destruct (BinInt.Z.eq_dec (owner_in (r_tokens b) i) 0) as [E'|E']; [congruence|exfalso].
        destruct (fits_owner b i F E') as [Hi _]. specialize (H1 i Hi). replace (owner_in (r_tokens b) i =? 0) with false in H1 by lia.
        destruct H1 as [H1 _]. specialize (H1 nobody 0). rewrite (ask_owner nobody s 0 i Hi) in H1. unfold owner_answer in H1.
        rewrite (proj2 (Z.eqb_eq _ _) E) in H1. cbn [told] in H1. congruence.
      - destruct (g_ids _ _ G i E) as [Hi Ha]. specialize (H1 i Hi).
        destruct (owner_in (r_tokens b) i =? 0) eqn:E'; destruct H1 as [H1 _]; specialize (H1 nobody 0).
        + destruct H1 as (d & H1 & _). rewrite (ask_owner nobody s 0 i Hi) in H1. unfold owner_answer in H1.
          replace (own_of s i =? 0) with false in H1 by lia. cbn [told] in H1. congruence.
        + rewrite (ask_owner nobody s 0 i Hi) in H1. unfold owner_answer in H1.
          replace (own_of s i =? 0) with false in H1 by lia. cbn [told id] in H1. apply W in H1; auto using addr_u256.
          apply addr_u256. apply (fits_owner b i F). lia. }
    split.
    + exact Own.
    + intros a Ha Ha0. specialize (H2 a Ha Ha0 nobody 0). rewrite (ask_balance nobody s 0 a Ha) in H2. unfold balance_answer in H2.
      replace (a =? 0) with false in H2 by lia. cbn [told id] in H2. apply W in H2; auto; [apply (g_bal _ _ G)|].
      pose proof (holding_range (r_tokens b) a). destruct F as (_ & _ & F & _). unfold is_u256. lia.
    + intros i E. destruct (g_ids _ _ G i E) as [Hi Ha]. specialize (H1 i Hi). rewrite (Own i) in H1.
      replace (own_of s i =? 0) with false in H1 by lia. destruct H1 as [_ H1]. specialize (H1 nobody 0).
      rewrite (ask_approved nobody s 0 i Hi) in H1. unfold approved_answer in H1.
      replace (own_of s i =? 0) with false in H1 by lia. cbn [told id] in H1. apply W in H1; auto.
      * apply addr_u256, (g_appr_addr _ _ G).
      * apply F.
    + intros o p Ho Hp. specialize (H4 o p Ho Hp nobody 0). rewrite (ask_operator nobody s 0 o p Ho Hp) in H4. apply bool_word in H4. exact H4.
    + specialize (H7 nobody 0). rewrite (ask_paused nobody s 0) in H7. apply bool_word in H7. exact H7.
  - intros A. pose proof (listing n s b G F A) as P. split; [|split; [|split; [|split; [|split; [|split]]]]].
    + intros i Hi. rewrite (a_own _ _ A i). destruct (own_of s i =? 0) eqn:E; split; intros w c.
      * exists (revert_erc721_example (Erc721Example.Erc721Error (Erc721.NonexistentToken i))).
        rewrite (ask_owner w s c i Hi). unfold owner_answer. rewrite E. split; [reflexivity|].
        apply revert_erc721_ok; [reflexivity|fit].
      * exists (revert_erc721_example (Erc721Example.Erc721Error (Erc721.NonexistentToken i))).
        rewrite (ask_approved w s c i Hi). unfold approved_answer. rewrite E. split; [reflexivity|].
        apply revert_erc721_ok; [reflexivity|fit].
      * rewrite (ask_owner w s c i Hi). unfold owner_answer. rewrite E. reflexivity.
      * rewrite (ask_approved w s c i Hi). unfold approved_answer. rewrite E. cbn [told id]. rewrite (a_appr _ _ A i) by lia. reflexivity.
    + intros a Ha Ha0 w c. rewrite (ask_balance w s c a Ha). unfold balance_answer. replace (a =? 0) with false by lia.
      cbn [told id]. rewrite (a_bal _ _ A a Ha Ha0). reflexivity.
    + intros w c. exists (revert_erc721_example (Erc721Example.Erc721Error (Erc721.InvalidOwner 0))).
      rewrite (ask_balance w s c 0 addr0). split; [reflexivity|]. apply revert_erc721_ok; [reflexivity|fit].
    + intros o p Ho Hp w c. rewrite (ask_operator w s c o p Ho Hp), (a_op _ _ A o p Ho Hp). reflexivity.
    + intros w c. rewrite (ask_supply w s c), (listing_length n s b G F A). reflexivity.
    + exists (all_of s). split; [exact P|]. intros i Hi.
      destruct (nth_error (all_of s) (Z.to_nat i)) as [j|] eqn:E; intros w c.
      * rewrite (ask_index w s c i Hi). unfold index_answer. rewrite E. reflexivity.
      * exists (revert_erc721_example (Erc721Example.EnumerableError (Enumerable.OutOfBoundsIndex 0 i))).
        rewrite (ask_index w s c i Hi). unfold index_answer. rewrite E. split; [reflexivity|].
        apply (revert_enumerable_ok (Enumerable.OutOfBoundsIndex 0 i)). cbn [reason_enumerable]. fit.
    + intros w c. rewrite (ask_paused w s c), (a_paused _ _ A). reflexivity.
Qed.

(** *** Histories *)
Lemma good_raw h : sane h -> forall n s b, Good n s -> register_fits b -> agree s b -> n + Z.of_nat (length h) < two256 ->
  exists b', Good (n + Z.of_nat (length h)) (raw_run721 h s) /\ register_fits b' /\ agree (raw_run721 h s) b'.
Proof.
  induction h as [|[w [[c v] d]] h IH]; intros Hh n s b G F A Hn; [exists b; cbn; rewrite Z.add_0_r; auto|].
  inversion Hh as [|? ? Hx Hh']; subst. destruct Hx as [Hc Hd]. cbn [length] in *.
  change (raw_run721 ((w, (c, v, d)) :: h) s) with (raw_run721 h (snd (entry (Example721 w) c v d s))).
  replace (n + Z.of_nat (S (length h))) with ((n + 1) + Z.of_nat (length h)) in * by lia.
  destruct (any_call w c v d s Hd) as [->|(r & -> & -> & Hr)].
  - apply (IH Hh' (n + 1) s b); auto. apply (good_weaken n); [exact G|lia].
  - pose proof (step_ok n w s b c r G ltac:(lia) F A Hc Hr) as O. rewrite (entry_request w c r s Hr).
    destruct (ideal w c r b) as [b'|why]; cbn [outcome_is] in O.
    + destruct O as (s' & -> & G' & A' & F'). cbn [snd]. apply (IH Hh' (n + 1) s' b'); auto.
    + destruct O as (e & O & _). destruct (Erc721Example.exec (deployed w) c (op_of w c r) s) as [[u|e'|] s']; cbn [fst snd] in *; try discriminate.
      apply (IH Hh' (n + 1) s b); auto. apply (good_weaken n); [exact G|lia].
Qed.
Lemma says_reason e r : says e (Because r) -> decode_reason (revert_erc721_example e) = Some r.
Proof.
  intros [Hf H]. destruct e as [e|e|e]; cbn [revert_erc721_example].
  - subst r. apply revert_enumerable_ok, Hf.
  - apply revert_erc721_ok; assumption.
  - subst r. apply revert_pausable_ok.
Qed.
Lemma follows_ok n w s b c r : Good n s -> n + 1 < two256 -> register_fits b -> agree s b -> caller_ok c -> request_fits r ->
  follows call721 w s b c r.
Proof.
  intros G Hn F A Hc Hr. pose proof (step_ok n w s b c r G Hn F A Hc Hr) as O. unfold follows.
  pose proof (entry_request w c r s Hr) as E. cbv beta.
  destruct (ideal w c r b) as [b'|why]; cbn [outcome_is] in O.
  - destruct O as (s' & X & G' & A' & F'). rewrite X in E. exists s'. split; [exact E|]. split; [|exact F'].
    apply (shows_agree (n + 1) s' b' G' Hn F'). exact A'.
  - destruct O as (e & X & Y). destruct (Erc721Example.exec (deployed w) c (op_of w c r) s) as [[u|e'|] s']; cbn [fst] in X; try discriminate.
    replace e' with e in E by congruence. destruct why as [why|out].
    + eexists. split; [exact E|]. apply says_reason, Y.
    + cbn [says] in Y. rewrite Y in E. exact E.
Qed.
Fixpoint same_type (a b : abi_type) : {a = b} + {a <> b}.
Proof. decide equality. Defined.
Definition same_entry : forall a b : string * list abi_type, {a = b} + {a <> b}.
Proof. intros [] []. decide equality; [apply (list_eq_dec same_type)|apply string_dec]. Defined.
Lemma exposed721_interface w t f : In (t, f) (exposed (blocks (Example721 w))) -> In (fn_sig f, arg_types f) erc721_interface.
Proof.
  rewrite exposed721_ok. intros Hin.
  assert (K : forallb (fun tf => if in_dec same_entry (fn_sig (snd tf), arg_types (snd tf)) erc721_interface then true else false) exposed721 = true)
    by (vm_compute; reflexivity).
  rewrite forallb_forall in K. specialize (K (t, f) Hin). cbn [snd] in K. destruct (in_dec _ _ _) as [I|]; [exact I|discriminate].
Qed.
(** The same request, for receivers that all hold code: one without any stands for one that agrees. *)
Definition op_all (w : world) (c : Z) (r : request) : Erc721Example.op :=
  let ask t x := if deployed w t then x else Erc721.Returned Erc721.RECEIVER_FN_SELECTOR in
  match r with
  | SafeMint t i d => Erc721Example.SafeMint t i d (ask t (hook w c 0 t i d))
  | SafeTransferFrom f t i => Erc721Example.SafeTransferFrom f t i [] (ask t (hook w c f t i []))
  | SafeTransferFromData f t i d => Erc721Example.SafeTransferFrom f t i d (ask t (hook w c f t i d))
  | _ => op_of w c r
  end.
Lemma bind_ext {S E A B} (m : M S E A) (k k' : A -> M S E B) : (forall a s, k a s = k' a s) -> forall s, bind m k s = bind m k' s.
Proof. intros H s. mred. destruct (m s) as [[a|e|] s']; auto. Qed.
Lemma bind_ext_l {S E A B} (m m' : M S E A) (k : A -> M S E B) : (forall s, m s = m' s) -> forall s, bind m k s = bind m' k s.
Proof. intros H s. mred. rewrite H. reflexivity. Qed.
Lemma check_all w o f t i d x (e : Erc721.state) :
  Erc721._check_on_erc721_received (deployed w) (Erc721Example.answers x) o f t i d e =
  Erc721._check_on_erc721_received (fun _ => true)
    (Erc721Example.answers (if deployed w t then x else Erc721.Returned Erc721.RECEIVER_FN_SELECTOR)) o f t i d e.
Proof. unfold Erc721._check_on_erc721_received. destruct (deployed w t); reflexivity. Qed.
Lemma on_erc721_ext {A} (m m' : M Erc721.state Erc721.error A) : (forall e, m e = m' e) ->
  forall s, Erc721Example.on_erc721 m s = Erc721Example.on_erc721 m' s.
Proof. intros H s. unfold Erc721Example.on_erc721. mred. rewrite H. reflexivity. Qed.
Lemma exec_all w c r s :
  Erc721Example.exec (deployed w) c (op_of w c r) s = Erc721Example.exec (fun _ => true) c (op_all w c r) s.
Proof.
  destruct r as [id|t id|t id d|f t id|f t id|f t id d|t id|q v| |]; try reflexivity; cbn [op_of op_all Erc721Example.exec].
  - unfold Erc721Example.safe_mint. apply bind_ext. intros _ s1. apply bind_ext_l. intros s2. apply on_erc721_ext. intros e.
    unfold Erc721._safe_mint. apply bind_ext. intros _ e1. apply check_all.
  - unfold Erc721Example.safe_transfer_from_with_data. apply bind_ext. intros _ s1. apply bind_ext. intros o s2.
    apply bind_ext_l. intros s3. apply on_erc721_ext. intros e. unfold Erc721.safe_transfer_from_with_data. apply bind_ext. intros _ e1. apply check_all.
  - unfold Erc721Example.safe_transfer_from_with_data. apply bind_ext. intros _ s1. apply bind_ext. intros o s2.
    apply bind_ext_l. intros s3. apply on_erc721_ext. intros e. unfold Erc721.safe_transfer_from_with_data. apply bind_ext. intros _ e1. apply check_all.
Qed.
Lemma step_request w c r s : request_fits r ->
  snd (entry (Example721 w) c 0 (request_data r) s) = Erc721Example.step (fun _ => true) s (c, op_all w c r).
Proof.
  intros Hr. rewrite (entry_request w c r s Hr), exec_all. unfold Erc721Example.step, tx. cbn [fst snd].
  destruct (Erc721Example.exec (fun _ => true) c (op_all w c r) s) as [[u|e|] s']; reflexivity.
Qed.
Lemma op_all_wf w c r : caller_ok c -> request_fits r -> Enumerable_spec.op_wf (c, op_all w c r).
Proof. intros [_ Hc] Hr. split; [exact Hc|]. destruct r; cbn in *; tauto. Qed.
Lemma raw_typed h : sane h -> forall s, exists g,
  List.Forall Enumerable_spec.op_wf g /\ (length g <= length h)%nat /\ (no_self_transfers h -> List.Forall Enumerable_spec.no_self g) /\
  raw_run721 h s = Erc721Example.run (fun _ => true) g s.
Proof.
  induction h as [|[w [[c v] d]] h IH]; intros Hh s; [exists []; repeat split; constructor|].
  inversion Hh as [|? ? Hx Hh']; subst. destruct Hx as [Hc Hd].
  change (raw_run721 ((w, (c, v, d)) :: h) s) with (raw_run721 h (snd (entry (Example721 w) c v d s))).
  destruct (any_call w c v d s Hd) as [->|(r & -> & -> & Hr)].
  - destruct (IH Hh' s) as (g & G1 & G2 & G3 & G4). exists g. split; [exact G1|]. split; [cbn [length]; lia|]. split; [|exact G4].
    intros Hn. apply G3. inversion Hn; assumption.
  - rewrite (step_request w c r s Hr). destruct (IH Hh' (Erc721Example.step (fun _ => true) s (c, op_all w c r))) as (g & G1 & G2 & G3 & G4).
    exists ((c, op_all w c r) :: g). split; [constructor; [apply op_all_wf; assumption|exact G1]|]. split; [cbn [length]; lia|]. split; [|exact G4].
    intros Hn. inversion Hn as [|? ? Hn1 Hn2]; subst. constructor; [|apply G3, Hn2]. cbn [snd] in Hn1.
    destruct r as [id|t id|t id d|f t id|f t id|f t id d|t id|q v| |]; try exact I; intros E; cbn [op_all op_of snd] in E; subst t.
    + destruct (Hn1 f id []) as (K & _). apply K. reflexivity.
    + destruct (Hn1 f id []) as (_ & K & _). apply K. reflexivity.
    + destruct (Hn1 f id d) as (_ & _ & K). apply K. reflexivity.
Qed.

(** A user who reads the getters knows what every request will do: after every history of calls
    by anybody, with any bytes and any value, among any receivers, the getters show a register of
    tokens, and the answer to every request and the register shown afterwards are those of the
    ideal one. *)
Theorem c87_erc721_is_the_ideal_register :
  forall h, sane h -> Z.of_nat (length h) + 1 < two256 ->
  let call := fun w => entry (Example721 w) in
  let s := raw_run721 h Erc721Example.init in
  (exists b, register_fits b /\ shows call s b) /\
  (forall w b c r, register_fits b -> shows call s b -> caller_ok c -> request_fits r -> follows call w s b c r) /\
  shows call Erc721Example.init new_register.
Proof.
  intros h Hh Hn call s.
  destruct (good_raw h Hh 0 _ new_register good_init new_fits agree_init) as (b & G & F & A); [lia|]. fold s in G, A. rewrite Z.add_0_l in G.
  split; [|split].
  - exists b. split; [exact F|]. apply (shows_agree (Z.of_nat (length h)) s b G); [lia|exact F|exact A].
  - intros w b' c r F' S' Hc Hr. apply (shows_agree (Z.of_nat (length h)) s b' G) in S'; [|lia|exact F'].
    apply (follows_ok (Z.of_nat (length h))); assumption.
  - apply (shows_agree 0 _ _ good_init); [reflexivity|apply new_fits|apply agree_init].
Qed.
Print Assumptions c87_erc721_is_the_ideal_register.

(** In particular the register shown after a series of requests is the one computed by hand. *)
Theorem c87_erc721_computed_by_hand :
  forall l, List.Forall (fun x => caller_ok (snd (fst x)) /\ request_fits (snd x)) l -> Z.of_nat (length l) < two256 ->
  let b := ideal_run l new_register in
  register_fits b /\ shows (fun w => entry (Example721 w)) (raw_run721 (sends l) Erc721Example.init) b.
Proof.
  assert (K : forall l, List.Forall (fun x => caller_ok (snd (fst x)) /\ request_fits (snd x)) l ->
    forall n s b, Good n s -> register_fits b -> agree s b -> n + Z.of_nat (length l) < two256 ->
    Good (n + Z.of_nat (length l)) (raw_run721 (sends l) s) /\ register_fits (ideal_run l b) /\ agree (raw_run721 (sends l) s) (ideal_run l b)).
  { induction 1 as [|[[w c] r] l [Hc Hr] Hl IH]; intros n s b G F A Hn; [cbn; rewrite Z.add_0_r; auto|]. cbn [fst snd] in Hc, Hr. cbn [length] in *.
    change (raw_run721 (sends ((w, c, r) :: l)) s) with (raw_run721 (sends l) (snd (entry (Example721 w) c 0 (request_data r) s))).
    change (ideal_run ((w, c, r) :: l) b) with (ideal_run l (ideal_step b (w, c, r))). unfold ideal_step. cbn [fst snd].
    replace (n + Z.of_nat (S (length l))) with ((n + 1) + Z.of_nat (length l)) in * by lia.
    pose proof (step_ok n w s b c r G ltac:(lia) F A Hc Hr) as O. rewrite (entry_request w c r s Hr).
    destruct (ideal w c r b) as [b'|why]; cbn [outcome_is] in O.
    - destruct O as (s' & -> & G' & A' & F'). cbn [snd]. apply (IH (n + 1) s' b'); auto.
    - destruct O as (e & O & _). destruct (Erc721Example.exec (deployed w) c (op_of w c r) s) as [[u|e'|] s']; cbn [fst snd] in *; try discriminate.
      apply (IH (n + 1) s b); auto. apply (good_weaken n); [exact G|lia]. }
  intros l Hl Hn b. destruct (K l Hl 0 _ new_register good_init new_fits agree_init) as (G & F & A); [lia|]. split; [exact F|].
  apply (shows_agree (0 + Z.of_nat (length l)) _ _ G); [lia|exact F|exact A].
Qed.
Print Assumptions c87_erc721_computed_by_hand.

(** Anything but a well-formed call of a public function without value fails without a reason
    and without effect; whatever changes the state is one of the ten requests, to the letter. *)
Theorem c87_erc721_nothing_else :
  forall w c v d s, data_fits d ->
  let call := entry (Example721 w) in
  (~ proper v d -> call c v d s = (Reverted [], s)) /\
  (snd (call c v d s) <> s -> exists r, v = 0 /\ d = request_data r /\ request_fits r) /\
  (forall out s', call c v d s = (Returned out, s') -> proper v d).
Proof.
  intros w c v d s Hdf call. assert (Hsz : size d < two256) by (apply (Z.lt_trans _ (2 ^ 255)); [apply Hdf|reflexivity]).
  assert (P : call c v d s = (Reverted [], s) \/ proper v d).
  { destruct (entry_cases (Example721 w) c v d s (known721 w) (proj1 Hdf) Hsz) as [K|(t & f & args & Hin & Hv & Ht & Hd & _)]; [left; exact K|right].
    split; [exact Hv|]. exists (fn_sig f), (arg_types f), args. split; [apply (exposed721_interface w t), Hin|]. split; assumption. }
  split; [destruct P; tauto|]. split.
  - intros Hs. destruct (any_call w c v d s Hdf) as [K|K]; [contradiction (Hs K)|exact K].
  - intros out s' E. destruct P as [P|P]; [congruence|exact P].
Qed.
Print Assumptions c87_erc721_nothing_else.

(** Every history of raw calls is, for the state, a history of typed ones: what C38 to C41 say
    about those holds for bytes. *)
Theorem c87_raw_histories_are_typed :
  forall h s, sane h -> exists g,
  List.Forall Enumerable_spec.op_wf g /\ (length g <= length h)%nat /\ (no_self_transfers h -> List.Forall Enumerable_spec.no_self g) /\
  raw_run721 h s = Erc721Example.run (fun _ => true) g s.
Proof. intros h s Hh. apply raw_typed. exact Hh. Qed.
Print Assumptions c87_raw_histories_are_typed.

(** As long as nobody has sent a token to themselves, the enumeration by owner lists what the
    owner has, once each; number 0 is answered as if there were nothing at its place. *)
Theorem c87_owner_enumeration :
  forall h, sane h -> no_self_transfers h -> Z.of_nat (length h) < two256 ->
  let call := fun w => entry (Example721 w) in
  let s := raw_run721 h Erc721Example.init in
  forall b a, register_fits b -> shows call s b -> is_address a -> a <> 0 ->
  exists l, Permutation l (tokens_of b a) /\
    forall i, is_u256 i ->
      match nth_error l (Z.to_nat i) with
      | Some id =>
          if id =? 0 then objects call s "tokenOfOwnerByIndex(address,uint256)" [Word a; Word i] (ERC721OutOfBoundsIndex a i)
          else tells call s "tokenOfOwnerByIndex(address,uint256)" [Word a; Word i] id
      | None => objects call s "tokenOfOwnerByIndex(address,uint256)" [Word a; Word i] (ERC721OutOfBoundsIndex a i)
      end.
Proof.
  intros h Hh Hns Hn call s b a F S Ha Ha0.
  destruct (good_raw h Hh 0 _ new_register good_init new_fits agree_init) as (b0 & G & _ & _); [lia|]. fold s in G. rewrite Z.add_0_l in G.
  apply (shows_agree (Z.of_nat (length h)) s b G) in S; [|lia|exact F].
  destruct (raw_typed h Hh Erc721Example.init) as (g & G1 & G2 & G3 & G4). fold s in G4.
  destruct (Enumerable_props.c40_enumeration_exact (fun _ => true) g G1 (G3 Hns) ltac:(lia)) as [X _]. rewrite <- G4 in X.
  destruct (X a Ha0) as (l & [X1 X2] & _ & X3). exists l. split.
  - apply NoDup_Permutation.
    + apply NoDup_ListNoDup, X1.
    + unfold tokens_of. destruct F as (F & _). revert F. generalize (r_tokens b). intros t. induction t as [|[i o] t IH]; cbn [map fst filter snd]; [constructor|].
      intros H. inversion H as [|? ? H1 H2]; subst. destruct (o =? a); [|auto]. cbn [map fst]. constructor; [|auto].
      intros H3. apply H1. apply in_map_iff in H3. destruct H3 as (p & <- & H3). apply filter_In in H3. apply in_map, H3.
    + intros id. rewrite <- elem_of_list_In, X2. unfold Erc721_spec.owner. rewrite owner_of_eq. cbn [fst]. rewrite <- (a_own _ _ S id).
      destruct F as (F & Fz & _). unfold tokens_of. revert F Fz. generalize (r_tokens b). intros t. induction t as [|[i o] t IH]; cbn [map fst filter snd owner_in In].
      * intros _ _. split; [discriminate|contradiction].
      * intros H Hz. inversion H as [|? ? H1 H2]; subst. inversion Hz as [|? ? Hz1 Hz2]; subst. cbn [fst snd] in Hz1. specialize (IH H2 Hz2).
        destruct (i =? id) eqn:E.
        { replace i with id in * by lia. destruct Hz1 as (_ & _ & Hz1). replace (o =? 0) with false by lia. destruct (o =? a) eqn:Eo.
          - cbn [map fst In]. split; [auto|]. intros _. f_equal. lia.
          - split; [intros K; inversion K; lia|]. intros K. exfalso. apply H1. apply in_map_iff in K. destruct K as (p & <- & K). apply filter_In in K. apply in_map, K. }
        { destruct (o =? a); [cbn [map fst In]|exact IH]. rewrite IH. split; [auto|]. intros [K|K]; [lia|exact K]. }
  - assert (Ob : forall i, is_u256 i -> Enumerable.token_of_owner_by_index a i (Erc721Example.enumerable s) = Err (Enumerable.OutOfBoundsIndex a i) ->
      objects call s "tokenOfOwnerByIndex(address,uint256)" [Word a; Word i] (ERC721OutOfBoundsIndex a i)).
    { intros i Hi K w c. exists (revert_erc721_example (Erc721Example.EnumerableError (Enumerable.OutOfBoundsIndex a i))).
      unfold call. rewrite (ask_owned w s c a i Ha Hi). unfold owned_answer. rewrite K. split; [reflexivity|].
      apply (revert_enumerable_ok (Enumerable.OutOfBoundsIndex a i)). cbn [reason_enumerable]. fit. }
    intros i Hi. pose proof (X3 i (proj1 Hi)) as K. destruct (nth_error l (Z.to_nat i)) as [id|]; [|apply Ob; assumption].
    destruct (id =? 0); [apply Ob; assumption|]. intros w c. unfold call. rewrite (ask_owned w s c a i Ha Hi). unfold owned_answer. rewrite K. reflexivity.
Qed.
Print Assumptions c87_owner_enumeration.

(** The interfaces the contract says it supports. *)
Theorem c87_constants :
  forall w s c id, 0 <= id < 2 ^ 32 -> exists yes : bool,
  entry (Example721 w) c 0 (calldata "supportsInterface(bytes4)" [Word (id * 2 ^ 224)]) s = (Returned (word (if yes then 1 else 0)), s) /\
  (yes = true <-> In id [0x80ac58cd; 0x780e9d63; 0x01ffc9a7]).
Proof.
  intros w s c id Hid. exists (Introspection.Erc721Example (firstn 4 (word (id * 2 ^ 224)))). split.
  - change [Word (id * 2 ^ 224)] with (map Word [id * 2 ^ 224]).
    rewrite (call_request w "supportsInterface(bytes4)"%string [id * 2 ^ 224] c s "Erc721Example"%string (fn "supports_interface" [FixedBytes4])).
    + rewrite <- one_word. generalize (id * 2 ^ 224). intros x.
      change (body_of _ _ _ _ c s) with (@gets Erc721Example.state Erc721Example.error (list val)
        (fun _ => [Word (of_bool (Introspection.Erc721Example (firstn 4 (word x))))]) s).
      destruct (Introspection.Erc721Example (firstn 4 (word x))); reflexivity.
    + vm_compute. reflexivity.
    + vm_compute. reflexivity.
    + apply List.Forall2_cons; [|constructor]. cbn [has_type word_of_type]. exists id. split; [exact Hid|reflexivity].
    + reflexivity.
  - destruct (Entry_props.bytes4_of id Hid) as (B1 & B2 & B3). destruct Introspection_props.c70_examples as (_ & X & _).
    rewrite (X _ B1 B2), B3. reflexivity.
Qed.
Print Assumptions c87_constants.

(** ** The hypotheses hold: a history by bytes *)
Lemma calldata_fits sig ws : size ws < 10 -> data_fits (calldata sig (map Word ws)).
Proof.
  intros H. unfold calldata. split; [apply List.Forall_app; split; [apply be_bytes_byte|apply abi_words_bytes]|].
  rewrite size_app, abi_words_size. unfold size at 1. rewrite be_bytes_length. transitivity 400; [lia|reflexivity].
Qed.
Lemma calldata_fits_data sig ws d : size ws < 10 -> List.Forall is_byte d -> size d < 1000 -> data_fits (calldata sig (map Word ws ++ [Octets d])).
Proof.
  intros H Hd Hs. unfold calldata. split.
  - apply List.Forall_app; split; [apply be_bytes_byte|]. apply abi_params_bytes. apply List.Forall_app. split; [|constructor; [exact Hd|constructor]].
    apply List.Forall_forall. intros a Ha. apply in_map_iff in Ha. destruct Ha as (x & <- & _). exact I.
  - rewrite size_app, words_then_octets_size. pose proof (octets_tail_size d). unfold size at 1. rewrite be_bytes_length.
    transitivity 2000; [lia|reflexivity].
Qed.
(** A shop that takes everything, and one that wants nothing and says so. *)
Definition shop_open : world := mkWorld (fun a => a =? 20) (fun _ _ => Returned consent).
Definition shop_closed : world := mkWorld (fun a => a =? 20) (fun _ _ => Reverted [1; 2; 3]).
Definition story : list (world * Z * request) :=
  [(shop_closed, 10, Mint 10 7); (shop_closed, 10, SafeTransferFromData 10 20 7 [9]); (shop_closed, 10, SafeMint 10 8 []);
   (shop_open, 10, SafeTransferFromData 10 20 7 [9])].
Example c87_nonvacuous :
  let h := sends story in
  let call := fun w => entry (Example721 w) in
  let s := raw_run721 h Erc721Example.init in
  sane h /\ no_self_transfers h /\ Z.of_nat (length h) + 1 < two256 /\
  exists b, register_fits b /\ shows call s b /\ owner_in (r_tokens b) 7 = 20 /\ owner_in (r_tokens b) 8 = 10 /\ tokens_of b 10 = [8] /\
    follows call shop_closed s b 10 (SafeTransferFrom 10 20 8) /\ ideal shop_closed 10 (SafeTransferFrom 10 20 8) b = Denied (Quoting [1; 2; 3]) /\
    follows call shop_open s b 10 (SafeTransferFrom 10 20 8) /\
    (exists b', ideal shop_open 10 (SafeTransferFrom 10 20 8) b = Granted b' /\ holding (r_tokens b') 20 = 2).
Proof.
  intros h call s. assert (B1 : is_u256 7) by (split; [lia|reflexivity]). assert (B2 : is_u256 8) by (split; [lia|reflexivity]).
  assert (A1 : is_address 10) by (split; [lia|reflexivity]). assert (A2 : is_address 20) by (split; [lia|reflexivity]).
  assert (D1 : data_fits [9]) by (split; [repeat constructor; lia|reflexivity]). assert (D0 : data_fits []) by (split; [constructor|reflexivity]).
  assert (C1 : caller_ok 10) by (split; [exact A1|lia]).
  assert (Hh : sane h).
  { repeat (apply List.Forall_cons; [split; [exact C1|]|]); [..|apply List.Forall_nil].
    - apply (calldata_fits "mint(address,uint256)"%string [10; 7]). reflexivity.
    - apply (calldata_fits_data "safeTransferFrom(address,address,uint256,bytes)"%string [10; 20; 7] [9]); [reflexivity|apply D1|reflexivity].
    - apply (calldata_fits_data "safeMint(address,uint256,bytes)"%string [10; 8] []); [reflexivity|apply D0|reflexivity].
    - apply (calldata_fits_data "safeTransferFrom(address,address,uint256,bytes)"%string [10; 20; 7] [9]); [reflexivity|apply D1|reflexivity]. }
  assert (Hl : List.Forall (fun x => caller_ok (snd (fst x)) /\ request_fits (snd x)) story).
  { repeat (apply List.Forall_cons; [split; [exact C1|cbn [snd request_fits]; tauto]|]). apply List.Forall_nil. }
  split; [exact Hh|]. split; [|split; [reflexivity|]].
  - assert (S1 : forall sig ws, size (calldata sig (map Word ws)) = 4 + 32 * size ws).
    { intros sig ws. unfold calldata. rewrite size_app, abi_words_size. unfold size at 1. rewrite be_bytes_length. reflexivity. }
    assert (S2 : forall sig ws d, size (calldata sig (map Word ws ++ [Octets d])) = 4 + 32 * (size ws + 1) + size (tail_of (Octets d))).
    { intros sig ws d. unfold calldata. rewrite size_app, words_then_octets_size. unfold size at 1. rewrite be_bytes_length. lia. }
    assert (S3 : forall a id, size (request_data (TransferFrom a a id)) = 100) by (intros a id; unfold request_data; rewrite (S1 _ [a; a; id]); reflexivity).
    assert (S4 : forall a id, size (request_data (SafeTransferFrom a a id)) = 100) by (intros a id; unfold request_data; rewrite (S1 _ [a; a; id]); reflexivity).
    assert (S5 : forall a id d, 164 <= size (request_data (SafeTransferFromData a a id d))).
    { intros a id d. unfold request_data. rewrite (S2 _ [a; a; id] d). cbn [tail_of]. rewrite !size_app, size_word. pose proof (size_nonneg d).
      change (size [a; a; id]) with 3. match goal with |- context [size (repeat ?x ?n)] => pose proof (size_nonneg (repeat x n)) end. lia. }
    assert (Ne : forall d d', size d <> size d' -> d <> d') by (intros d d' H E; apply H; rewrite E; reflexivity).
    assert (Tr : forall d a id d', request_data (SafeTransferFromData 10 20 7 d) <> request_data (SafeTransferFromData a a id d')).
    { intros d a id d' E. unfold request_data in E.
      apply (f_equal (skipn 4)) in E. unfold calldata in E. rewrite !skipn_app in E.
      assert (L4 : forall x, skipn 4 (be_bytes 4 x) = [] /\ (4 - length (be_bytes 4 x) = 0)%nat).
      { intros x. rewrite be_bytes_length. split; [|reflexivity]. apply skipn_all2. rewrite be_bytes_length. lia. }
      rewrite (proj1 (L4 _)), (proj2 (L4 _)) in E. change (skipn 0 ?l) with l in E. change ([] ++ ?l) with l in E.
      assert (P : forall x y z l, abi_params [Word x; Word y; Word z; l] = word x ++ word y ++ skipn 64 (abi_params [Word x; Word y; Word z; l])).
      { intros x y z l. reflexivity. }
      rewrite (P 10), (P a) in E. apply app_inj_1 in E; [|rewrite !word_length; reflexivity]. destruct E as [E1 E].
      apply app_inj_1 in E; [|rewrite !word_length; reflexivity]. destruct E as [E2 _]. rewrite <- E1 in E2.
      apply word_inj in E2; [discriminate|split; [lia|reflexivity]..]. }
    repeat (apply List.Forall_cons; [|]); [..|apply List.Forall_nil]; intros a id d; cbn [sends map snd fst].
    all: split; [apply Ne; rewrite S3|split; [apply Ne; rewrite S4|]].
    + change (size (request_data (Mint 10 7)) <> 100). unfold request_data. rewrite (S1 _ [10; 7]). discriminate.
    + change (size (request_data (Mint 10 7)) <> 100). unfold request_data. rewrite (S1 _ [10; 7]). discriminate.
    + apply Ne. pose proof (S5 a id d). assert (size (request_data (Mint 10 7)) = 68) by (unfold request_data; rewrite (S1 _ [10; 7]); reflexivity). lia.
    + assert (size (request_data (SafeTransferFromData 10 20 7 [9])) = 196) by (unfold request_data; rewrite (S2 _ [10; 20; 7] [9]); reflexivity). lia.
    + assert (size (request_data (SafeTransferFromData 10 20 7 [9])) = 196) by (unfold request_data; rewrite (S2 _ [10; 20; 7] [9]); reflexivity). lia.
    + apply Tr.
    + assert (size (request_data (SafeMint 10 8 [])) = 132) by (unfold request_data; rewrite (S2 _ [10; 8] []); reflexivity). lia.
    + assert (size (request_data (SafeMint 10 8 [])) = 132) by (unfold request_data; rewrite (S2 _ [10; 8] []); reflexivity). lia.
    + apply Ne. pose proof (S5 a id d). assert (size (request_data (SafeMint 10 8 [])) = 132) by (unfold request_data; rewrite (S2 _ [10; 8] []); reflexivity). lia.
    + assert (size (request_data (SafeTransferFromData 10 20 7 [9])) = 196) by (unfold request_data; rewrite (S2 _ [10; 20; 7] [9]); reflexivity). lia.
    + assert (size (request_data (SafeTransferFromData 10 20 7 [9])) = 196) by (unfold request_data; rewrite (S2 _ [10; 20; 7] [9]); reflexivity). lia.
    + apply Tr.
  - destruct (c87_erc721_computed_by_hand story Hl ltac:(reflexivity)) as [F S]. fold h in S. fold s in S. fold call in S.
    destruct (c87_erc721_is_the_ideal_register h Hh ltac:(reflexivity)) as (_ & Fo & _). fold s in Fo. fold call in Fo.
    exists (ideal_run story new_register). split; [exact F|]. split; [exact S|].
    split; [reflexivity|]. split; [reflexivity|]. split; [reflexivity|].
    split; [apply Fo; auto; cbn; auto|]. split; [reflexivity|]. split; [apply Fo; auto; cbn; auto|].
    eexists. split; reflexivity.
Qed.
