(** C102: bytes in, bytes out for examples/erc721-consecutive, from its constructor on. *)
From Verif.Base Require Import Prelude Bytes Keccak Maps.
From stdpp Require Import gmap.
From Coq Require Import String List.
From Verif.Model Require Import Introspection Router Entry EntryErc721 EntryConsecutive.
From Verif.Model Require SolAbi Erc721 Erc721Example Checkpoints Consecutive ConsecutiveExample.
From Verif.Spec Require Import Router_spec SolAbi_spec LogMeaning_spec.
From Verif.Spec Require Entry_spec EntryNft_spec EntryMeta_spec EntryConsecutive_spec ConsecutiveExample_spec.
From Verif.Proofs Require Import Router_lemmas Entry_lemmas.
From Verif.Proofs Require EntryNft_lemmas EntryConsecutive_lemmas.
From Verif.Props Require Import SolAbi_props.
From Verif.Props Require Introspection_props Entry_props EntryNft_props EntryMulti_props EntryMeta_props ConsecutiveExample_props.
Import SolAbi.
Import Entry_spec (calldata, is_address, has_type, word_of_type).
Import EntryNft_spec EntryConsecutive_spec.
Import EntryMeta_spec (available).
Import EntryNft_lemmas (bytes_val, abi_params_bytes, abi_params_size, one_word, addr0, addr_u256).
Import EntryNft_props (same_entry, balance_of_eq, nobody).
Import EntryMulti_props (small_data).
Import EntryMeta_props (bytes_typed, data_size, calldata_data, calldata_dec, small_enough).
Import EntryConsecutive_lemmas.
Import Consecutive (erc721).
#[global] Open Scope Z_scope.
Local Open Scope list_scope.
Local Open Scope Z_scope.
Opaque keccak256.

Notation C fid w := (ExampleConsecutive fid w).
Lemma known_consecutive fid w : all_known (blocks (C fid w)) = true.
Proof. vm_compute. reflexivity. Qed.
Definition exposed_consecutive := Eval vm_compute in exposed Pub.Erc721ConsecutiveExample.
Lemma exposed_consecutive_ok fid w : exposed (blocks (C fid w)) = exposed_consecutive.
Proof. vm_compute. reflexivity. Qed.
Lemma call_request fid w sig args c s t f :
  k_fits sig = true -> find_fn_k Pub.Erc721ConsecutiveExample (k sig) = Some (t, f) ->
  List.Forall2 has_type (arg_types f) args -> List.Forall bytes_val args -> size (calldata sig args) < two256 ->
  entry (C fid w) c 0 (calldata sig args) s =
  finish (C fid w) (body_of (code (C fid w)) t (rust_name f) args c s) s.
Proof.
  intros H1 H2 H3 H4 H5. apply entry_calldata; auto using known_consecutive, abi_params_bytes.
  unfold calldata in H5. rewrite size_app in H5. pose proof (size_nonneg (be_bytes 4 (sig_selector sig))). lia.
Qed.
Lemma nothing_finish fid w (m : M Consecutive.state Consecutive.error unit) s :
  finish (C fid w) (nothing m s) s =
  match m s with (Ok _, s') => (Returned [], s') | (Err e, _) => (Reverted (revert_consecutive e), s) | (Panic, _) => (Reverted [], s) end.
Proof. unfold nothing. mred. destruct (m s) as [[[]|e|] s']; reflexivity. Qed.
Ltac types := repeat (apply List.Forall2_cons; [first [assumption|apply bytes_typed; assumption]|]); apply List.Forall2_nil.
Ltac vals := repeat (apply List.Forall_cons; [first [exact I|assumption]|]); apply List.Forall_nil.
Ltac small l := apply (small_data _ l); reflexivity.
Ltac call fid w sg l t f := refine (eq_trans (call_request fid w sg l _ _ t f _ _ _ _ _) _); [vm_compute; reflexivity|vm_compute; reflexivity|types|vals|try assumption|].
Lemma entry_request fid w c r s : asks r ->
  entry (C fid w) c 0 (request_data r) s =
  match exec_of fid w c r s with
  | (Ok _, s') => (Returned [], s')
  | (Err e, _) => (Reverted (revert_consecutive e), s)
  | (Panic, _) => (Reverted [], s)
  end.
Proof.
  intros [Hr Av]. rewrite <- (nothing_finish fid w).
  destruct r as [id|t id|t id d|f t id|f t id|f t id d|t id|q v| |]; cbn [request_fits available] in Hr, Av;
    unfold request_data; cbn [exec_of]; try contradiction Av.
  - call fid w "burn(uint256)"%string [Word id] "Erc721ConsecutiveExample"%string (fn "burn" [U256]); [small [id]|]. reflexivity.
  - destruct Hr as [H1 H2]. call fid w "mint(address,uint256)"%string [Word t; Word id] "Erc721ConsecutiveExample"%string (fn "mint" [Address; U256]); [small [t; id]|]. reflexivity.
  - destruct Hr as (H1 & H2 & H3).
    call fid w "transferFrom(address,address,uint256)"%string [Word f; Word t; Word id] "Erc721Consecutive"%string (fn "transfer_from" [Address; Address; U256]); [small [f; t; id]|]. reflexivity.
  - destruct Hr as (H1 & H2 & H3).
    call fid w "safeTransferFrom(address,address,uint256)"%string [Word f; Word t; Word id] "Erc721Consecutive"%string (fn "safe_transfer_from" [Address; Address; U256]); [small [f; t; id]|]. reflexivity.
  - destruct Hr as (H1 & H2 & H3 & H4 & H5).
    call fid w "safeTransferFrom(address,address,uint256,bytes)"%string [Word f; Word t; Word id; Octets d] "Erc721Consecutive"%string
      (fn_as "safeTransferFrom" "safe_transfer_from_with_data" [Address; Address; U256; Bytes]).
    + exact (data_size _ [f; t; id] d ltac:(reflexivity) H5).
    + reflexivity.
  - destruct Hr as [H1 H2]. call fid w "approve(address,uint256)"%string [Word t; Word id] "Erc721Consecutive"%string (fn "approve" [Address; U256]); [small [t; id]|]. reflexivity.
  - refine (eq_trans (call_request fid w "setApprovalForAll(address,bool)"%string [Word q; Word (if v then 1 else 0)] _ _ "Erc721Consecutive"%string (fn "set_approval_for_all" [Address; bool_]) _ _ _ _ _) _);
      [vm_compute; reflexivity|vm_compute; reflexivity| |vals|small [q; if v then 1 else 0]|].
    + apply List.Forall2_cons; [exact Hr|]. apply List.Forall2_cons; [|apply List.Forall2_nil]. cbn [has_type word_of_type]. destruct v; auto.
    + destruct v; reflexivity.
Qed.

(** What the getters answer. *)
Definition told (r : res Consecutive.error Z) (s : Consecutive.state) : answer * Consecutive.state :=
  match r with Ok v => (Returned (word v), s) | Err e => (Reverted (revert_consecutive e), s) | Panic => (Reverted [], s) end.
Lemma ask_finish fid w (m : M Consecutive.state Consecutive.error Z) (r : res Consecutive.error Z) s : m s = (r, s) ->
  finish (C fid w) ((v <~ m ;; ret [Word v]) s) s = told r s.
Proof. intros H. mred. rewrite H. destruct r as [v|e|]; cbn [finish told]; rewrite ?one_word; reflexivity. Qed.
Definition result_of {A} (m : M Consecutive.state Consecutive.error A) (s : Consecutive.state) : res Consecutive.error A := fst (m s).
Lemma owner_still fid i s : exists r, Consecutive._owner_of fid i s = (r, s).
Proof.
  unfold Consecutive._owner_of. mred. destruct (negb _ || _ || _); [eauto|]. destruct (BitMap.get _ _); [eauto|].
  destruct (Checkpoints.lower_lookup _ _); cbn [Consecutive.lift_cp]; unfold ret, fail, panic; eauto.
Qed.
Lemma owner_m fid i s : Consecutive.owner_of fid i s = (result_of (Consecutive.owner_of fid i) s, s).
Proof.
  unfold result_of, Consecutive.owner_of, Consecutive._require_owned. destruct (owner_still fid i s) as (r & E). mred. rewrite E.
  destruct r as [o|e|]; [|reflexivity..]. destruct (o =? 0); reflexivity.
Qed.
Lemma approved_m fid i s : Consecutive.get_approved fid i s = (result_of (Consecutive.get_approved fid i) s, s).
Proof.
  unfold result_of, Consecutive.get_approved, Consecutive._require_owned. destruct (owner_still fid i s) as (r & E). mred. rewrite E.
  destruct r as [o|e|]; [|reflexivity..]. destruct (o =? 0); reflexivity.
Qed.
Definition balance_answer (s : Consecutive.state) (a : Z) : res Consecutive.error Z :=
  if a =? 0 then Err (Consecutive.ErrErc721 (Erc721.InvalidOwner 0)) else Ok (mget (Erc721.balances (erc721 s)) a).
Lemma balance_m s a : Consecutive.balance_of a s = (balance_answer s a, s).
Proof.
  unfold Consecutive.balance_of, Consecutive.on_base, map_err, zoom. rewrite balance_of_eq. unfold balance_answer.
  destruct s; destruct (a =? 0); reflexivity.
Qed.
Lemma ask_owner fid w s c i : is_u256 i -> entry (C fid w) c 0 (calldata "ownerOf(uint256)" [Word i]) s = told (result_of (Consecutive.owner_of fid i) s) s.
Proof.
  intros H. call fid w "ownerOf(uint256)"%string [Word i] "Erc721Consecutive"%string (fn "owner_of" [U256]); [small [i]|].
  exact (ask_finish fid w _ _ s (owner_m fid i s)).
Qed.
Lemma ask_approved fid w s c i : is_u256 i -> entry (C fid w) c 0 (calldata "getApproved(uint256)" [Word i]) s = told (result_of (Consecutive.get_approved fid i) s) s.
Proof.
  intros H. call fid w "getApproved(uint256)"%string [Word i] "Erc721Consecutive"%string (fn "get_approved" [U256]); [small [i]|].
  exact (ask_finish fid w _ _ s (approved_m fid i s)).
Qed.
Lemma ask_balance fid w s c a : is_address a -> entry (C fid w) c 0 (calldata "balanceOf(address)" [Word a]) s = told (balance_answer s a) s.
Proof.
  intros H. call fid w "balanceOf(address)"%string [Word a] "Erc721Consecutive"%string (fn "balance_of" [Address]); [small [a]|].
  exact (ask_finish fid w _ _ s (balance_m s a)).
Qed.
Lemma ask_operator fid w s c a b : is_address a -> is_address b ->
  entry (C fid w) c 0 (calldata "isApprovedForAll(address,address)" [Word a; Word b]) s = (Returned (word (of_bool (oper (erc721 s) a b))), s).
Proof.
  intros H H'. call fid w "isApprovedForAll(address,address)"%string [Word a; Word b] "Erc721Consecutive"%string (fn "is_approved_for_all" [Address; Address]); [small [a; b]|].
  rewrite <- one_word. reflexivity.
Qed.

(** A call changes nothing or is one of the requests, to the letter. *)
Ltac open_args := repeat match goal with
     | H : List.Forall2 _ (_ :: _) _ |- _ => inversion H; subst; clear H
     | H : List.Forall2 _ [] _ |- _ => inversion H; subst; clear H
     | H : has_type Bytes ?y |- _ => destruct y; cbn [has_type word_of_type] in H;
         [destruct H|exfalso; destruct H as (? & H & _); discriminate H|destruct H as [_ H]]
     | H : has_type _ ?y |- _ => destruct y; cbn [has_type word_of_type] in H;
         [|exfalso; first [destruct H as (? & H & _); discriminate H | destruct H as [[H|H] _]; discriminate H]..]
     end.
Lemma any_call fid w c v d s : data_fits d ->
  snd (entry (C fid w) c v d s) = s \/ exists r, v = 0 /\ d = request_data r /\ asks r.
Proof.
  intros Hdf. assert (Hb := proj1 Hdf). assert (Hsz : size d < two256) by (apply (Z.lt_trans _ (2 ^ 255)); [apply Hdf|reflexivity]).
  destruct (entry_cases (C fid w) c v d s (known_consecutive fid w) Hb Hsz) as [->|(t & f & args & Hin & -> & Ht & Hd & He)]; [left; reflexivity|].
  rewrite exposed_consecutive_ok in Hin. unfold exposed_consecutive in Hin. rewrite He. clear He Hb Hsz. subst d.
  repeat (destruct Hin as [Hin|Hin]; [injection Hin as <- <-; cbn [arg_types] in Ht; open_args|]); [..|destruct Hin].
  all: match goal with |- context [fn_sig ?f] => let x := eval vm_compute in (fn_sig f) in change (fn_sig f) with x in * | _ => idtac end.
  Ltac req r := right; exists r; split; [reflexivity|]; split; [reflexivity|split; [cbn [request_fits]; auto|exact I]].
  all: match goal with
    | |- context [calldata "burn(uint256)" [Word ?v]] => req (Burn v)
    | |- context [calldata "mint(address,uint256)" [Word ?a; Word ?v]] => req (Mint a v)
    | |- context [calldata "transferFrom(address,address,uint256)" [Word ?a; Word ?b; Word ?v]] => req (TransferFrom a b v)
    | |- context [calldata "safeTransferFrom(address,address,uint256)" [Word ?a; Word ?b; Word ?v]] => req (SafeTransferFrom a b v)
    | |- context [calldata "approve(address,uint256)" [Word ?a; Word ?v]] => req (Approve a v)
    | |- context [calldata "safeTransferFrom(address,address,uint256,bytes)" [Word ?x; Word ?a; Word ?b; Octets ?o]] =>
        apply (calldata_data "safeTransferFrom(address,address,uint256,bytes)"%string [x; a; b] o) in Hdf;
        right; exists (SafeTransferFromData x a b o); split; [reflexivity|]; split; [reflexivity|];
        split; [split; [assumption|split; [assumption|split; [assumption|split; assumption]]]|exact I]
    | H : _ \/ _ |- context [calldata "setApprovalForAll(address,bool)" [Word ?a; Word ?v]] =>
        destruct H as [H|H]; rewrite H; [req (SetApprovalForAll a false)|req (SetApprovalForAll a true)]
    | _ => left
    end.
  all: try reflexivity.
  all: assert (Told : forall r, snd (told r s) = s) by (intros []; reflexivity).
  all: first [exact (eq_trans (f_equal snd (ask_finish fid w _ _ s (balance_m s _))) (Told _))
    | exact (eq_trans (f_equal snd (ask_finish fid w _ _ s (owner_m fid _ s))) (Told _))
    | exact (eq_trans (f_equal snd (ask_finish fid w _ _ s (approved_m fid _ s))) (Told _))].
Qed.

(** Whether a call is a request can be told from its bytes. *)
Definition is_request (v : Z) (d : list Z) : Prop := exists r, asks r /\ v = 0 /\ d = request_data r.
Lemma request_cases v d : data_fits d -> is_request v d \/ (forall r, asks r -> ~ (v = 0 /\ d = request_data r)).
Proof.
  intros Hd. destruct (BinInt.Z.eq_dec v 0) as [->|N]; [|right; intros r _ [E _]; contradiction].
  destruct (calldata_dec "burn(uint256)" [U256] d Hd) as [(a & T & ->)|N1].
  { left. open_args. match goal with |- is_request _ (calldata _ [Word ?n]) => exists (Burn n) end. split; [split; [assumption|exact I]|]. split; reflexivity. }
  destruct (calldata_dec "mint(address,uint256)" [Address; U256] d Hd) as [(a & T & ->)|N2].
  { left. open_args. match goal with |- is_request _ (calldata _ [Word ?n; Word ?n0]) => exists (Mint n n0) end. split; [split; [split; assumption|exact I]|]. split; reflexivity. }
  destruct (calldata_dec "transferFrom(address,address,uint256)" [Address; Address; U256] d Hd) as [(a & T & ->)|N3].
  { left. open_args. match goal with |- is_request _ (calldata _ [Word ?n; Word ?n0; Word ?n1]) => exists (TransferFrom n n0 n1) end. split; [split; [split; [assumption|split; assumption]|exact I]|]. split; reflexivity. }
  destruct (calldata_dec "safeTransferFrom(address,address,uint256)" [Address; Address; U256] d Hd) as [(a & T & ->)|N4].
  { left. open_args. match goal with |- is_request _ (calldata _ [Word ?n; Word ?n0; Word ?n1]) => exists (SafeTransferFrom n n0 n1) end. split; [split; [split; [assumption|split; assumption]|exact I]|]. split; reflexivity. }
  destruct (calldata_dec "safeTransferFrom(address,address,uint256,bytes)" [Address; Address; U256; Bytes] d Hd) as [(a & T & ->)|N5].
  { left. open_args. match goal with |- is_request _ (calldata _ [Word ?n; Word ?n0; Word ?n1; Octets ?l]) => pose proof (calldata_data _ [n; n0; n1] l Hd) as Hs; exists (SafeTransferFromData n n0 n1 l) end.
     split; [split; [split; [assumption|split; [assumption|split; [assumption|split; assumption]]]|exact I]|]. split; reflexivity. }
  destruct (calldata_dec "approve(address,uint256)" [Address; U256] d Hd) as [(a & T & ->)|N6].
  { left. open_args. match goal with |- is_request _ (calldata _ [Word ?n; Word ?n0]) => exists (Approve n n0) end. split; [split; [split; assumption|exact I]|]. split; reflexivity. }
  destruct (calldata_dec "setApprovalForAll(address,bool)" [Address; bool_] d Hd) as [(a & T & ->)|N7].
  { left. open_args. match goal with H : _ \/ _ |- _ => destruct H as [->| ->] end.
    - match goal with |- is_request _ (calldata _ [Word ?n; _]) => exists (SetApprovalForAll n false) end. split; [split; [assumption|exact I]|]. split; reflexivity.
    - match goal with |- is_request _ (calldata _ [Word ?n; _]) => exists (SetApprovalForAll n true) end. split; [split; [assumption|exact I]|]. split; reflexivity. }
  right. intros r Hr [_ E].
  unfold asks in Hr. destruct r as [id|t id|t id o|f t id|f t id|f t id o|t id|q b| |]; cbn [request_fits available] in Hr;
    unfold request_data in E; try contradiction (proj2 Hr).
  - destruct Hr as [H1 _]. apply (N1 [Word id]); [types|exact E].
  - destruct Hr as [[H1 H2] _]. apply (N2 [Word t; Word id]); [types|exact E].
  - destruct Hr as [(H1 & H2 & H3) _]. apply (N3 [Word f; Word t; Word id]); [types|exact E].
  - destruct Hr as [(H1 & H2 & H3) _]. apply (N4 [Word f; Word t; Word id]); [types|exact E].
  - destruct Hr as [(H1 & H2 & H3 & H4 & H5) _]. apply (N5 [Word f; Word t; Word id; Octets o]); [types|exact E].
  - destruct Hr as [[H1 H2] _]. apply (N6 [Word t; Word id]); [types|exact E].
  - destruct Hr as [H1 _]. apply (N7 [Word q; Word (if b then 1 else 0)]); [|exact E].
    apply List.Forall2_cons; [exact H1|]. apply List.Forall2_cons; [|apply List.Forall2_nil]. cbn [has_type word_of_type]. destruct b; auto.
Qed.
Lemma requests_exist h : sane h -> exists l, requests_of h l.
Proof.
  induction h as [|[w [[c v] d]] h IH]; intros Hh; [exists []; constructor|].
  destruct (proj1 (List.Forall_cons_iff _ _ _) Hh) as [[Hc Hd] Hh']. destruct (IH Hh') as (l & Hl).
  destruct (request_cases v d Hd) as [(r & Hr & -> & ->)|N].
  - exists ((w, c, r) :: l). apply a_request; assumption.
  - exists l. apply another_call; assumption.
Qed.
Lemma requests_app h1 l1 h2 l2 : requests_of h1 l1 -> requests_of h2 l2 -> requests_of (h1 ++ h2) (l1 ++ l2).
Proof. induction 1; intros H2; [exact H2|apply a_request; auto|apply another_call; auto]. Qed.

(** What the getters show. *)
Notation consecutive fid := (fun w => entry (C fid w)).
Ltac fit := unfold reason_fits; cbn [numbers]; repeat (apply List.Forall_cons; [solve [auto using addr_u256, addr0]|]); apply List.Forall_nil.
Lemma shows_of fid n s b : holds fid n s b -> shows (consecutive fid) s b.
Proof.
  intros H. unfold shows, tells, objects. cbv beta. split; [|split; [|split]].
  - intros i Hi. pose proof (h_owner fid n s b i H) as Ho.
    destruct (owner_in (r_tokens b) i =? 0) eqn:E.
    + assert (D : decode_reason (revert_consecutive (Consecutive.ErrErc721 (Erc721.NonexistentToken i))) = Some (ERC721NonexistentToken i)) by (apply revert_consecutive_ok; [reflexivity|fit]).
      split; intros w c; exists (revert_consecutive (Consecutive.ErrErc721 (Erc721.NonexistentToken i))); (split; [|exact D]).
      * rewrite (ask_owner fid w s c i Hi). unfold result_of, Consecutive.owner_of, Consecutive._require_owned. mred. rewrite Ho, E. reflexivity.
      * rewrite (ask_approved fid w s c i Hi). unfold result_of, Consecutive.get_approved, Consecutive._require_owned. mred. rewrite Ho, E. reflexivity.
    + split; intros w c.
      * rewrite (ask_owner fid w s c i Hi). unfold result_of, Consecutive.owner_of, Consecutive._require_owned. mred. rewrite Ho, E. reflexivity.
      * rewrite (ask_approved fid w s c i Hi). unfold result_of, Consecutive.get_approved, Consecutive._require_owned. mred. rewrite Ho, E. cbn [fst told].
        rewrite (h_appr fid _ _ _ H i) by lia. reflexivity.
  - intros a Ha Ha0 w c. rewrite (ask_balance fid w s c a Ha). unfold balance_answer. replace (a =? 0) with false by lia.
    cbn [told]. rewrite (h_hold fid _ _ _ a H Ha0). reflexivity.
  - intros w c. exists (revert_consecutive (Consecutive.ErrErc721 (Erc721.InvalidOwner 0))). rewrite (ask_balance fid w s c 0 addr0). split; [reflexivity|].
    apply revert_consecutive_ok; [reflexivity|fit].
  - intros o p Ho Hp w c. rewrite (ask_operator fid w s c o p Ho Hp), (h_oper fid _ _ _ H o p Ho Hp). reflexivity.
Qed.
Section runs.
  Context (fid : Z) (Hfid : 0 <= fid < two96).
  Lemma holds_request n w s b c r : holds fid n s b -> n + 1 < two256 -> caller_ok c -> asks r ->
    holds fid (n + 1) (snd (entry (C fid w) c 0 (request_data r) s)) (ideal_step b (w, c, r)).
  Proof.
    intros F Hn Hc Hr. pose proof (step_ok fid Hfid n w s b c r F Hn Hc Hr) as O. rewrite (entry_request fid w c r s Hr). unfold ideal_step. cbn [fst snd].
    destruct (ideal w c r b) as [b'|why]; cbn [meets] in O.
    - destruct O as (s' & -> & F'). exact F'.
    - destruct O as (er & O & _). destruct (exec_of fid w c r s) as [[u|e'|] s']; cbn [fst snd] in *; try discriminate. apply (holds_weaken fid n); [exact F|lia].
  Qed.
  Lemma holds_run h l : requests_of h l -> sane h -> forall n s b, holds fid n s b -> n + Z.of_nat (length h) < two256 ->
    holds fid (n + Z.of_nat (length h)) (raw_run_consecutive fid h s) (ideal_run l b).
  Proof.
    induction 1 as [|w c r h l Hr Hl IH|w c v d h l N Hl IH]; intros Hh n s b F Hn.
    - cbn [length]. rewrite Z.add_0_r. exact F.
    - destruct (proj1 (List.Forall_cons_iff _ _ _) Hh) as [[Hc Hd] Hh'].
      change (raw_run_consecutive fid ((w, (c, 0, request_data r)) :: h) s)
        with (raw_run_consecutive fid h (snd (entry (C fid w) c 0 (request_data r) s))).
      change (ideal_run ((w, c, r) :: l) b) with (ideal_run l (ideal_step b (w, c, r))).
      cbn [length] in *. rewrite Nat2Z.inj_succ in *. replace (n + Z.succ (Z.of_nat (length h))) with ((n + 1) + Z.of_nat (length h)) by lia.
      apply (IH Hh' (n + 1)); [apply holds_request; [exact F|lia|exact Hc|exact Hr]|lia].
    - destruct (proj1 (List.Forall_cons_iff _ _ _) Hh) as [[Hc Hd] Hh'].
      change (raw_run_consecutive fid ((w, (c, v, d)) :: h) s)
        with (raw_run_consecutive fid h (snd (entry (C fid w) c v d s))).
      destruct (any_call fid w c v d s Hd) as [->|(r & Hv & Hdr & Hr)]; [|contradiction (N r Hr (conj Hv Hdr))].
      cbn [length] in *. rewrite Nat2Z.inj_succ in *. apply (holds_weaken fid (n + Z.of_nat (length h))); [|lia].
      apply (IH Hh' n); [exact F|lia].
  Qed.
  Lemma follows_ok n w s b c r : holds fid n s b -> n + 1 < two256 -> caller_ok c -> asks r -> follows (consecutive fid) w s b c r.
  Proof.
    intros F Hn Hc Hr. pose proof (step_ok fid Hfid n w s b c r F Hn Hc Hr) as O. unfold follows. cbv beta. pose proof (entry_request fid w c r s Hr) as E.
    destruct (ideal w c r b) as [b'|why]; cbn [meets] in O.
    - destruct O as (s' & X & F'). rewrite X in E. exists s'. split; [exact E|]. split; [exact (shows_of fid _ s' b' F')|exact (h_fits _ _ _ _ F')].
    - destruct O as (e & X & Y). destruct (exec_of fid w c r s) as [[u|e'|] s']; cbn [fst] in X; try discriminate.
      replace e' with e in E by congruence. destruct why as [why|d]; cbn [says] in Y.
      + eexists. split; [exact E|]. apply revert_consecutive_ok; apply Y.
      + rewrite E, Y. reflexivity.
  Qed.
End runs.

(** ** Theorems *)

(** The arguments that can be served deploy the contract; then, after every history of calls by
    anybody, with any bytes and any value, among any receivers, the getters show the register that
    starts with the batches handed out and goes on with the requests among the calls, and the
    answer to every further request is the ideal register's. *)
Theorem c102_consecutive_is_the_ideal_register :
  forall first max receivers amounts, arguments_fit first receivers amounts ->
  ((exists s0, ConsecutiveExample.construct receivers amounts first max = Some s0) <->
   ConsecutiveExample_spec.serviceable first max receivers amounts) /\
  forall s0 h, ConsecutiveExample.construct receivers amounts first max = Some s0 -> sane h -> Z.of_nat (length h) < 2 ^ 255 ->
  let call := fun w => entry (ExampleConsecutive first w) in
  let s := raw_run_consecutive first h s0 in
  (exists l, requests_of h l) /\
  forall l, requests_of h l ->
    let b := ideal_run l (deployed_register first receivers amounts) in
    register_fits b /\ shows call s b /\
    forall w c r, caller_ok c -> asks r -> follows call w s b c r.
Proof.
  intros fid max receivers amounts Ha. pose proof Ha as (Hf & _ & Ham & Hl). split.
  { apply ConsecutiveExample_props.c80_deployable; [exact Hf| |exact Hl]. revert Ham. apply List.Forall_impl. intros x. lia. }
  intros s0 h E Hh Hn call s. split; [apply requests_exist, Hh|]. intros l R b.
  assert (B : two96 + 2 ^ 255 + 1 < two256) by reflexivity.
  pose proof (holds_run fid Hf h l R Hh two96 s0 _ (deployed_holds fid max receivers amounts s0 Ha E) ltac:(lia)) as F. fold s in F. fold b in F.
  split; [exact (h_fits _ _ _ _ F)|]. split; [exact (shows_of fid _ s b F)|].
  intros w c r Hc Hr. exact (follows_ok fid Hf _ w s b c r F ltac:(lia) Hc Hr).
Qed.
Print Assumptions c102_consecutive_is_the_ideal_register.

(** At deployment the tokens are those of the batches, in order: the first recipient has the
    first numbers, the next the following ones, and nobody has any other. *)
Theorem c102_handed_out_in_order :
  forall first max receivers amounts s0, arguments_fit first receivers amounts ->
  ConsecutiveExample.construct receivers amounts first max = Some s0 ->
  let call := fun w => entry (ExampleConsecutive first w) in
  forall id, is_u256 id ->
  if ConsecutiveExample_spec.initial_owner first (combine receivers amounts) id =? 0
  then objects call s0 "ownerOf(uint256)" [Word id] (ERC721NonexistentToken id)
  else tells call s0 "ownerOf(uint256)" [Word id] (ConsecutiveExample_spec.initial_owner first (combine receivers amounts) id).
Proof.
  intros fid max receivers amounts s0 Ha E call id Hid. pose proof (deployed_holds fid max receivers amounts s0 Ha E) as F.
  destruct (shows_of fid _ s0 _ F) as (Sh & _). specialize (Sh id Hid).
  assert (O : owner_in (r_tokens (deployed_register fid receivers amounts)) id = ConsecutiveExample_spec.initial_owner fid (combine receivers amounts) id).
  { clear Sh F call Hid. destruct Ha as (Hf & Hr & Ham & Hl). apply handed_owner. apply List.Forall_forall. intros [to n] Hx.
    assert (Ha' : List.Forall (fun k => 0 <= k) amounts) by (revert Ham; apply List.Forall_impl; intros x; lia).
    destruct (proj1 (ConsecutiveExample_props.c80_deployable fid max receivers amounts Hf Ha' Hl) (ex_intro _ s0 E)) as (_ & S2 & _).
    rewrite List.Forall_forall in Hr, Ham, S2. pose proof (in_combine_l _ _ _ _ Hx) as X1. pose proof (in_combine_r _ _ _ _ Hx) as X2.
    specialize (S2 _ Hx). cbn [fst snd] in S2. split; [apply (Ham n X2)|]. split; [apply (Hr to X1)|cbn [fst snd]; lia]. }
  rewrite O in Sh. unfold call. revert Sh. clear. generalize (ConsecutiveExample_spec.initial_owner fid (combine receivers amounts) id). intros o.
  destruct (o =? 0); intros [Sh _]; exact Sh.
Qed.
Print Assumptions c102_handed_out_in_order.

(** In particular the register after a series of requests is the one computed by hand. *)
Theorem c102_consecutive_computed_by_hand :
  forall first max receivers amounts s0 l, arguments_fit first receivers amounts ->
  ConsecutiveExample.construct receivers amounts first max = Some s0 ->
  List.Forall (fun x => caller_ok (snd (fst x)) /\ asks (snd x)) l -> sane (sends l) -> Z.of_nat (length l) < 2 ^ 255 ->
  let b := ideal_run l (deployed_register first receivers amounts) in
  register_fits b /\ shows (fun w => entry (ExampleConsecutive first w)) (raw_run_consecutive first (sends l) s0) b.
Proof.
  intros fid max receivers amounts s0 l Ha E Hl Hs Hn b. assert (R : requests_of (sends l) l).
  { clear - Hl. induction Hl as [|[[w c] r] l [_ Hr] Hl IH]; [constructor|]. apply a_request; [exact Hr|exact IH]. }
  assert (Hn' : Z.of_nat (length (sends l)) < 2 ^ 255) by (unfold sends; rewrite map_length; exact Hn).
  destruct (c102_consecutive_is_the_ideal_register fid max receivers amounts Ha) as [_ X]. destruct (X s0 (sends l) E Hs Hn') as [_ X'].
  destruct (X' l R) as (X1 & X2 & _). exact (conj X1 X2).
Qed.
Print Assumptions c102_consecutive_computed_by_hand.

(** Anybody burns any token: whoever asks, whenever the token exists, it is gone afterwards. *)
Theorem c102_anybody_burns :
  forall first max receivers amounts s0 h w c id o, arguments_fit first receivers amounts ->
  ConsecutiveExample.construct receivers amounts first max = Some s0 -> sane h -> Z.of_nat (length h) < 2 ^ 255 ->
  caller_ok c -> is_u256 id ->
  let call := fun w => entry (ExampleConsecutive first w) in
  let s := raw_run_consecutive first h s0 in
  tells call s "ownerOf(uint256)" [Word id] o ->
  exists s', call w c 0 (calldata "burn(uint256)" [Word id]) s = (Returned [], s') /\
    objects call s' "ownerOf(uint256)" [Word id] (ERC721NonexistentToken id).
Proof.
  intros fid max receivers amounts s0 h w c id o Ha E Hh Hn Hc Hid call s T.
  destruct (c102_consecutive_is_the_ideal_register fid max receivers amounts Ha) as [_ X]. destruct (X s0 h E Hh Hn) as [(l & R) X']. clear X.
  destruct (X' l R) as (X1 & (X2 & _) & X3). clear X'. fold s in X2, X3. set (b := ideal_run l _) in *.
  specialize (X2 id Hid). specialize (X3 w c (Burn id) Hc (conj Hid I)). unfold follows in X3. cbn [ideal] in X3. unfold existing in X3. cbn [judge] in X3.
  destruct (owner_in (r_tokens b) id =? 0) eqn:Eo.
  - exfalso. destruct X2 as [X2 _]. destruct (X2 w c) as (d & K & _). specialize (T w c). unfold call in T. rewrite K in T. discriminate T.
  - destruct X3 as (s' & K & (Sh & _) & _). exists s'. split; [exact K|]. specialize (Sh id Hid). cbn [destroyed r_tokens] in Sh.
    rewrite EntryNft_lemmas.owner_in_without, Z.eqb_refl in Sh. exact (proj1 Sh).
Qed.
Print Assumptions c102_anybody_burns.

Lemma exposed_interface fid w t f : In (t, f) (exposed (blocks (C fid w))) -> In (fn_sig f, arg_types f) consecutive_interface.
Proof.
  rewrite exposed_consecutive_ok. intros Hin.
  assert (K : forallb (fun tf => if in_dec same_entry (fn_sig (snd tf), arg_types (snd tf)) consecutive_interface then true else false) exposed_consecutive = true)
    by (vm_compute; reflexivity).
  rewrite forallb_forall in K. specialize (K (t, f) Hin). cbn [snd] in K. destruct (in_dec _ _ _) as [I|]; [exact I|discriminate].
Qed.
(** Nothing else: other bytes, and calls with value, revert; only the requests change the state. *)
Theorem c102_consecutive_nothing_else :
  forall first w c v d s, data_fits d ->
  let call := entry (ExampleConsecutive first w) in
  (~ proper v d -> call c v d s = (Reverted [], s)) /\
  (snd (call c v d s) <> s -> exists r, v = 0 /\ d = request_data r /\ asks r) /\
  (forall out s', call c v d s = (Returned out, s') -> proper v d).
Proof.
  intros fid w c v d s Hdf call.
  assert (P : call c v d s = (Reverted [], s) \/ proper v d).
  { assert (Hsz : size d < two256) by (apply (Z.lt_trans _ (2 ^ 255)); [apply Hdf|reflexivity]).
    destruct (entry_cases (C fid w) c v d s (known_consecutive fid w) (proj1 Hdf) Hsz) as [K|(t & f & args & Hin & Hv & Ht & Hd & _)]; [left; exact K|right].
    split; [exact Hv|]. exists (fn_sig f), (arg_types f), args. split; [apply (exposed_interface fid w t), Hin|]. split; assumption. }
  split; [destruct P; tauto|]. split.
  - intros Hs. destruct (any_call fid w c v d s Hdf) as [K|K]; [contradiction (Hs K)|exact K].
  - intros out s' E. destruct P as [P|P]; [congruence|exact P].
Qed.
Print Assumptions c102_consecutive_nothing_else.

(** The interfaces the contract says it supports. *)
Theorem c102_constants :
  forall first w s c id, 0 <= id < 2 ^ 32 -> exists yes : bool,
  entry (ExampleConsecutive first w) c 0 (calldata "supportsInterface(bytes4)" [Word (id * 2 ^ 224)]) s = (Returned (word (if yes then 1 else 0)), s) /\
  (yes = true <-> In id [0x80ac58cd; 0x01ffc9a7]).
Proof.
  intros fid w s c id Hid. exists (Introspection.Erc721ConsecutiveExample (firstn 4 (word (id * 2 ^ 224)))). split.
  - rewrite (call_request fid w "supportsInterface(bytes4)"%string [Word (id * 2 ^ 224)] c s "Erc721ConsecutiveExample"%string (fn "supports_interface" [FixedBytes4])).
    + rewrite <- one_word. generalize (id * 2 ^ 224). intros x.
      change (body_of _ _ _ _ c s) with (@gets Consecutive.state Consecutive.error (list val)
        (fun _ => [Word (of_bool (Introspection.Erc721ConsecutiveExample (firstn 4 (word x))))]) s).
      destruct (Introspection.Erc721ConsecutiveExample (firstn 4 (word x))); reflexivity.
    + vm_compute. reflexivity.
    + vm_compute. reflexivity.
    + apply List.Forall2_cons; [|constructor]. cbn [has_type word_of_type]. exists id. split; [exact Hid|reflexivity].
    + vals.
    + small [id * 2 ^ 224].
  - destruct (Entry_props.bytes4_of id Hid) as (B1 & B2 & B3). pose proof Introspection_props.c70_examples as X.
    decompose [and] X. match goal with H : context [Introspection.Erc721ConsecutiveExample] |- _ => rewrite (H _ B1 B2), B3 end. reflexivity.
Qed.
Print Assumptions c102_constants.

(** ** The hypotheses hold: a history by bytes *)
(** Three recipients, the middle one with nothing; a single mint beyond the batches, transfers out
    of a batch, a stranger burns out of a batch, the number is minted again. *)
Definition story : list (world * Z * request) :=
  [(nobody, 9, Mint 7 50); (nobody, 5, TransferFrom 5 8 10); (nobody, 6, Approve 9 13); (nobody, 9, TransferFrom 6 9 13);
   (nobody, 66, Burn 12); (nobody, 9, Mint 20 12); (nobody, 5, SetApprovalForAll 30 true)].
Ltac fin1 := repeat (apply List.Forall_cons; [exact I|]); apply List.Forall_nil.
Ltac fin2 := rewrite abi_params_size; reflexivity.
Example c102_nonvacuous :
  let h := sends story in
  let call := fun w => entry (ExampleConsecutive 10 w) in
  arguments_fit 10 [5; 0; 6] [3; 0; 2] /\ sane h /\ List.Forall (fun x => caller_ok (snd (fst x)) /\ asks (snd x)) story /\
  ConsecutiveExample_spec.serviceable 10 100 [5; 0; 6] [3; 0; 2] /\
  exists s0, ConsecutiveExample.construct [5; 0; 6] [3; 0; 2] 10 100 = Some s0 /\
  let s := raw_run_consecutive 10 h s0 in
  exists b, register_fits b /\ shows call s b /\
    map (owner_in (r_tokens b)) [9; 10; 11; 12; 13; 14; 15; 50] = [0; 8; 5; 20; 9; 6; 0; 7] /\
    map (holding (r_tokens b)) [5; 6; 7; 8; 9; 20] = [1; 1; 1; 1; 1; 1] /\
    r_operator b 5 30 = true /\ r_approved b 13 = 0 /\
    ideal nobody 30 (TransferFrom 5 30 11) b = Granted (given b 11 30) /\
    ideal nobody 66 (TransferFrom 5 66 11) b = Denied (Because (ERC721InsufficientApproval 66 11)) /\
    ideal nobody 66 (Burn 11) b = Granted (destroyed b 11).
Proof.
  intros h call.
  assert (B : forall x, 0 <= x < 100 -> is_u256 x) by (intros x Hx; split; [lia|transitivity 100; [lia|reflexivity]]).
  assert (A : forall x, 0 <= x < 100 -> is_address x) by (intros x Hx; split; [lia|transitivity 100; [lia|reflexivity]]).
  assert (K : forall x, 0 < x < 100 -> caller_ok x) by (intros x Hx; split; [apply A; lia|lia]).
  assert (D : forall sig args n, n < 2 ^ 255 -> List.Forall bytes_val args -> 4 + size (abi_params args) = n -> data_fits (calldata sig args)).
  { intros sig args n Hn Hb Hs. apply (small_enough _ n Hn).
    - apply (EntryMulti_props.story_data sig args n); [apply (Z.lt_trans _ (2 ^ 255)); [exact Hn|reflexivity]|exact Hb|exact Hs].
    - unfold calldata. rewrite size_app. unfold size at 1. rewrite be_bytes_length. change (Z.of_nat 4) with 4. exact Hs. }
  assert (F : arguments_fit 10 [5; 0; 6] [3; 0; 2]).
  { split; [split; [lia|reflexivity]|]. split; [repeat (apply List.Forall_cons; [apply A; lia|]); apply List.Forall_nil|].
    split; [|reflexivity]. assert (100 < two96) by reflexivity. repeat (apply List.Forall_cons; [lia|]). apply List.Forall_nil. }
  assert (R : List.Forall (fun x => caller_ok (snd (fst x)) /\ asks (snd x)) story).
  { unfold story.
    repeat (apply List.Forall_cons; [split; [apply K; cbn [fst snd]; lia|]; unfold asks; cbn [snd request_fits available]; split; [|exact I];
      repeat match goal with |- _ /\ _ => split end; first [apply A; lia|apply B; lia]|]). apply List.Forall_nil. }
  assert (S : sane h).
  { unfold sane, h, sends, story. cbn [map fst snd].
    repeat (apply List.Forall_cons; [split; [apply K; lia|]; unfold request_data;
      first [solve [apply (D _ _ 68); [reflexivity|fin1|fin2]]|solve [apply (D _ _ 36); [reflexivity|fin1|fin2]]|solve [apply (D _ _ 100); [reflexivity|fin1|fin2]]]|]).
    apply List.Forall_nil. }
  destruct (ConsecutiveExample.construct [5; 0; 6] [3; 0; 2] 10 100) as [s0|] eqn:E; [|exfalso; vm_compute in E; discriminate E].
  split; [exact F|]. split; [exact S|]. split; [exact R|]. split.
  { apply (c102_consecutive_is_the_ideal_register 10 100 _ _ F). exists s0. exact E. }
  exists s0. split; [reflexivity|]. intros s.
  destruct (c102_consecutive_computed_by_hand 10 100 _ _ s0 story F E R S ltac:(reflexivity)) as [F' Sh]. fold h in Sh. fold s in Sh. fold call in Sh.
  exists (ideal_run story (deployed_register 10 [5; 0; 6] [3; 0; 2])). split; [exact F'|]. split; [exact Sh|]. clear.
  do 6 (split; [vm_compute; reflexivity|]). vm_compute. reflexivity.
Qed.
