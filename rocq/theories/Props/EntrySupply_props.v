(** C99: bytes in, bytes out for examples/erc1155-supply. *)
From Verif.Base Require Import Prelude Bytes Keccak Maps.
From stdpp Require Import gmap.
From Coq Require Import String List.
From Verif.Model Require Import Introspection Router Entry EntryErc721 EntryErc1155 EntrySupply.
From Verif.Model Require SolAbi Erc1155.
From Verif.Spec Require Import Router_spec SolAbi_spec LogMeaning_spec.
From Verif.Spec Require Erc1155_spec Entry_spec EntryMulti_spec EntrySupply_spec.
From Verif.Proofs Require Import Router_lemmas Entry_lemmas.
From Verif.Proofs Require Erc1155_lemmas EntryNft_lemmas EntryMulti_lemmas EntrySupply_lemmas.
From Verif.Props Require Import SolAbi_props.
From Verif.Props Require Introspection_props Entry_props EntryNft_props EntryMulti_props.
Import SolAbi.
Import Entry_spec (calldata, is_address, has_type, word_of_type).
Import EntryMulti_spec.
Import EntryNft_lemmas (bytes_val, abi_params_bytes, abi_params_size, one_word, addr0, addr_u256).
Import EntryNft_props (same_entry).
Import EntryMulti_lemmas (agree, a_bal, a_op, a_fit, says, list_fits, length_u256).
Import EntryMulti_props (words_typed, bytes_typed, small_data, nobody, story_data).
Import EntrySupply_spec EntrySupply_lemmas.
#[global] Open Scope Z_scope.
Local Open Scope list_scope.
Local Open Scope Z_scope.
Opaque keccak256.

Lemma known_supply w : all_known (blocks (ExampleSupply w)) = true.
Proof. vm_compute. reflexivity. Qed.
Definition exposed_supply := Eval vm_compute in exposed Pub.Erc1155SupplyExample.
Lemma exposed_supply_ok w : exposed (blocks (ExampleSupply w)) = exposed_supply.
Proof. vm_compute. reflexivity. Qed.
Lemma call_request w sig args c s t f :
  k_fits sig = true -> find_fn_k Pub.Erc1155SupplyExample (k sig) = Some (t, f) ->
  List.Forall2 has_type (arg_types f) args -> List.Forall bytes_val args -> size (calldata sig args) < two256 ->
  entry (ExampleSupply w) c 0 (calldata sig args) s =
  finish (ExampleSupply w) (body_of (code (ExampleSupply w)) t (rust_name f) args c s) s.
Proof.
  intros H1 H2 H3 H4 H5. apply entry_calldata; auto using known_supply, abi_params_bytes.
  unfold calldata in H5. rewrite size_app in H5. pose proof (size_nonneg (be_bytes 4 (sig_selector sig))). lia.
Qed.
Lemma nothing_finish w (m : M Erc1155.supply_state Erc1155.error unit) s :
  finish (ExampleSupply w) (nothing m s) s =
  match m s with (Ok _, s') => (Returned [], s') | (Err e, _) => (Reverted (revert_erc1155 e), s) | (Panic, _) => (Reverted [], s) end.
Proof. unfold nothing. mred. destruct (m s) as [[[]|e|] s']; reflexivity. Qed.
Ltac types := repeat (apply List.Forall2_cons; [first [assumption|apply words_typed; assumption|apply bytes_typed; assumption]|]); apply List.Forall2_nil.
Ltac vals := repeat (apply List.Forall_cons; [first [exact I|assumption]|]); apply List.Forall_nil.
Ltac call w sg l t f := refine (eq_trans (call_request w sg l _ _ t f _ _ _ _ _) _); [vm_compute; reflexivity|vm_compute; reflexivity|types|vals|try assumption|].
Lemma entry_request w c r s : asks r ->
  entry (ExampleSupply w) c 0 (request_data r) s =
  match exec_of w c r s with
  | (Ok _, s') => (Returned [], s')
  | (Err e, _) => (Reverted (revert_erc1155 e), s)
  | (Panic, _) => (Reverted [], s)
  end.
Proof.
  intros [[Hsz Hr] [Av1 Av2]]. rewrite <- (nothing_finish w).
  destruct r as [t i v d|t is vs d|f i v|f is vs|f t i v d|f t is vs d|q v| |]; unfold request_data in *; cbn [exec_of]; cbv beta iota in Hr.
  - destruct Hr as (H1 & H2 & H3 & H4).
    call w "mint(address,uint256,uint256,bytes)"%string [Word t; Word i; Word v; Octets d] "Erc1155Example"%string (fn "mint" [Address; U256; U256; Bytes]). reflexivity.
  - destruct Hr as (H1 & H2 & H3 & H4).
    call w "mintBatch(address,uint256[],uint256[],bytes)"%string [Word t; Words is; Words vs; Octets d] "Erc1155Example"%string (fn "mint_batch" [Address; Vec U256; Vec U256; Bytes]). reflexivity.
  - destruct Hr as (H1 & H2 & H3).
    call w "burn(address,uint256,uint256)"%string [Word f; Word i; Word v] "Erc1155Example"%string (fn "burn" [Address; U256; U256]). reflexivity.
  - destruct Hr as (H1 & H2 & H3).
    call w "burnBatch(address,uint256[],uint256[])"%string [Word f; Words is; Words vs] "Erc1155Example"%string (fn "burn_batch" [Address; Vec U256; Vec U256]). reflexivity.
  - destruct Hr as (H1 & H2 & H3 & H4 & H5).
    call w "safeTransferFrom(address,address,uint256,uint256,bytes)"%string [Word f; Word t; Word i; Word v; Octets d] "Erc1155Supply"%string (fn "safe_transfer_from" [Address; Address; U256; U256; Bytes]). reflexivity.
  - destruct Hr as (H1 & H2 & H3 & H4 & H5).
    call w "safeBatchTransferFrom(address,address,uint256[],uint256[],bytes)"%string [Word f; Word t; Words is; Words vs; Octets d] "Erc1155Supply"%string (fn "safe_batch_transfer_from" [Address; Address; Vec U256; Vec U256; Bytes]). reflexivity.
  - refine (eq_trans (call_request w "setApprovalForAll(address,bool)"%string [Word q; Word (if v then 1 else 0)] _ _ "Erc1155Supply"%string (fn "set_approval_for_all" [Address; bool_]) _ _ _ _ _) _);
      [vm_compute; reflexivity|vm_compute; reflexivity| |vals|exact Hsz|].
    + apply List.Forall2_cons; [exact Hr|]. apply List.Forall2_cons; [|apply List.Forall2_nil]. cbn [has_type word_of_type]. destruct v; auto.
    + destruct v; reflexivity.
  - contradiction Av1. reflexivity.
  - contradiction Av2. reflexivity.
Qed.

(** What the getters answer. *)
Ltac small l := apply (small_data _ l); reflexivity.
Lemma ask_balance w s c a i : is_address a -> is_u256 i ->
  entry (ExampleSupply w) c 0 (calldata "balanceOf(address,uint256)" [Word a; Word i]) s = (Returned (word (Erc1155.balance_of a i (Erc1155.erc1155 s))), s).
Proof.
  intros H H'. call w "balanceOf(address,uint256)"%string [Word a; Word i] "Erc1155Supply"%string (fn "balance_of" [Address; U256]); [small [a; i]|].
  rewrite <- one_word. reflexivity.
Qed.
Lemma ask_operator w s c a b : is_address a -> is_address b ->
  entry (ExampleSupply w) c 0 (calldata "isApprovedForAll(address,address)" [Word a; Word b]) s =
  (Returned (word (of_bool (Erc1155.is_approved_for_all a b (Erc1155.erc1155 s)))), s).
Proof.
  intros H H'. call w "isApprovedForAll(address,address)"%string [Word a; Word b] "Erc1155Supply"%string (fn "is_approved_for_all" [Address; Address]); [small [a; b]|].
  rewrite <- one_word. reflexivity.
Qed.
Lemma ask_supply w s c i : is_u256 i ->
  entry (ExampleSupply w) c 0 (calldata "totalSupply(uint256)" [Word i]) s = (Returned (word (mget (Erc1155.total_supply s) i)), s).
Proof.
  intros H. call w "totalSupply(uint256)"%string [Word i] "Erc1155Example"%string (fn "total_supply" [U256]); [small [i]|].
  rewrite <- one_word. reflexivity.
Qed.
Lemma ask_exists w s c i : is_u256 i ->
  entry (ExampleSupply w) c 0 (calldata "exists(uint256)" [Word i]) s = (Returned (word (of_bool (0 <? mget (Erc1155.total_supply s) i))), s).
Proof.
  intros H. call w "exists(uint256)"%string [Word i] "Erc1155Example"%string (fn "exists" [U256]); [small [i]|].
  rewrite <- one_word. reflexivity.
Qed.
Lemma ask_total w s c : entry (ExampleSupply w) c 0 (calldata "totalSupply()" []) s = (Returned (word (Erc1155.total_supply_all s)), s).
Proof.
  call w "totalSupply()"%string (@nil val) "Erc1155Example"%string (fn_as "totalSupply" "total_supply_all" []); [small (@nil Z)|].
  rewrite <- one_word. reflexivity.
Qed.

(** A call changes nothing or is one of the requests, to the letter. *)
Lemma batch_still w accounts ids s :
  snd (finish (ExampleSupply w) ((l <~ Erc1155.on_base (Erc1155.balance_of_batch accounts ids) ;; ret [Words l]) s) s) = s.
Proof.
  unfold Erc1155.on_base, Erc1155.balance_of_batch, Erc1155.require_equal_arrays_length. mred.
  destruct (negb _); cbn [finish snd]; [reflexivity|]. destruct s; reflexivity.
Qed.
Lemma any_call w c v d s : data_fits d ->
  snd (entry (ExampleSupply w) c v d s) = s \/ exists r, v = 0 /\ d = request_data r /\ asks r.
Proof.
  intros Hdf. assert (Hb := proj1 Hdf). assert (Hsz := proj2 Hdf).
  destruct (entry_cases (ExampleSupply w) c v d s (known_supply w) Hb Hsz) as [->|(t & f & args & Hin & -> & Ht & Hd & He)]; [left; reflexivity|].
  rewrite exposed_supply_ok in Hin. unfold exposed_supply in Hin. rewrite He. clear He Hb Hdf. subst d.
  repeat (destruct Hin as [Hin|Hin];
    [injection Hin as <- <-; cbn [arg_types] in Ht;
     repeat match goal with
     | H : List.Forall2 _ (_ :: _) _ |- _ => inversion H; subst; clear H
     | H : List.Forall2 _ [] _ |- _ => inversion H; subst; clear H
     | H : has_type Bytes ?y |- _ => destruct y; cbn [has_type word_of_type] in H;
         [destruct H|exfalso; destruct H as (? & H & _); discriminate H|destruct H as [_ H]]
     | H : has_type (Vec _) ?y |- _ => destruct y; cbn [has_type word_of_type] in H;
         [destruct H|let E := fresh in destruct H as (? & E & H); injection E as <-|exfalso; destruct H as [[H|H] _]; discriminate H]
     | H : has_type _ ?y |- _ => destruct y; cbn [has_type word_of_type] in H;
         [|exfalso; first [destruct H as (? & H & _); discriminate H | destruct H as [[H|H] _]; discriminate H]..]
     end|]); [..|destruct Hin].
  all: match goal with |- context [fn_sig ?f] => let x := eval vm_compute in (fn_sig f) in change (fn_sig f) with x in * | _ => idtac end.
  Ltac req r := right; exists r; split; [reflexivity|]; split; [reflexivity|]; split; [split; [assumption|]; cbv beta iota; auto|split; discriminate].
  all: match goal with
    | |- context [calldata "mint(address,uint256,uint256,bytes)" [Word ?t; Word ?i; Word ?v; Octets ?d]] => req (Mint t i v d)
    | |- context [calldata "mintBatch(address,uint256[],uint256[],bytes)" [Word ?t; Words ?i; Words ?v; Octets ?d]] => req (MintBatch t i v d)
    | |- context [calldata "burn(address,uint256,uint256)" [Word ?t; Word ?i; Word ?v]] => req (Burn t i v)
    | |- context [calldata "burnBatch(address,uint256[],uint256[])" [Word ?t; Words ?i; Words ?v]] => req (BurnBatch t i v)
    | |- context [calldata "safeTransferFrom(address,address,uint256,uint256,bytes)" [Word ?f; Word ?t; Word ?i; Word ?v; Octets ?d]] => req (Transfer f t i v d)
    | |- context [calldata "safeBatchTransferFrom(address,address,uint256[],uint256[],bytes)" [Word ?f; Word ?t; Words ?i; Words ?v; Octets ?d]] => req (TransferBatch f t i v d)
    | H : _ \/ _ |- context [calldata "setApprovalForAll(address,bool)" [Word ?a; Word ?v]] =>
        destruct H as [H|H]; rewrite H in *; [req (SetApprovalForAll a false)|req (SetApprovalForAll a true)]
    | _ => left
    end.
  all: first [reflexivity|apply batch_still].
Qed.

(** *** What the getters show is what the model holds *)
Notation call_supply := (fun w => entry (ExampleSupply w)).
Lemma bool_word (x y : bool) (s : Erc1155.supply_state) :
  (Returned (word (of_bool x)), s) = (Returned (word (if y then 1 else 0)), s) -> y = x.
Proof.
  intros E. assert (E' : word (of_bool x) = word (if y then 1 else 0)) by congruence.
  apply word_inj in E'; [destruct x, y; cbn [of_bool] in E'; congruence|destruct x|destruct y]; split; cbn [of_bool]; try lia; reflexivity.
Qed.
Lemma shows_agree s b : sound s -> sbook_fits b -> (shows call_supply s b <-> agrees s b).
Proof.
  intros So (F1 & F2 & F3 & _). destruct (so_tracked _ So) as (Ti & Tu & Ta & _). assert (G := Erc1155_lemmas.inv_range _ Ti). unfold shows, tells. split.
  - intros (H1 & H2 & H3 & _ & H4).
    assert (W : forall x y, is_u256 x -> is_u256 y -> (Returned (word x), s) = (Returned (word y), s) -> y = x).
    { intros x y Hx Hy E. assert (E' : word x = word y) by congruence. symmetry. exact (word_inj _ _ Hx Hy E'). }
    split; [split| |].
    + intros a i Ha Hi. specialize (H1 a i Ha Hi nobody 0). rewrite (ask_balance nobody s 0 a i Ha Hi) in H1. apply W in H1; [exact H1|apply G|apply F1].
    + intros o p Ho Hp. specialize (H2 o p Ho Hp nobody 0). rewrite (ask_operator nobody s 0 o p Ho Hp) in H2. apply bool_word in H2. exact H2.
    + exact G.
    + intros i Hi. specialize (H3 i Hi nobody 0). rewrite (ask_supply nobody s 0 i Hi) in H3. apply W in H3; [exact H3|apply Tu|apply F2].
    + specialize (H4 nobody 0). rewrite (ask_total nobody s 0) in H4. apply W in H4; [exact H4|apply Ta|apply F3].
  - intros [A B C]. split; [|split; [|split; [|split]]].
    + intros a i Ha Hi w c. rewrite (ask_balance w s c a i Ha Hi), (a_bal _ _ A a i Ha Hi). reflexivity.
    + intros o p Ho Hp w c. rewrite (ask_operator w s c o p Ho Hp), (a_op _ _ A o p Ho Hp). reflexivity.
    + intros i Hi w c. rewrite (ask_supply w s c i Hi), (B i Hi). reflexivity.
    + intros i Hi w c. rewrite (ask_exists w s c i Hi), (B i Hi). reflexivity.
    + intros w c. rewrite (ask_total w s c), C. reflexivity.
Qed.

(** *** Histories *)
Lemma sound_step w c v d s b : fine s b -> is_address c -> data_fits d ->
  exists b', fine (snd (entry (ExampleSupply w) c v d s)) b' /\
    (b' = b \/ exists r, v = 0 /\ d = request_data r /\ asks r /\ ideal w c r b = Yes b').
Proof.
  intros F Hc Hd. destruct (any_call w c v d s Hd) as [->|(r & -> & -> & Hr)]; [exists b; auto|].
  pose proof (step_ok w s b c r F Hc Hr) as O. rewrite (entry_request w c r s Hr).
  destruct (exec_of w c r s) as [[u|e'|] s'] eqn:X; destruct (ideal w c r b) as [b'|why] eqn:I; cbn [smeets fst snd] in *.
  - destruct O as (s2 & E & F'). exists b'. injection E as _ ->. split; [exact F'|]. right. exists r. auto.
  - exfalso. destruct why; [destruct O as (er & O & _)|destruct O as (er & O & _)|]; discriminate.
  - exfalso. destruct O as (s2 & E & _). discriminate.
  - exists b. auto.
  - exfalso. destruct O as (s2 & E & _). discriminate.
  - exists b. auto.
Qed.
Lemma sound_run h : sane h -> forall s b, fine s b -> exists b', fine (raw_run_supply h s) b'.
Proof.
  induction h as [|[w [[c v] d]] h IH]; intros Hh s b F; [exists b; auto|].
  destruct (proj1 (List.Forall_cons_iff _ _ _) Hh) as [[Hc Hd] Hh'].
  change (raw_run_supply ((w, (c, v, d)) :: h) s) with (raw_run_supply h (snd (entry (ExampleSupply w) c v d s))).
  destruct (sound_step w c v d s b F (proj1 Hc) Hd) as (b' & F' & _). apply (IH Hh' _ b' F').
Qed.
Lemma follows_ok w s b c r : fine s b -> is_address c -> asks r -> follows call_supply w s b c r.
Proof.
  intros F Hc Hr. pose proof (step_ok w s b c r F Hc Hr) as O. unfold follows. cbv beta. pose proof (entry_request w c r s Hr) as E.
  destruct (ideal w c r b) as [b'|why]; cbn [smeets] in O.
  - destruct O as (s' & X & (So & A & F')). rewrite X in E. exists s'. split; [exact E|]. split; [|exact F']. apply shows_agree; assumption.
  - destruct why as [why|d|].
    + destruct O as (e & X & Y). destruct (exec_of w c r s) as [[u|e'|] s']; cbn [fst] in X; try discriminate.
      replace e' with e in E by congruence. eexists. split; [exact E|]. cbn [says] in Y. apply revert_erc1155_ok; apply Y.
    + destruct O as (e & X & Y). destruct (exec_of w c r s) as [[u|e'|] s']; cbn [fst] in X; try discriminate.
      replace e' with e in E by congruence. rewrite E. cbn [says] in Y. rewrite Y. reflexivity.
    + destruct (exec_of w c r s) as [[u|e'|] s']; cbn [fst] in O; try discriminate. exact E.
Qed.

(** ** Theorems *)

(** A user who reads the getters knows what every request will do: after every history of calls
    by anybody, with any bytes and any value, among any receivers, the getters show a book, and
    the answer to every request and the book shown afterwards are those of the ideal one. *)
Theorem c99_supply_is_the_ideal_collection :
  forall h, sane h ->
  let call := fun w => entry (ExampleSupply w) in
  let s := raw_run_supply h Erc1155.supply_init in
  (exists b, sbook_fits b /\ shows call s b) /\
  (forall w b c r, sbook_fits b -> shows call s b -> caller_ok c -> asks r -> follows call w s b c r) /\
  shows call Erc1155.supply_init new_sbook.
Proof.
  intros h Hh call s. destruct (sound_run h Hh _ new_sbook fine_init) as (b & F). fold s in F. destruct F as (So & A & F). split; [|split].
  - exists b. split; [exact F|]. apply (shows_agree s b So F). exact A.
  - intros w b' c r F' S' Hc Hr. apply (shows_agree s b' So F') in S'. apply follows_ok; [exact (conj So (conj S' F'))|apply Hc|exact Hr].
  - destruct fine_init as (S0 & A0 & F0). apply (shows_agree _ _ S0 F0), A0.
Qed.
Print Assumptions c99_supply_is_the_ideal_collection.

(** In particular the book shown after a series of requests is the one computed by hand. *)
Theorem c99_supply_computed_by_hand :
  forall l, List.Forall (fun x => caller_ok (snd (fst x)) /\ asks (snd x)) l ->
  let b := ideal_run l new_sbook in
  sbook_fits b /\ shows (fun w => entry (ExampleSupply w)) (raw_run_supply (sends l) Erc1155.supply_init) b.
Proof.
  assert (K : forall l, List.Forall (fun x => caller_ok (snd (fst x)) /\ asks (snd x)) l ->
    forall s b, fine s b -> fine (raw_run_supply (sends l) s) (ideal_run l b)).
  { induction 1 as [|[[w c] r] l [Hc Hr] Hl IH]; intros s b F; [exact F|]. cbn [fst snd] in Hc, Hr.
    change (raw_run_supply (sends ((w, c, r) :: l)) s) with (raw_run_supply (sends l) (snd (entry (ExampleSupply w) c 0 (request_data r) s))).
    change (ideal_run ((w, c, r) :: l) b) with (ideal_run l (ideal_step b (w, c, r))). unfold ideal_step. cbn [fst snd].
    pose proof (step_ok w s b c r F (proj1 Hc) Hr) as O. rewrite (entry_request w c r s Hr).
    destruct (ideal w c r b) as [b'|why]; cbn [smeets] in O.
    - destruct O as (s' & -> & F'). cbn [snd]. apply IH. exact F'.
    - destruct (exec_of w c r s) as [[u|e'|] s']; cbn [fst snd] in *; [|apply IH; exact F..].
      exfalso. destruct why; [destruct O as (er & O & _)|destruct O as (er & O & _)|]; discriminate. }
  intros l Hl b. destruct (K l Hl _ new_sbook fine_init) as (So & A & F). fold b in A, F. split; [exact F|].
  apply shows_agree; assumption.
Qed.
Print Assumptions c99_supply_computed_by_hand.

(** The numbers shown add up: a token's supply is the sum of everybody's balances of it, and the
    total is the sum of the supplies of all tokens, modulo 2^256 only. *)
Lemma keys_zero (m : gmap.gmap Z Z) x : ~ In x (map fst (fin_maps.map_to_list m)) -> mget m x = 0.
Proof.
  intros H. unfold mget. destruct (m !! x) as [v|] eqn:E; [|reflexivity]. exfalso. apply H.
  change x with (fst (x, v)). apply in_map. apply elem_of_list_In, elem_of_map_to_list. exact E.
Qed.
Lemma some_keys (m : gmap.gmap Z Z) (P : Z -> Prop) (Pd : forall x, {P x} + {~ P x}) : (forall x, mget m x <> 0 -> P x) ->
  exists l, List.NoDup l /\ (forall x, mget m x <> 0 -> In x l) /\ List.Forall P l /\ msum m = sum (map (mget m) l).
Proof.
  intros H. set (l := filter (fun x => if Pd x then true else false) (map fst (fin_maps.map_to_list m))).
  assert (N : List.NoDup l). { apply List.NoDup_filter. apply NoDup_ListNoDup. apply NoDup_fst_map_to_list. }
  assert (In0 : forall x, mget m x <> 0 -> In x l).
  { intros x Hx. apply filter_In. split; [|destruct (Pd x) as [|n]; [reflexivity|contradiction (n (H x Hx))]].
    destruct (in_dec BinInt.Z.eq_dec x (map fst (fin_maps.map_to_list m))) as [K|K]; [exact K|]. contradiction (Hx (keys_zero m x K)). }
  exists l. split; [exact N|]. split; [exact In0|]. split.
  - apply List.Forall_forall. intros x Hx. apply filter_In in Hx. destruct Hx as [_ Hx]. destruct (Pd x); [assumption|discriminate].
  - rewrite (msum_lsum m l); [|apply NoDup_ListNoDup, N|intros x Hx; apply elem_of_list_In, In0, Hx].
    clear. induction l as [|x l IH]; [reflexivity|]. cbn [lsum map]. rewrite IH. reflexivity.
Qed.
Lemma range_dec lo hi x : {lo <= x < hi} + {~ (lo <= x < hi)}.
Proof. destruct (Z_le_dec lo x); [destruct (Z_lt_dec x hi); [left; lia|right; lia]|right; lia]. Qed.
Lemma map_same (f g : Z -> Z) l : (forall x, In x l -> f x = g x) -> map f l = map g l.
Proof. intros H. induction l as [|x l IH]; [reflexivity|]. cbn [map]. rewrite (H x) by (left; reflexivity). f_equal. apply IH. intros y Hy. apply H. right. exact Hy. Qed.
Theorem c99_the_numbers_add_up :
  forall h, sane h ->
  let s := raw_run_supply h Erc1155.supply_init in
  forall b, sbook_fits b -> shows (fun w => entry (ExampleSupply w)) s b -> adds_up b.
Proof.
  intros h Hh s b F S. destruct (sound_run h Hh _ new_sbook fine_init) as (b0 & (So & _ & _)). fold s in So.
  apply (shows_agree s b So F) in S. destruct (so_tracked _ So) as (Ti & Tu & Ta & Ts & Tt). assert (Ky := so_keyed _ So). split.
  - intros id Hid. destruct (some_keys (getd ∅ (Erc1155.balances (Erc1155.erc1155 s)) id) is_address (range_dec _ _)) as (l & L1 & L2 & L3 & L4).
    { intros a Ha. apply (Ky a id Ha). }
    exists l. split; [exact L1|]. split; [|split; [exact L3|]].
    + intros a Ha Hn. apply L2. rewrite (a_bal _ _ (g_tokens _ _ S) a id Ha Hid) in Hn. exact Hn.
    + rewrite (g_supply _ _ S id Hid), Ts. unfold Erc1155_spec.id_total. rewrite L4. f_equal. apply map_same. intros a Ha.
      rewrite List.Forall_forall in L3. rewrite (a_bal _ _ (g_tokens _ _ S) a id (L3 a Ha) Hid). reflexivity.
  - destruct (some_keys (Erc1155.total_supply s) is_u256 (range_dec _ _)) as (l & L1 & L2 & L3 & L4).
    { intros id Hn. rewrite Ts in Hn. unfold Erc1155_spec.id_total in Hn. destruct (range_dec 0 two256 id) as [R|R]; [exact R|]. exfalso. apply Hn.
      rewrite (msum_lsum _ []); [reflexivity|constructor|]. intros a Ha. contradiction (R (proj2 (Ky a id Ha))). }
    exists l. split; [exact L1|]. split; [|split; [exact L3|]].
    + intros id Hid Hn. apply L2. rewrite (g_supply _ _ S id Hid) in Hn. exact Hn.
    + rewrite (g_total _ _ S), Tt. unfold Erc1155_spec.supply_sum. rewrite L4. f_equal. f_equal. apply map_same. intros id Hid.
      rewrite List.Forall_forall in L3. symmetry. apply (g_supply _ _ S id (L3 id Hid)).
Qed.
Print Assumptions c99_the_numbers_add_up.

(** The gap in access control (property C75), by bytes: whatever anybody holds, anybody else may
    burn, and exactly that happens. *)
Theorem c99_anybody_burns_anything :
  forall h, sane h ->
  let call := fun w => entry (ExampleSupply w) in
  let s := raw_run_supply h Erc1155.supply_init in
  forall b, sbook_fits b -> shows call s b ->
  forall w c a id v, caller_ok c -> is_address a -> a <> 0 -> is_u256 id -> is_u256 v -> v <= m_balance (s_tokens b) a id ->
  exists s' b', call w c 0 (calldata "burn(address,uint256,uint256)" [Word a; Word id; Word v]) s = (Returned [], s') /\
    sbook_fits b' /\ shows call s' b' /\ m_balance (s_tokens b') a id = m_balance (s_tokens b) a id - v /\ s_supply b' id = s_supply b id - v.
Proof.
  intros h Hh call s b F S w c a id v Hc Ha Na Hid Hv Le.
  assert (Hr : asks (Burn a id v)).
  { split; [split; [|auto]|split; discriminate]. unfold request_data. small [a; id; v]. }
  pose proof (proj1 (proj2 (c99_supply_is_the_ideal_collection h Hh)) w b c (Burn a id v) F S Hc Hr) as K.
  unfold follows, ideal, burning in K. cbn [somebody paired app checks length Nat.eqb negb reply_to each] in K.
  rewrite (proj2 (Z.eqb_neq a 0) Na) in K. cbn [reply_to each] in K. unfold taken in K. rewrite (proj2 (Z.ltb_ge _ _) Le) in K. cbn [reply_to] in K.
  destruct K as (s' & K1 & K2 & K3). exists s'. eexists. split; [exact K1|]. split; [exact K3|]. split; [exact K2|]. cbn [s_tokens s_supply holds m_balance amount].
  rewrite !Z.eqb_refl. cbn [andb]. lia.
Qed.
Print Assumptions c99_anybody_burns_anything.

(** Many balances in one question: the list of them, in order, or a complaint about the lengths. *)
Theorem c99_many_balances :
  forall h, sane h ->
  let s := raw_run_supply h Erc1155.supply_init in
  forall b, sbook_fits b -> shows (fun w => entry (ExampleSupply w)) s b ->
  forall w c accounts ids, List.Forall is_address accounts -> numbers_fit ids ->
  let asked := calldata "balanceOfBatch(address[],uint256[])" [Words accounts; Words ids] in
  size asked < two256 ->
  if (length accounts =? length ids)%nat then
    entry (ExampleSupply w) c 0 asked s = (Returned (abi_params [Words (map (fun p => m_balance (s_tokens b) (fst p) (snd p)) (combine accounts ids))]), s)
  else exists d, entry (ExampleSupply w) c 0 asked s = (Reverted d, s) /\
    decode_reason d = Some (ERC1155InvalidArrayLength (Z.of_nat (length ids)) (Z.of_nat (length accounts))).
Proof.
  intros h Hh s b F S w c accounts ids Ha Hi asked Hsz.
  destruct (sound_run h Hh _ new_sbook fine_init) as (b0 & (So & _ & _)). fold s in So.
  apply (shows_agree s b So F) in S. destruct S as [A _ _].
  assert (L1 : Z.of_nat (length accounts) < two256) by (eapply list_fits; [|exact Hsz]; cbn; auto).
  assert (L2 : Z.of_nat (length ids) < two256) by (eapply list_fits; [|exact Hsz]; cbn; auto).
  assert (E : entry (ExampleSupply w) c 0 asked s =
    finish (ExampleSupply w) ((l <~ Erc1155.on_base (Erc1155.balance_of_batch accounts ids) ;; ret [Words l]) s) s).
  { unfold asked. refine (eq_trans (call_request w "balanceOfBatch(address[],uint256[])"%string [Words accounts; Words ids] c s "Erc1155Supply"%string
      (fn "balance_of_batch" [Vec Address; Vec U256]) _ _ _ _ _) _); [vm_compute; reflexivity|vm_compute; reflexivity| |vals|exact Hsz|reflexivity].
    apply List.Forall2_cons; [exists Address; split; [reflexivity|exact Ha]|]. apply List.Forall2_cons; [apply words_typed, Hi|apply List.Forall2_nil]. }
  rewrite E. clear E. generalize asked. intros _. clear asked Hsz So. clearbody s.
  unfold Erc1155.on_base, Erc1155.balance_of_batch, Erc1155.require_equal_arrays_length. mred.
  rewrite (Nat.eqb_sym (length ids)). destruct (length accounts =? length ids)%nat; cbn [negb finish].
  - f_equal; [|destruct s; reflexivity]. do 4 f_equal. clear L1 L2. revert ids Hi. induction Ha as [|a accounts Ha1 Ha IH]; intros [|i ids] Hi; cbn [combine map]; try reflexivity.
    destruct (proj1 (List.Forall_cons_iff _ _ _) Hi) as [Hi1 Hi2]. f_equal; [|apply IH, Hi2]. cbn [fst snd]. symmetry. apply (a_bal _ _ A); assumption.
  - eexists. split; [reflexivity|]. apply (revert_erc1155_ok (Erc1155.InvalidArrayLength (Z.of_nat (length ids)) (Z.of_nat (length accounts)))); [reflexivity|].
    unfold reason_fits. cbn [numbers]. repeat (apply List.Forall_cons; [apply length_u256; assumption|]). apply List.Forall_nil.
Qed.
Print Assumptions c99_many_balances.

Lemma exposed_interface w t f : In (t, f) (exposed (blocks (ExampleSupply w))) -> In (fn_sig f, arg_types f) supply_interface.
Proof.
  rewrite exposed_supply_ok. intros Hin.
  assert (K : forallb (fun tf => if in_dec same_entry (fn_sig (snd tf), arg_types (snd tf)) supply_interface then true else false) exposed_supply = true)
    by (vm_compute; reflexivity).
  rewrite forallb_forall in K. specialize (K (t, f) Hin). cbn [snd] in K. destruct (in_dec _ _ _) as [I|]; [exact I|discriminate].
Qed.
(** Anything but a well-formed call of a public function without value fails without a reason
    and without effect; whatever changes the state is one of the seven requests, to the letter. *)
Theorem c99_supply_nothing_else :
  forall w c v d s, data_fits d ->
  let call := entry (ExampleSupply w) in
  (~ proper v d -> call c v d s = (Reverted [], s)) /\
  (snd (call c v d s) <> s -> exists r, v = 0 /\ d = request_data r /\ asks r) /\
  (forall out s', call c v d s = (Returned out, s') -> proper v d).
Proof.
  intros w c v d s Hdf call.
  assert (P : call c v d s = (Reverted [], s) \/ proper v d).
  { destruct (entry_cases (ExampleSupply w) c v d s (known_supply w) (proj1 Hdf) (proj2 Hdf)) as [K|(t & f & args & Hin & Hv & Ht & Hd & _)]; [left; exact K|right].
    split; [exact Hv|]. exists (fn_sig f), (arg_types f), args. split; [apply (exposed_interface w t), Hin|]. split; assumption. }
  split; [destruct P; tauto|]. split.
  - intros Hs. destruct (any_call w c v d s Hdf) as [K|K]; [contradiction (Hs K)|exact K].
  - intros out s' E. destruct P as [P|P]; [congruence|exact P].
Qed.
Print Assumptions c99_supply_nothing_else.

(** The interfaces the contract says it supports: not the one of its own supplies. *)
Theorem c99_constants :
  forall w s c id, 0 <= id < 2 ^ 32 -> exists yes : bool,
  entry (ExampleSupply w) c 0 (calldata "supportsInterface(bytes4)" [Word (id * 2 ^ 224)]) s = (Returned (word (if yes then 1 else 0)), s) /\
  (yes = true <-> In id [0xd9b67a26; 0x01ffc9a7]).
Proof.
  intros w s c id Hid. exists (Introspection.Erc1155SupplyExample (firstn 4 (word (id * 2 ^ 224)))). split.
  - rewrite (call_request w "supportsInterface(bytes4)"%string [Word (id * 2 ^ 224)] c s "Erc1155Example"%string (fn "supports_interface" [FixedBytes4])).
    + rewrite <- one_word. generalize (id * 2 ^ 224). intros x.
      change (body_of _ _ _ _ c s) with (@gets Erc1155.supply_state Erc1155.error (list val)
        (fun _ => [Word (of_bool (Introspection.Erc1155SupplyExample (firstn 4 (word x))))]) s).
      destruct (Introspection.Erc1155SupplyExample (firstn 4 (word x))); reflexivity.
    + vm_compute. reflexivity.
    + vm_compute. reflexivity.
    + apply List.Forall2_cons; [|constructor]. cbn [has_type word_of_type]. exists id. split; [exact Hid|reflexivity].
    + vals.
    + small [id * 2 ^ 224].
  - destruct (Entry_props.bytes4_of id Hid) as (B1 & B2 & B3). pose proof Introspection_props.c70_examples as X.
    decompose [and] X. match goal with H : context [Introspection.Erc1155SupplyExample] |- _ => rewrite (H _ B1 B2), B3 end. reflexivity.
Qed.
Print Assumptions c99_constants.

(** ** The hypotheses hold: a history by bytes *)
(** A stranger burns somebody's tokens; a batch of two halves of 2^256 counts as nothing. *)
Definition story : list (world * Z * request) :=
  [(nobody, 10, MintBatch 10 [7; 8; 7] [5; 6; 1] []); (nobody, 66, Burn 10 7 2); (nobody, 66, Transfer 10 66 7 1 []);
   (nobody, 10, MintBatch 20 [1; 2] [2 ^ 255; 2 ^ 255] [])].
Ltac data_ok n := apply (story_data _ _ n); [reflexivity|repeat (apply List.Forall_cons; [first [exact I|repeat (apply List.Forall_cons; [unfold is_byte; lia|]); apply List.Forall_nil]|]); apply List.Forall_nil|
  rewrite abi_params_size; reflexivity].
Example c99_nonvacuous :
  let h := sends story in
  let call := fun w => entry (ExampleSupply w) in
  let s := raw_run_supply h Erc1155.supply_init in
  sane h /\ List.Forall (fun x => caller_ok (snd (fst x)) /\ asks (snd x)) story /\
  exists b, sbook_fits b /\ shows call s b /\
    m_balance (s_tokens b) 10 7 = 4 /\ m_balance (s_tokens b) 66 7 = 0 /\ s_supply b 7 = 4 /\ s_supply b 8 = 6 /\
    s_supply b 1 = 2 ^ 255 /\ s_supply b 2 = 2 ^ 255 /\ s_total b = 10 /\
    ideal nobody 10 (Mint 10 1 (2 ^ 255) []) b = No Silent /\
    ideal nobody 66 (Burn 10 7 5) b = No (Because (ERC1155InsufficientBalance 10 4 5 7)).
Proof.
  intros h call s.
  assert (B : forall x, 0 <= x < 100 -> is_u256 x) by (intros x Hx; split; [lia|transitivity 100; [lia|reflexivity]]).
  assert (B' : is_u256 (2 ^ 255)) by (split; [lia|reflexivity]).
  assert (A : forall x, 0 <= x < 100 -> is_address x) by (intros x Hx; split; [lia|transitivity 100; [lia|reflexivity]]).
  assert (C : forall x, 0 < x < 100 -> caller_ok x) by (intros x Hx; split; [apply A; lia|lia]).
  assert (D : List.Forall (fun x => data_fits (request_data (snd x))) story).
  { unfold story. apply List.Forall_cons; [cbn [snd]; unfold request_data; data_ok 420|].
    apply List.Forall_cons; [cbn [snd]; unfold request_data; data_ok 100|]. apply List.Forall_cons; [cbn [snd]; unfold request_data; data_ok 196|].
    apply List.Forall_cons; [cbn [snd]; unfold request_data; data_ok 356|]. apply List.Forall_nil. }
  assert (R : List.Forall (fun x => caller_ok (snd (fst x)) /\ asks (snd x)) story).
  { unfold story in *. repeat (destruct (proj1 (List.Forall_cons_iff _ _ _) D) as [[_ D1] D']; clear D; rename D' into D;
      apply List.Forall_cons; [split; [apply C; cbn [fst snd]; lia|split; [split; [exact D1|]|split; discriminate]]; clear D1|clear D1]); [..|apply List.Forall_nil].
    all: cbn [snd]; repeat match goal with |- _ /\ _ => split end.
    all: try (apply A; lia); try (apply B; lia).
    all: unfold numbers_fit, bytes_fit; repeat (apply List.Forall_cons; [first [exact B'|apply B; lia|unfold is_byte; lia]|]); try apply List.Forall_nil. }
  assert (S : sane h).
  { unfold sane, h, sends. rewrite List.Forall_map. rewrite List.Forall_forall in *. intros x Hx. specialize (D x Hx). destruct (R x Hx) as [R1 _]. exact (conj R1 D). }
  split; [exact S|]. split; [exact R|].
  destruct (c99_supply_computed_by_hand story R) as [F Sh]. fold h in Sh. fold s in Sh. fold call in Sh.
  exists (ideal_run story new_sbook). split; [exact F|]. split; [exact Sh|]. clear.
  do 8 (split; [reflexivity|]). reflexivity.
Qed.
