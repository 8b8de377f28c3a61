(** Decoding of arguments is the inverse of encoding; dispatch with known selectors. *)
From Verif.Base Require Import Prelude Bytes Keccak.
From Coq Require Import String List.
From Verif.Model Require Import Introspection Router Entry.
From Verif.Model Require SolAbi.
From Verif.Spec Require Import Router_spec Entry_spec.
From Verif.Proofs Require Import Router_lemmas.
From Verif.Proofs Require SolAbi_lemmas Utf8_lemmas.
Import SolAbi.
#[global] Open Scope Z_scope.
Local Open Scope list_scope.
Local Open Scope Z_scope.
Opaque keccak256.

(** ** Slices *)
Lemma size_app a b : size (a ++ b) = size a + size b.
Proof. unfold size. rewrite app_length. lia. Qed.
Lemma size_nonneg d : 0 <= size d. Proof. unfold size. lia. Qed.
Lemma size_word x : size (word x) = 32.
Proof. unfold size. rewrite word_length. reflexivity. Qed.
Lemma slice_app pre x post : slice (pre ++ x ++ post) (size pre) (size x) = x.
Proof.
  unfold slice, size. rewrite !Nat2Z.id, SolAbi_lemmas.drop_app by reflexivity.
  apply SolAbi_lemmas.take_app. reflexivity.
Qed.
Lemma Forall_skipn {A} (P : A -> Prop) n l : List.Forall P l -> List.Forall P (skipn n l).
Proof. revert l. induction n as [|n IH]; intros [|x l] H; cbn [skipn]; auto. inversion H; auto. Qed.
Lemma Forall_firstn {A} (P : A -> Prop) n l : List.Forall P l -> List.Forall P (firstn n l).
Proof. revert l. induction n as [|n IH]; intros [|x l] H; cbn [firstn]; auto. inversion H; auto. Qed.
Lemma slice_bytes d off n : List.Forall is_byte d -> List.Forall is_byte (slice d off n).
Proof. intros H. apply Forall_firstn, Forall_skipn, H. Qed.

Lemma read_word_app pre v post : is_u256 v -> read_word (pre ++ word v ++ post) (size pre) = Some v.
Proof.
  intros Hv. unfold read_word. rewrite !size_app, size_word.
  replace (size pre + 32 <=? size pre + (32 + size post)) with true by (pose proof (size_nonneg post); lia).
  rewrite <- (size_word v) at 1. rewrite slice_app, SolAbi_lemmas.of_be_word by exact Hv. reflexivity.
Qed.
Lemma read_word_range d off v : List.Forall is_byte d -> read_word d off = Some v -> is_u256 v.
Proof.
  intros Hd. unfold read_word. destruct (off + 32 <=? size d); [|discriminate]. intros [= <-].
  pose proof (of_be_range _ (slice_bytes d off 32 Hd)) as H. unfold is_u256.
  assert (L : (length (slice d off 32) <= 32)%nat).
  { unfold slice. rewrite firstn_length. change (Z.to_nat 32) with 32%nat. apply Nat.le_min_l. }
  assert (P : 256 ^ Z.of_nat (length (slice d off 32)) <= 256 ^ 32) by (apply Z.pow_le_mono_r; lia).
  change (256 ^ 32) with two256 in P. lia.
Qed.
Lemma read_words_app ws pre post :
  List.Forall is_u256 ws -> read_words (length ws) (pre ++ flat_map word ws ++ post) (size pre) = Some ws.
Proof.
  revert pre. induction ws as [|w ws IH]; intros pre H; [reflexivity|]. inversion H as [|? ? Hw Hws]; subst.
  cbn [length read_words flat_map]. rewrite <- app_assoc.
  rewrite (read_word_app pre w (flat_map word ws ++ post) Hw).
  replace (size pre + 32) with (size (pre ++ word w)) by (rewrite size_app, size_word; reflexivity).
  rewrite app_assoc, (IH (pre ++ word w) Hws). reflexivity.
Qed.
Lemma read_words_range n d off l : List.Forall is_byte d -> read_words n d off = Some l -> List.Forall is_u256 l.
Proof.
  intros Hd. revert off l. induction n as [|n IH]; intros off l; cbn [read_words]; [intros [= <-]; constructor|].
  destruct (read_word d off) as [w|] eqn:E1; [|discriminate]. destruct (read_words n d (off + 32)) as [r|] eqn:E2; [|discriminate].
  intros [= <-]. constructor; [eapply read_word_range; eauto|eapply IH; eauto].
Qed.
Lemma size_words ws : size (flat_map word ws) = 32 * size ws.
Proof. unfold size. rewrite SolAbi_lemmas.words_length. lia. Qed.

(** ** Reading back what was written *)
Lemma in_type_ok t v : is_u256 v -> in_type t v = true -> word_of_type t v.
Proof.
  intros Hv. destruct t; cbn [in_type word_of_type]; unfold is_address, is_u256 in *; try (intros; lia); try discriminate.
  intros H. apply Z.eqb_eq in H. exists (v / 2 ^ 224).
  pose proof (Z.div_mod v (2 ^ 224) ltac:(discriminate)) as D. split; [|lia].
  split; [apply Z.div_pos; lia|]. apply Z.div_lt_upper_bound; [lia|].
  change (2 ^ 224 * 2 ^ 32) with two256. apply Hv.
Qed.
Lemma word_of_type_ok t v : word_of_type t v -> is_u256 v /\ in_type t v = true.
Proof.
  assert (H160 : 2 ^ 160 < two256) by reflexivity. assert (H64 : 2 ^ 64 < two256) by reflexivity.
  assert (H8 : 2 ^ 8 < two256) by reflexivity.
  destruct t; cbn [in_type word_of_type]; unfold is_address, is_u256; intros H; try (split; [lia|lia]); try contradiction.
  - destruct H as (x & Hx & ->). split; [split; [lia|change two256 with (2 ^ 32 * 2 ^ 224); apply Z.mul_lt_mono_pos_r; lia]|].
    apply Z.eqb_eq, Z.mod_mul. discriminate.
Qed.
Lemma words_of_type_ok t l : List.Forall (word_of_type t) l -> List.Forall is_u256 l /\ forallb (in_type t) l = true.
Proof.
  induction 1 as [|v l Hv _ [IH1 IH2]]; [split; [constructor|reflexivity]|]. apply word_of_type_ok in Hv. destruct Hv as [H1 H2].
  split; [constructor; assumption|]. cbn [forallb]. rewrite H2, IH2. reflexivity.
Qed.
Lemma has_type_checks t a : has_type t a -> type_check t a = true.
Proof.
  destruct a as [v|l|l]; cbn [has_type].
  - intros H. pose proof H as H'. apply word_of_type_ok in H. destruct H as [_ H]. destruct t; try exact H; contradiction.
  - intros (t' & -> & H). apply words_of_type_ok in H. apply H.
  - intros [[-> | ->] H]; [reflexivity|]. apply Utf8_lemmas.text_passes, H.
Qed.
Lemma Forall2_type_checks ts l : List.Forall2 has_type ts l -> type_checks ts l = true.
Proof.
  induction 1 as [|t a ts l H _ IH]; [reflexivity|]. cbn [type_checks]. rewrite (has_type_checks t a H), IH. reflexivity.
Qed.
Definition count (l : list val) : Z := Z.of_nat (length l).
Lemma heads_size l : forall off, size (heads off l) = 32 * count l.
Proof.
  induction l as [|a l IH]; intros off; [reflexivity|].
  assert (E : count (a :: l) = 1 + count l) by (unfold count; cbn [length]; lia).
  destruct a; cbn [heads]; rewrite size_app, size_word, IH, E; lia.
Qed.
Lemma read_array_app p l rest : List.Forall is_u256 l -> is_u256 (size l) ->
  read_array (p ++ (word (size l) ++ flat_map word l) ++ rest) (size p) = Some (Words l).
Proof.
  intros Hl Hn. unfold read_array. rewrite <- (app_assoc (word (size l))).
  rewrite (read_word_app p (size l) _ Hn). rewrite !size_app, size_word, size_words.
  pose proof (size_nonneg rest). replace (size p + 32 + 32 * size l <=? size p + (32 + (32 * size l + size rest))) with true by lia.
  replace (size p + 32) with (size (p ++ word (size l))) by (rewrite size_app, size_word; reflexivity).
  rewrite app_assoc. unfold size at 1. rewrite Nat2Z.id, read_words_app by exact Hl. reflexivity.
Qed.
Lemma read_octets_app p l pad rest : is_u256 (size l) ->
  read_octets (p ++ (word (size l) ++ l ++ pad) ++ rest) (size p) = Some (Octets l).
Proof.
  intros Hn. unfold read_octets. rewrite <- !app_assoc.
  rewrite (read_word_app p (size l) _ Hn). rewrite !size_app, size_word.
  pose proof (size_nonneg rest). pose proof (size_nonneg pad).
  replace (size p + 32 + size l <=? size p + (32 + (size l + (size pad + size rest)))) with true by lia.
  replace (size p + 32) with (size (p ++ word (size l))) by (rewrite size_app, size_word; reflexivity).
  rewrite app_assoc, slice_app. reflexivity.
Qed.
Lemma read_val_app t a pre off mid rest d :
  has_type t a -> d = pre ++ (match a with Word v => word v | _ => word off end) ++ mid ++ tail_of a ++ rest ->
  off = size pre + 32 + size mid -> size d < two256 -> read_val t d (size pre) = Some a.
Proof.
  intros Ht Ed Eo Hd. unfold read_val.
  pose proof (size_nonneg pre). pose proof (size_nonneg mid). pose proof (size_nonneg rest).
  assert (E : forall w, d = pre ++ word w ++ mid ++ tail_of a ++ rest -> is_u256 w -> read_word d (size pre) = Some w).
  { intros w E Hw. rewrite E. apply read_word_app. exact Hw. }
  assert (Ho : d = pre ++ word off ++ mid ++ tail_of a ++ rest -> is_u256 off /\ d = (pre ++ word off ++ mid) ++ tail_of a ++ rest /\ size (pre ++ word off ++ mid) = off).
  { intros E'. split; [|split].
    - rewrite E', !size_app, size_word in Hd. pose proof (size_nonneg (tail_of a)). unfold is_u256. lia.
    - rewrite <- !app_assoc. exact E'.
    - rewrite !size_app, size_word. lia. }
  destruct a as [v|l|l]; cbn [has_type tail_of] in *.
  - rewrite (E v Ed) by (apply word_of_type_ok in Ht; apply Ht). destruct t; try reflexivity; destruct Ht.
  - destruct Ht as (t' & -> & Hl). destruct (Ho Ed) as (Hu & Ed' & Es). rewrite (E off Ed Hu).
    apply words_of_type_ok in Hl. destruct Hl as [Hl _]. change (Z.of_nat (length l)) with (size l) in *.
    assert (Hn : is_u256 (size l)).
    { rewrite Ed', !size_app, size_words in Hd. pose proof (size_nonneg l). pose proof (size_nonneg (word off)).
      pose proof (size_nonneg (word (size l))). unfold is_u256. lia. }
    rewrite Ed'. clear - Es Hl Hn. set (p := pre ++ word off ++ mid) in *. rewrite <- Es. apply read_array_app; assumption.
  - destruct Ht as (Et & Hl). destruct (Ho Ed) as (Hu & Ed' & Es). rewrite (E off Ed Hu).
    change (Z.of_nat (length l)) with (size l) in *.
    assert (Hn : is_u256 (size l)).
    { rewrite Ed', !size_app in Hd. pose proof (size_nonneg l). pose proof (size_nonneg (word (size l))).
      pose proof (size_nonneg (repeat 0 ((32 - length l mod 32) mod 32))). pose proof (size_nonneg (word off)). unfold is_u256. lia. }
    assert (G : read_octets d off = Some (Octets l)) by (rewrite Ed'; clear - Es Hn; set (p := pre ++ word off ++ mid) in *; rewrite <- Es; apply read_octets_app; exact Hn).
    destruct Et as [-> | ->]; exact G.
Qed.
Lemma read_params_app ts l : List.Forall2 has_type ts l -> forall pre T off d,
  d = pre ++ heads off l ++ T ++ flat_map tail_of l -> off = size pre + 32 * count l + size T -> size d < two256 ->
  read_params ts d (size pre) = Some l.
Proof.
  induction 1 as [|t a ts l H HF IH]; intros pre T off d Ed Eo Hd; [reflexivity|]. cbn [read_params].
  set (h := match a with Word v => word v | _ => word off end).
  set (off' := match a with Word _ => off | _ => off + size (tail_of a) end).
  assert (Ed' : d = pre ++ h ++ heads off' l ++ T ++ tail_of a ++ flat_map tail_of l).
  { rewrite Ed. unfold h, off'. cbn [flat_map]. destruct a; cbn [heads]; rewrite <- !app_assoc; reflexivity. }
  assert (Es : count (a :: l) = 1 + count l) by (unfold count; cbn [length]; lia).
  assert (Eh : size h = 32) by (unfold h; destruct a; apply size_word).
  rewrite (read_val_app t a pre off (heads off' l ++ T) (flat_map tail_of l) d H).
  - replace (size pre + 32) with (size (pre ++ h)) by (rewrite size_app, Eh; reflexivity).
    rewrite (IH (pre ++ h) (T ++ tail_of a) off' d); [reflexivity| | |exact Hd].
    + rewrite Ed', <- !app_assoc. reflexivity.
    + rewrite !size_app, Eh. unfold off'. destruct a; cbn [tail_of]; [|lia|lia]. change (size (@nil Z)) with 0. lia.
  - rewrite Ed'. unfold h. rewrite <- !app_assoc. reflexivity.
  - rewrite size_app, heads_size. lia.
  - exact Hd.
Qed.

(** ** Reading gives values of the types *)
Definition wf_val (a : val) : Prop :=
  match a with Word v => is_u256 v | Words l => List.Forall is_u256 l | Octets l => List.Forall is_byte l end.
Lemma read_val_wf t d off a : List.Forall is_byte d -> read_val t d off = Some a -> wf_val a.
Proof.
  intros Hd. unfold read_val. destruct (read_word d off) as [w|] eqn:E; [|discriminate]. apply read_word_range in E; [|exact Hd].
  assert (Ho : read_octets d w = Some a -> wf_val a).
  { unfold read_octets. destruct (read_word d w) as [n|]; [|discriminate]. destruct (_ <=? _); [|discriminate].
    intros [= <-]. apply slice_bytes, Hd. }
  assert (Ha : read_array d w = Some a -> wf_val a).
  { unfold read_array. destruct (read_word d w) as [n|]; [|discriminate]. destruct (_ <=? _); [|discriminate].
    destruct (read_words _ _ _) as [l|] eqn:E2; [|discriminate]. intros [= <-]. eapply read_words_range; eauto. }
  destruct t; try (intros [= <-]; exact E); assumption.
Qed.
Lemma read_params_wf ts d off l : List.Forall is_byte d -> read_params ts d off = Some l -> List.Forall wf_val l.
Proof.
  intros Hd. revert off l. induction ts as [|t ts IH]; intros off l; cbn [read_params]; [intros [= <-]; constructor|].
  destruct (read_val t d off) as [a|] eqn:E1; [|discriminate]. destruct (read_params ts d (off + 32)) as [r|] eqn:E2; [|discriminate].
  intros [= <-]. constructor; [eapply read_val_wf; eauto|eapply IH; eauto].
Qed.
Lemma type_check_has_type t a : wf_val a -> type_check t a = true -> has_type t a.
Proof.
  destruct a as [v|l|l]; cbn [wf_val has_type]; intros Hw H.
  - destruct t; try discriminate H; (apply in_type_ok; [exact Hw|exact H]).
  - destruct t as [| | | | | | | | |t'|]; try discriminate H. exists t'. split; [reflexivity|]. cbn [type_check] in H.
    rewrite forallb_forall in H. rewrite List.Forall_forall in *. intros v Hv. apply in_type_ok; auto.
  - destruct t; try discriminate H; (split; [auto|]); [exact Hw|]. apply Utf8_lemmas.from_utf8_iff; [exact Hw|exact H].
Qed.
Lemma type_checks_Forall2 ts l : List.Forall wf_val l -> type_checks ts l = true -> List.Forall2 has_type ts l.
Proof.
  revert l. induction ts as [|t ts IH]; intros [|a l] Hw H; try discriminate H; [constructor|]. inversion Hw; subst.
  cbn [type_checks] in H. apply andb_true_iff in H. destruct H as [K1 K2]. constructor; [apply type_check_has_type; assumption|auto].
Qed.
Lemma decode_params_iff ts d l : List.Forall is_byte d -> size d < two256 ->
  decode_params ts d = Some l <-> List.Forall2 has_type ts l /\ d = abi_params l.
Proof.
  intros Hb Hd. unfold decode_params. split.
  - destruct (read_params ts d 0) as [r|] eqn:E; [|discriminate]. apply read_params_wf in E; [|exact Hb].
    destruct (type_checks ts r) eqn:Et; [|discriminate]. cbn [andb].
    destruct (list_eq_dec Z.eq_dec (abi_params r) d) as [Ed|]; [|discriminate]. intros [= <-].
    split; [apply type_checks_Forall2; assumption|symmetry; exact Ed].
  - intros [HF Ed].
    assert (R : read_params ts d 0 = Some l).
    { apply (read_params_app ts l HF [] [] (32 * count l) d); [exact Ed|change (size []) with 0; lia|exact Hd]. }
    rewrite R, (Forall2_type_checks ts l HF). cbn [andb].
    destruct (list_eq_dec Z.eq_dec (abi_params l) d) as [_|N]; [reflexivity|]. exfalso. apply N. symmetry. exact Ed.
Qed.

(** ** Dispatch *)
Lemma find_in_block_in t fs sel r : find_in_block t fs sel = Some r -> fst r = t /\ In (snd r) fs /\ selector (snd r) = sel.
Proof.
  induction fs as [|f fs IH]; cbn [find_in_block]; [discriminate|].
  destruct (selector f =? sel) eqn:E; [intros [= <-]; apply Z.eqb_eq in E; cbn [fst snd]; auto using in_eq|].
  intros H. destruct (IH H) as (H1 & H2 & H3). auto using in_cons.
Qed.
Lemma find_route bs sel : route bs sel = option_map (fun r => (fst r, rust_name (snd r))) (find_fn bs sel).
Proof.
  assert (B : forall t fs, route_block t fs sel = option_map (fun r => (fst r, rust_name (snd r))) (find_in_block t fs sel)).
  { intros t fs. induction fs as [|f fs IH]; [reflexivity|]. cbn [route_block find_in_block].
    destruct (selector f =? sel); [reflexivity|exact IH]. }
  induction bs as [|b bs IH]; [reflexivity|]. cbn [route find_fn]. rewrite B.
  destruct (find_in_block (type_name b) (functions b) sel) as [r|]; [reflexivity|exact IH].
Qed.
Definition pairs (bs : list block) : list (string * trait_fn) :=
  List.concat (map (fun b => map (fun f => (type_name b, f)) (functions b)) bs).
Lemma find_fn_in bs sel r : find_fn bs sel = Some r -> In r (pairs bs) /\ selector (snd r) = sel.
Proof.
  induction bs as [|b bs IH]; cbn [find_fn]; [discriminate|]. unfold pairs. cbn [map List.concat].
  destruct (find_in_block (type_name b) (functions b) sel) as [q|] eqn:E.
  - intros [= <-]. destruct (find_in_block_in _ _ _ _ E) as (H1 & H2 & H3). split; [|exact H3]. apply in_or_app. left.
    apply in_map_iff. exists (snd q). split; [|exact H2]. rewrite <- H1. destruct q; reflexivity.
  - intros H. destruct (IH H) as [H1 H2]. split; [apply in_or_app; right; exact H1|exact H2].
Qed.
(** With the selectors of the table. *)
Fixpoint find_in_block_k (t : string) (fs : list trait_fn) (sel : Z) : option (string * trait_fn) :=
  match fs with
  | [] => None
  | f :: fs' => if k (fn_sig f) =? sel then Some (t, f) else find_in_block_k t fs' sel
  end.
Fixpoint find_fn_k (bs : list block) (sel : Z) : option (string * trait_fn) :=
  match bs with
  | [] => None
  | b :: bs' => match find_in_block_k (type_name b) (functions b) sel with
                | Some r => Some r
                | None => find_fn_k bs' sel
                end
  end.
Definition all_known (bs : list block) : bool := forallb (fun r => in_known (fn_sig (snd r))) (pairs bs).
Lemma find_fn_k_ok bs sel : all_known bs = true -> find_fn bs sel = find_fn_k bs sel.
Proof.
  intros H. unfold all_known in H. rewrite forallb_forall in H.
  induction bs as [|b bs IH]; [reflexivity|]. cbn [find_fn find_fn_k].
  assert (B : find_in_block (type_name b) (functions b) sel = find_in_block_k (type_name b) (functions b) sel).
  { assert (Hf : forall f, In f (functions b) -> in_known (fn_sig f) = true).
    { intros f Hf. apply (H (type_name b, f)). unfold pairs. cbn [map List.concat]. apply in_or_app. left.
      apply in_map_iff. exists f. auto. }
    revert Hf. generalize (functions b) as fs. intros fs. induction fs as [|f fs IHf]; intros Hf; [reflexivity|].
    cbn [find_in_block find_in_block_k]. rewrite selector_sig, (k_ok _ (Hf f (in_eq _ _))).
    destruct (k (fn_sig f) =? sel); [reflexivity|]. apply IHf. intros g Hg. apply Hf, in_cons, Hg. }
  rewrite B. destruct (find_in_block_k (type_name b) (functions b) sel); [reflexivity|]. apply IH.
  intros r Hr. apply H. unfold pairs. cbn [map List.concat]. apply in_or_app. right. exact Hr.
Qed.
(** The functions that calls can reach: those not hidden by an earlier one. *)
Definition same_fn (r q : string * trait_fn) : bool :=
  String.eqb (fst r) (fst q) && String.eqb (rust_name (snd r)) (rust_name (snd q)).
Definition exposed (bs : list block) : list (string * trait_fn) :=
  filter (fun r => match find_fn_k bs (k (fn_sig (snd r))) with Some q => same_fn r q | None => false end) (pairs bs).
Lemma find_fn_exposed bs sel r : all_known bs = true -> find_fn bs sel = Some r ->
  In r (exposed bs) /\ sel = sig_selector (fn_sig (snd r)).
Proof.
  intros Hk H. pose proof (find_fn_in bs sel r H) as [Hr Hs]. rewrite selector_sig in Hs. split; [|symmetry; exact Hs].
  apply filter_In. split; [exact Hr|]. assert (K : in_known (fn_sig (snd r)) = true).
  { unfold all_known in Hk. rewrite forallb_forall in Hk. apply Hk, Hr. }
  rewrite (k_ok _ K) in Hs. rewrite Hs, <- (find_fn_k_ok bs sel Hk), H. unfold same_fn. rewrite !String.eqb_refl. reflexivity.
Qed.

(** ** Calls with calldata as Solidity writes it *)
Definition k_fits (sig : string) : bool := in_known sig && (0 <=? k sig) && (k sig <? 2 ^ 32).
Lemma entry_calldata {S E} (C : contract S E) c sig args s t f :
  k_fits sig = true -> all_known (blocks C) = true -> find_fn_k (blocks C) (k sig) = Some (t, f) ->
  List.Forall2 has_type (arg_types f) args -> List.Forall is_byte (abi_params args) -> size (abi_params args) < two256 ->
  entry C c 0 (calldata sig args) s = finish C (body_of (code C) t (rust_name f) args c s) s.
Proof.
  intros Hk Ha Hf Ht Hb Hsz. unfold k_fits in Hk. apply andb_true_iff in Hk. destruct Hk as [Hk H2].
  apply andb_true_iff in Hk. destruct Hk as [Hk H1]. unfold entry, calldata. rewrite (k_ok _ Hk).
  replace (length (be_bytes 4 (k sig) ++ abi_params args) <? 4)%nat with false
    by (symmetry; apply Nat.ltb_ge; rewrite app_length, be_bytes_length; lia).
  rewrite SolAbi_lemmas.take_app by apply be_bytes_length. rewrite of_be_be_bytes, Z.mod_small by (change (256 ^ Z.of_nat 4) with (2 ^ 32); lia).
  rewrite find_fn_k_ok by exact Ha. rewrite Hf. cbn [Z.eqb negb].
  rewrite SolAbi_lemmas.drop_app by apply be_bytes_length.
  replace (decode_params (arg_types f) (abi_params args)) with (Some args) by (symmetry; apply decode_params_iff; auto).
  reflexivity.
Qed.
(** Arguments that are words only. *)
Lemma abi_words_bytes l : List.Forall is_byte (abi_params (map Word l)).
Proof.
  rewrite SolAbi_lemmas.abi_static. unfold SolAbi_lemmas.words. induction l as [|x l IH]; [constructor|]. cbn [flat_map].
  apply List.Forall_app. split; [apply be_bytes_byte|exact IH].
Qed.
Lemma abi_words_size l : size (abi_params (map Word l)) = 32 * size l.
Proof. rewrite SolAbi_lemmas.abi_static. apply size_words. Qed.
(** Every call that does something is of that form. *)
Lemma entry_cases {S E} (C : contract S E) c v input s :
  all_known (blocks C) = true -> List.Forall is_byte input -> size input < two256 ->
  entry C c v input s = (Reverted [], s) \/
  exists t f args, In (t, f) (exposed (blocks C)) /\ v = 0 /\ List.Forall2 has_type (arg_types f) args /\
    input = calldata (fn_sig f) args /\
    entry C c v input s = finish C (body_of (code C) t (rust_name f) args c s) s.
Proof.
  intros Hk Hb Hsz. unfold entry. destruct (length input <? 4)%nat eqn:El; [left; reflexivity|]. apply Nat.ltb_ge in El.
  destruct (find_fn (blocks C) (of_be (firstn 4 input))) as [[t f]|] eqn:Ef; [|left; reflexivity].
  destruct (find_fn_exposed _ _ _ Hk Ef) as [Hin Hsel]. cbn [snd] in Hsel.
  destruct (v =? 0) eqn:Ev; cbn [negb]; [|left; reflexivity]. apply Z.eqb_eq in Ev.
  destruct (decode_params (arg_types f) (skipn 4 input)) as [args|] eqn:Ed; [|left; reflexivity]. right.
  apply decode_params_iff in Ed; [|apply Forall_skipn, Hb|unfold size in *; rewrite skipn_length; lia]. destruct Ed as [Ht Ei].
  exists t, f, args. split; [exact Hin|]. split; [exact Ev|]. split; [exact Ht|]. split; [|reflexivity].
  unfold calldata. rewrite <- Hsel, <- Ei.
  assert (L : length (firstn 4 input) = 4%nat) by (rewrite firstn_length; lia).
  rewrite <- L at 1. rewrite be_bytes_of_be by (apply Forall_firstn, Hb). symmetry. apply firstn_skipn.
Qed.
