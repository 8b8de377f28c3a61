(** C43: token URIs; also those of ERC-1155 (C68). *)
From Verif.Base Require Import Prelude Maps.
From Verif.Model Require Erc721 Erc721Uri.
From Verif.Spec Require Import Uri_spec.
From Verif.Proofs Require Import Erc721_lemmas.
From stdpp Require Import gmap.
Import Erc721Uri.
#[global] Open Scope Z_scope.

(** ** Decimal representations *)
Lemma dec_value_app l1 l2 a :
  fold_left (fun a d => 10 * a + (d - 48)) (l1 ++ l2) a
  = fold_left (fun a d => 10 * a + (d - 48)) l2 (fold_left (fun a d => 10 * a + (d - 48)) l1 a).
Proof. apply fold_left_app. Qed.
Lemma dec_digits_spec f n acc :
  0 <= n < 10 ^ Z.of_nat f ->
  Forall is_digit acc ->
  exists l, dec_digits f n acc = l ++ acc /\ (f <> O -> l <> []) /\ Forall is_digit l /\
    (List.hd 48 l = 48 -> f <> O -> l = [48]) /\ dec_value l = n.
Proof.
  revert n acc. induction f as [|f IH]; intros n acc Hn Hacc.
  - exists []. cbn in *. repeat split; auto; try congruence; lia.
  - cbn [dec_digits]. pose proof (Z.mod_pos_bound n 10 ltac:(lia)) as Hm.
    pose proof (Z.div_mod n 10 ltac:(lia)) as Hd.
    assert (Hdig : is_digit (48 + n mod 10)) by (unfold is_digit; lia).
    destruct (Z.ltb_spec n 10).
    + exists [48 + n mod 10]. rewrite Z.mod_small in * by lia. cbn. repeat split; auto; try congruence; try lia.
    + rewrite Nat2Z.inj_succ, Z.pow_succ_r in Hn by lia.
      destruct (IH (n / 10) ((48 + n mod 10) :: acc)) as (l & E & Hne & Hf & Hh & Hv).
      * split; [apply Z.div_pos; lia|apply Z.div_lt_upper_bound; lia].
      * constructor; auto.
      * exists (l ++ [48 + n mod 10]). rewrite E, <- app_assoc. split; [reflexivity|].
        assert (Hl : l <> []).
        { intros ->. cbn in Hv. unfold dec_value in Hv. cbn in Hv. lia. }
        assert (Hf0 : f <> O) by (intros ->; cbn in *; lia).
        split; [intros _ C; apply app_eq_nil in C; tauto|]. split; [apply Forall_app; auto|]. split.
        -- intros C _. destruct l as [|d l]; [congruence|]. cbn in C. exfalso. rewrite (Hh C Hf0) in Hv.
           unfold dec_value in Hv. cbn in Hv. lia.
        -- unfold dec_value in *. rewrite dec_value_app, Hv. cbn. lia.
Qed.
Lemma two256_78 : two256 < 10 ^ Z.of_nat 78. Proof. vm_compute. reflexivity. Qed.
(** [to_string] is the decimal representation, for every 256-bit number. *)
Theorem c43_decimal n : is_u256 n -> is_decimal (to_string n) n.
Proof.
  intros Hn. unfold is_u256 in Hn. pose proof two256_78.
  destruct (dec_digits_spec 78 n [] ltac:(lia) (Forall_nil_2 _)) as (l & E & Hne & Hf & Hh & Hv).
  unfold to_string. rewrite E, app_nil_r. unfold is_decimal. repeat split; auto.
Qed.
Print Assumptions c43_decimal.
(** A number has only one decimal representation. *)
Lemma dec_value_range l : Forall is_digit l -> 0 <= dec_value l.
Proof.
  unfold dec_value. enough (G : forall a, 0 <= a -> Forall is_digit l -> 0 <= fold_left (fun a d => 10 * a + (d - 48)) l a).
  { intros. apply G; [lia|assumption]. }
  induction l as [|d l IH]; intros a Ha Hf; [exact Ha|]. inversion Hf as [|? ? Hd Hf']; subst. cbn. apply IH; auto.
  unfold is_digit in Hd. lia.
Qed.
Lemma dec_value_inj_len l : forall l', length l = length l' -> Forall is_digit l -> Forall is_digit l' ->
  dec_value l = dec_value l' -> l = l'.
Proof.
  induction l as [|d l IH] using rev_ind; intros l' Hlen Hf Hf' Hv.
  - destruct l'; [reflexivity|discriminate].
  - destruct l' as [|d' l' _] using rev_ind.
    + rewrite app_length in Hlen. cbn in Hlen. lia.
    + rewrite !app_length in Hlen. cbn in Hlen. apply Forall_app in Hf, Hf'. destruct Hf as [Hf Hd], Hf' as [Hf' Hd'].
      inversion Hd as [|? ? Hdd _]; inversion Hd' as [|? ? Hdd' _]; subst.
      unfold dec_value in Hv. rewrite !dec_value_app in Hv. cbn in Hv. unfold is_digit in *.
      f_equal; [apply IH; auto; [lia|]|f_equal; lia]. unfold dec_value. lia.
Qed.
Lemma dec_value_bounds l : Forall is_digit l -> l <> [] -> (List.hd 48 l = 48 -> l = [48]) ->
  dec_value l < 10 ^ Z.of_nat (length l) /\ (l <> [48] -> 10 ^ (Z.of_nat (length l) - 1) <= dec_value l).
Proof.
  induction l as [|d l IH] using rev_ind; intros Hf Hne Hh; [congruence|].
  apply Forall_app in Hf. destruct Hf as [Hf Hd]. inversion Hd as [|? ? Hdd _]; subst.
  unfold dec_value. rewrite dec_value_app. cbn [fold_left]. fold (dec_value l).
  rewrite app_length. cbn [length]. rewrite Nat2Z.inj_add. unfold is_digit in Hdd.
  destruct l as [|x l].
  - cbn in *. split; [lia|]. intros. assert (d <> 48) by congruence. lia.
  - assert (Hhx : List.hd 48 (x :: l) = 48 -> x :: l = [48]).
    { intros E. cbn in E. subst x. exfalso. assert (C : (48 :: l) ++ [d] = [48]) by (apply Hh; reflexivity).
      cbn in C. inversion C as [C']. destruct l; discriminate. }
    destruct (IH Hf ltac:(congruence) Hhx) as [H1 H2].
    assert (Hx : x :: l <> [48]).
    { intros E. rewrite E in Hh. cbn in Hh. assert (C : [48; d] = [48]) by (apply Hh; reflexivity). discriminate. }
    specialize (H2 Hx). set (k := Z.of_nat (length (x :: l))) in *.
    assert (1 <= k) by (unfold k; cbn [length]; lia).
    replace (k + Z.of_nat 1) with (Z.succ k) by lia. replace (Z.succ k - 1) with (Z.succ (k - 1)) by lia.
    rewrite !Z.pow_succ_r by lia. split; [lia|]. intros _. lia.
Qed.
Theorem c43_decimal_unique l l' n : is_decimal l n -> is_decimal l' n -> l = l'.
Proof.
  intros (Hne & Hf & Hh & Hv) (Hne' & Hf' & Hh' & Hv').
  destruct (dec_value_bounds l Hf Hne Hh) as [B1 B2]. destruct (dec_value_bounds l' Hf' Hne' Hh') as [B1' B2'].
  apply dec_value_inj_len; auto; [|congruence].
  destruct (decide (l = [48])) as [->|E]; destruct (decide (l' = [48])) as [->|E']; auto.
  - specialize (B2' E'). rewrite Hv', <- Hv in B2'. unfold dec_value in B2'. cbn in B2'.
    assert (0 < 10 ^ (Z.of_nat (length l') - 1)); [|lia].
    apply Z.pow_pos_nonneg; [lia|]. destruct l'; [congruence|cbn [length]; lia].
  - specialize (B2 E). rewrite Hv, <- Hv' in B2. unfold dec_value in B2. cbn in B2.
    assert (0 < 10 ^ (Z.of_nat (length l) - 1)); [|lia].
    apply Z.pow_pos_nonneg; [lia|]. destruct l; [congruence|cbn [length]; lia].
  - specialize (B2 E). specialize (B2' E'). rewrite Hv in *. rewrite Hv' in *.
    assert (A : 10 ^ (Z.of_nat (length l) - 1) < 10 ^ Z.of_nat (length l')) by lia.
    assert (A' : 10 ^ (Z.of_nat (length l') - 1) < 10 ^ Z.of_nat (length l)) by lia.
    apply Z.pow_lt_mono_r_iff in A; [|lia..]. apply Z.pow_lt_mono_r_iff in A'; [|lia..]. lia.
Qed.
Print Assumptions c43_decimal_unique.

(** ** Metadata extension *)
Theorem c43_metadata base s id :
  (~ exists_token s id -> metadata_token_uri base id s = (Err (Erc721.NonexistentToken id), s)) /\
  (exists_token s id -> base = [] -> fst (metadata_token_uri base id s) = Ok []) /\
  (exists_token s id -> base <> [] -> is_u256 id ->
     exists d, is_decimal d id /\ fst (metadata_token_uri base id s) = Ok (base ++ d)).
Proof.
  rewrite exists_iff. unfold metadata_token_uri, Erc721.owner_of, Erc721._require_owned. mred.
  destruct (Z.eqb_spec (Erc721._owner_of id s) 0) as [E|E].
  - repeat split; contradiction.
  - repeat split; try contradiction.
    + intros _ ->. reflexivity.
    + intros _ Hb Hi. exists (to_string id). split; [apply c43_decimal; exact Hi|].
      destruct (decide (base = [])); [congruence|reflexivity].
Qed.
Print Assumptions c43_metadata.

Theorem c43_distinct base s id id' u u' :
  base <> [] -> is_u256 id -> is_u256 id' -> id <> id' ->
  fst (metadata_token_uri base id s) = Ok u -> fst (metadata_token_uri base id' s) = Ok u' -> u <> u'.
Proof.
  intros Hb Hi Hi' Hne H H' E.
  assert (Hex : exists_token s id /\ exists_token s id').
  { rewrite !exists_iff. unfold metadata_token_uri, Erc721.owner_of, Erc721._require_owned in H, H'.
    mred_in H. mred_in H'. destruct (Z.eqb_spec (Erc721._owner_of id s) 0); [discriminate|].
    destruct (Z.eqb_spec (Erc721._owner_of id' s) 0); [discriminate|]. auto. }
  destruct Hex as [Hex Hex'].
  destruct (proj2 (proj2 (c43_metadata base s id)) Hex Hb Hi) as (d & Hd & Hu).
  destruct (proj2 (proj2 (c43_metadata base s id')) Hex' Hb Hi') as (d' & Hd' & Hu').
  rewrite Hu in H. rewrite Hu' in H'. injection H as H. injection H' as H'. rewrite <- H, <- H' in E.
  apply app_inv_head in E. subst d'. destruct Hd as (_ & _ & _ & V), Hd' as (_ & _ & _ & V'). congruence.
Qed.
Print Assumptions c43_distinct.

(** ** URI storage, after every history of the example contract *)
Lemma run_uris has_code h s i :
  getd [] (token_uris (run has_code h s)) i = last_uri h i (getd [] (token_uris s) i) /\
  base_uri (run has_code h s) = base_uri s.
Proof.
  revert s. induction h as [|[c [o|j u]] h IH]; intros s; [auto|..]; cbn [run last_uri].
  - destruct (IH (snd (tx (exec has_code c (Token o)) s))) as [-> ->].
    unfold tx, exec, on_erc721, zoom. destruct (Erc721.exec has_code c o (erc721 s)) as [[] t]; auto.
  - destruct (IH (snd (tx (exec has_code c (SetTokenUri j u)) s))) as [-> ->].
    cbn. rewrite getd_set. destruct (decide (j = i)) as [->|E].
    + rewrite Z.eqb_refl. auto.
    + rewrite (proj2 (Z.eqb_neq j i) E). auto.
Qed.
Theorem c43_uri_storage has_code base h id :
  let s := run has_code h (init base) in
  let suffix := last_uri h id [] in
  (~ exists_token (erc721 s) id -> token_uri id s = (Err (Erc721.NonexistentToken id), s)) /\
  (exists_token (erc721 s) id -> base = [] -> fst (token_uri id s) = Ok suffix) /\
  (exists_token (erc721 s) id -> base <> [] -> suffix <> [] -> fst (token_uri id s) = Ok (base ++ suffix)) /\
  (exists_token (erc721 s) id -> base <> [] -> suffix = [] -> is_u256 id ->
     exists d, is_decimal d id /\ fst (token_uri id s) = Ok (base ++ d)).
Proof.
  intros s suffix. destruct (run_uris has_code h (init base) id) as [Hu Hb].
  change (getd [] (token_uris (init base)) id) with (getd [] (∅ : gmap Z (list Z)) id) in Hu.
  rewrite getd_empty in Hu. fold suffix in Hu. fold s in Hu, Hb. cbn [base_uri init] in Hb.
  rewrite exists_iff. unfold token_uri, on_erc721.
  assert (Ho : forall x, Erc721.owner_of id x = if Erc721._owner_of id x =? 0 then (Err (Erc721.NonexistentToken id), x) else (Ok (Erc721._owner_of id x), x)).
  { intros x. unfold Erc721.owner_of, Erc721._require_owned. mred. destruct (_ =? 0); reflexivity. }
  unfold metadata_token_uri. mred. rewrite Ho.
  destruct (Z.eqb_spec (Erc721._owner_of id (erc721 s)) 0) as [E|E].
  - repeat split; try contradiction. intros _. destruct s; reflexivity.
  - cbn [token_uris base_uri erc721]. rewrite Hu, Hb.
    repeat split; try contradiction.
    + intros _ ->. reflexivity.
    + intros _ H1 H2. destruct (decide (base = [])); [congruence|]. destruct (decide (suffix = [])); [congruence|]. reflexivity.
    + intros _ H1 H2 Hi. exists (to_string id). split; [apply c43_decimal; exact Hi|].
      destruct (decide (base = [])); [congruence|]. destruct (decide (suffix = [])); [|congruence].
      rewrite Ho. cbn [erc721]. rewrite (proj2 (Z.eqb_neq _ 0) E). reflexivity.
Qed.
Print Assumptions c43_uri_storage.

(** ** ERC-1155 *)
Theorem c68_uri metadata h id :
  let s := Erc1155Uri.run h (Erc1155Uri.init metadata) in
  Erc1155Uri.uri id s = match last_uri_1155 h id [] with
                        | [] => metadata
                        | u => last_base_1155 h [] ++ u
                        end.
Proof.
  intros s.
  assert (G : forall h s0, let s1 := Erc1155Uri.run h s0 in
    getd [] (Erc1155Uri.token_uris s1) id = last_uri_1155 h id (getd [] (Erc1155Uri.token_uris s0) id) /\
    Erc1155Uri.base_uri s1 = last_base_1155 h (Erc1155Uri.base_uri s0) /\
    Erc1155Uri.metadata_uri s1 = Erc1155Uri.metadata_uri s0).
  { clear. induction h as [|o h IH]; intros s0; [cbn; auto|].
    destruct (IH (Erc1155Uri.step s0 o)) as (A & B & C).
    intros s1. change s1 with (Erc1155Uri.run h (Erc1155Uri.step s0 o)). rewrite A, B, C.
    destruct o as [j u|b]; cbn; [|auto]. rewrite getd_set.
    destruct (decide (j = id)) as [->|E]; [rewrite Z.eqb_refl|rewrite (proj2 (Z.eqb_neq j id) E)]; auto. }
  destruct (G h (Erc1155Uri.init metadata)) as (A & B & C). fold s in A, B, C. cbn in A, B, C. rewrite getd_empty in A.
  unfold Erc1155Uri.uri. rewrite A, B, C. destruct (last_uri_1155 h id []); reflexivity.
Qed.
Print Assumptions c68_uri.
(** Each [URI] event announces the value [uri] has from then on, until the next change. *)
Theorem c68_event metadata h id u :
  let s := Erc1155Uri.run (h ++ [Erc1155Uri.SetTokenUri id u]) (Erc1155Uri.init metadata) in
  last (Erc1155Uri.log s) = Some (Erc1155Uri.uri id s, id).
Proof.
  intros s. subst s. unfold Erc1155Uri.run. rewrite fold_left_app. cbn. rewrite last_snoc. reflexivity.
Qed.
Print Assumptions c68_event.

(** ** Non-vacuity *)
Example c43_examples :
  to_string 0 = [48] /\ to_string 9 = [57] /\ to_string 10 = [49; 48] /\ to_string 12345 = [49; 50; 51; 52; 53].
Proof. repeat split. Qed.
Example c43_storage_example :
  let h := [(1, Token (Erc721.IMint 2 12)); (1, Token (Erc721.IMint 2 13)); (1, SetTokenUri 13 [7; 8])] in
  let s := run (fun _ => false) h (init [100; 47]) in
  fst (token_uri 12 s) = Ok [100; 47; 49; 50] /\ fst (token_uri 13 s) = Ok [100; 47; 7; 8] /\
  fst (token_uri 14 s) = Err (Erc721.NonexistentToken 14).
Proof. vm_compute. repeat split. Qed.
