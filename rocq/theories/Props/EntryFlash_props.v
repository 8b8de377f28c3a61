(** C97: examples/erc20-flash-mint behind its entry point, over all calls as bytes and all
    borrowers that call back. *)
From Verif.Base Require Import Prelude Bytes Keccak Maps.
From Coq Require Import String List.
From Verif.Model Require Import Introspection Router Entry EntryErc20 EntryErc721 FlashCache EntryFlash.
From Verif.Model Require SolAbi Erc20 FlashMint.
From Verif.Spec Require Import Router_spec SolAbi_spec LogMeaning_spec Errors_spec Entry_spec Ledger_spec EntryAccess_spec EntryFlash_spec.
From Verif.Proofs Require Import Router_lemmas Entry_lemmas Ledger_lemmas EntryVault_lemmas EntryAccess_lemmas EntryFlash_lemmas.
From Verif.Proofs Require SolAbi_lemmas EntryNft_lemmas.
From Verif.Props Require Import SolAbi_props.
From Verif.Props Require EntryNft_props.
Import SolAbi.
#[global] Open Scope Z_scope.
Local Open Scope list_scope.
Local Open Scope Z_scope.
Opaque keccak256.

Lemma known_flash e w : all_known (blocks (ExampleFlash e w)) = true.
Proof. vm_compute. reflexivity. Qed.
Definition exposed_flash := Eval vm_compute in exposed Pub.Erc20FlashMintExample.
Lemma exposed_flash_ok e w : exposed (blocks (ExampleFlash e w)) = exposed_flash.
Proof. vm_compute. reflexivity. Qed.
Lemma exposed_flash_interface e w t f : In (t, f) (exposed (blocks (ExampleFlash e w))) -> In (fn_sig f, arg_types f) flash_interface.
Proof.
  rewrite exposed_flash_ok. intros H.
  assert (K : forallb (fun p => if in_dec EntryNft_props.same_entry (fn_sig (snd p), arg_types (snd p)) flash_interface then true else false) exposed_flash = true)
    by (vm_compute; reflexivity).
  rewrite forallb_forall in K. specialize (K _ H). cbn [snd] in K. destruct (in_dec _ _ _) as [Hin|]; [exact Hin|discriminate].
Qed.
Lemma data_request {S E} (C : contract S E) (Hk : all_known (blocks C) = true) sig l d c s t f :
  k_fits sig = true -> find_fn_k (blocks C) (k sig) = Some (t, f) ->
  List.Forall2 has_type (arg_types f) (map Word l ++ [Octets d]) -> size l < 10 -> data_ok d ->
  entry C c 0 (calldata sig (map Word l ++ [Octets d])) s = finish C (body_of (code C) t (rust_name f) (map Word l ++ [Octets d]) c s) s.
Proof.
  intros H1 H2 H3 H4 [H5 H6]. apply entry_calldata; auto.
  - apply EntryNft_lemmas.abi_params_bytes. apply List.Forall_app. split; [|constructor; [exact H5|constructor]].
    apply List.Forall_forall. intros a Ha. apply in_map_iff in Ha. destruct Ha as (x & <- & _). exact I.
  - rewrite EntryNft_lemmas.words_then_octets_size. pose proof (EntryNft_lemmas.octets_tail_size d). unfold two256. change (2 ^ 256) with (2 ^ 255 + 2 ^ 255).
    assert (1000 < 2 ^ 255) by reflexivity. lia.
Qed.
Lemma loan_data_told T c t v d : loan_data c t v (loan_fee T) d = told T c t v d.
Proof.
  unfold loan_data, told, calldata, function_selector, sig_selector.
  replace (signature "onFlashLoan" [Address; Address; U256; U256; Bytes]) with "onFlashLoan(address,address,uint256,uint256,bytes)"%string
    by (vm_compute; reflexivity). reflexivity.
Qed.

(** ** One call *)
Section call.
  Context (T : terms) (has : Z -> bool) (A : Z -> list Z -> Erc20.state -> Erc20.state) (reply : Z -> list Z -> answer).
  Local Notation e := (env_of T has).
  Local Notation C := (ExampleFlash e (borrow A reply)).
  Lemma K0 : all_known (blocks C) = true. Proof. apply known_flash. Qed.
  Lemma ask_supply c s : entry C c 0 (calldata "totalSupply()" []) s = (Returned (word (Erc20.total_supply s)), s).
  Proof. change (@nil val) with (map Word []). ask constr:(C) K0 "totalSupply()"%string (@nil Z) "Erc20"%string (fn "total_supply" []). rewrite <- one_word. reflexivity. Qed.
  Lemma ask_balance c s a : is_address a -> entry C c 0 (calldata "balanceOf(address)" [Word a]) s = (Returned (word (Erc20.balance_of s a)), s).
  Proof. intros H. change [Word a] with (map Word [a]). ask constr:(C) K0 "balanceOf(address)"%string [a] "Erc20"%string (fn "balance_of" [Address]). rewrite <- one_word. reflexivity. Qed.
  Lemma ask_allowance c s a b : is_address a -> is_address b ->
    entry C c 0 (calldata "allowance(address,address)" [Word a; Word b]) s = (Returned (word (Erc20.allowance s a b)), s).
  Proof.
    intros H H'. change [Word a; Word b] with (map Word [a; b]). ask constr:(C) K0 "allowance(address,address)"%string [a; b] "Erc20"%string (fn "allowance" [Address; Address]).
    rewrite <- one_word. reflexivity.
  Qed.
  Lemma ask_most c s t : is_address t -> entry C c 0 (calldata "maxFlashLoan(address)" [Word t]) s = (Returned (word (FlashMint.max_flash_loan e t s)), s).
  Proof.
    intros H. change [Word t] with (map Word [t]). ask constr:(C) K0 "maxFlashLoan(address)"%string [t] "Erc20FlashMintExample"%string (fn "max_flash_loan" [Address]).
    rewrite <- one_word. reflexivity.
  Qed.
  Lemma ask_fee c s t v : is_address t -> is_u256 v -> entry C c 0 (calldata "flashFee(address,uint256)" [Word t; Word v]) s =
    (if t =? lender T then Returned (word (loan_fee T)) else Reverted (revert_flash_mint (FlashMint.UnsupportedToken t)), s).
  Proof.
    intros H H'. change [Word t; Word v] with (map Word [t; v]).
    ask constr:(C) K0 "flashFee(address,uint256)"%string [t; v] "Erc20FlashMintExample"%string (fn "flash_fee" [Address; U256]).
    change (finish C ((x <~ FlashMint.flash_fee e t v ;; ret [Word x]) s) s =
      (if t =? lender T then Returned (word (loan_fee T)) else Reverted (revert_flash_mint (FlashMint.UnsupportedToken t)), s)).
    unfold FlashMint.flash_fee. change (FlashMint.this e) with (lender T). mred. destruct (t =? lender T); [|reflexivity].
    rewrite <- one_word. reflexivity.
  Qed.
  Local Notation settled_fine := (settled (entry C) mfine).
  Local Notation reasons_ok := revert_flash_mint_ok.
  Lemma order_does s b c o : mfine s b -> is_address c -> order_fits o ->
    settled_fine s c (minted_data o) (order_answer o) (decide (order_checks c o b) (order_done c o b)).
  Proof.
    intros F Hc Ho. destruct o as [a v|a v|f t v|a v]; cbn [order_fits] in Ho; unfold minted_data, order_calldata, order_answer.
    - refine (settle C mfine reason_flash_mint reasons_ok (flag (map_err FlashMint.ErrErc20 (Erc20.transfer c a v))) s _ [Word 1] _ c _ _ _ (one_word 1) _).
      + change [Word a; Word v] with (map Word [a; v]). ask constr:(C) K0 "transfer(address,uint256)"%string [a; v] "Erc20"%string (fn "transfer" [Address; U256]). reflexivity.
      + apply flag_meets, err_meets. unfold Erc20.transfer. apply true_meets. apply move_meets; tauto.
    - refine (settle C mfine reason_flash_mint reasons_ok (flag (map_err FlashMint.ErrErc20 (Erc20.approve c a v))) s _ [Word 1] _ c _ _ _ (one_word 1) _).
      + change [Word a; Word v] with (map Word [a; v]). ask constr:(C) K0 "approve(address,uint256)"%string [a; v] "Erc20"%string (fn "approve" [Address; U256]). reflexivity.
      + apply flag_meets, err_meets. unfold Erc20.approve. apply (meets_more _ _ _ _ _ _ _ _ (fun s' => done_allowance s' _)). apply allow_meets; tauto.
    - refine (settle C mfine reason_flash_mint reasons_ok (flag (map_err FlashMint.ErrErc20 (Erc20.transfer_from c f t v))) s _ [Word 1] _ c _ _ _ (one_word 1) _).
      + change [Word f; Word t; Word v] with (map Word [f; t; v]). ask constr:(C) K0 "transferFrom(address,address,uint256)"%string [f; t; v] "Erc20"%string (fn "transfer_from" [Address; Address; U256]). reflexivity.
      + apply flag_meets, err_meets.
        apply (meets_ext _ _ ((Erc20._spend_allowance f c v ;;; Erc20._transfer f t v) ;;; ret true)).
        { unfold Erc20.transfer_from. mred. destruct (Erc20._spend_allowance f c v s) as [[[]|x|] s']; reflexivity. }
        apply true_meets. apply draw_meets; tauto.
    - refine (settle C mfine reason_flash_mint reasons_ok (nothing (map_err FlashMint.ErrErc20 (Erc20._mint a v))) s _ [] _ c _ _ _ eq_refl _).
      + change [Word a; Word v] with (map Word [a; v]). ask constr:(C) K0 "mint(address,uint256)"%string [a; v] "Erc20FlashMintExample"%string (fn "mint" [Address; U256]). reflexivity.
      + apply nothing_meets, err_meets, issue_meets; tauto.
  Qed.
  Lemma loan_entry s c r t v d : is_address r -> is_address t -> is_u256 v -> data_ok d ->
    entry C c 0 (loan_call r t v d) s = finish C (flag (flash_loan_cached e (borrow A reply r (told T c t v d)) r t v) s) s.
  Proof.
    intros Hr Ht Hv Hd. unfold loan_call. change [Word r; Word t; Word v; Octets d] with (map Word [r; t; v] ++ [Octets d]).
    refine (eq_trans (data_request C K0 "flashLoan(address,address,uint256,bytes)"%string [r; t; v] d _ _ "Erc20FlashMintExample"%string
      (fn "flash_loan" [Address; Address; U256; Bytes]) _ _ _ _ Hd) _); [vm_compute; reflexivity|vm_compute; reflexivity| |reflexivity|].
    - repeat (apply List.Forall2_cons || apply List.Forall2_nil); cbn [has_type word_of_type]; try tauto. split; [|exact (proj1 Hd)]. auto.
    - rewrite <- loan_data_told. reflexivity.
  Qed.
  Lemma mint_entry s c a v : is_address a -> is_u256 v ->
    entry C c 0 (minted_data (Issue a v)) s = finish C (nothing (map_err FlashMint.ErrErc20 (Erc20._mint a v)) s) s.
  Proof.
    intros Ha Hv. unfold minted_data. change [Word a; Word v] with (map Word [a; v]).
    ask constr:(C) K0 "mint(address,uint256)"%string [a; v] "Erc20FlashMintExample"%string (fn "mint" [Address; U256]). reflexivity.
  Qed.
End call.
Definition with_world (T : terms) (has : Z -> bool) A reply := entry (ExampleFlash (env_of T has) (borrow A reply)).
(** A loan: the two halves, and the ledger in between. *)
Lemma loan_does T has A reply s b c r t v d : terms_fit T -> mfine s b -> is_address c -> is_address r -> is_address t -> is_u256 v -> data_ok d ->
  let call := with_world T has A reply in
  match decide (loan_checks T has b r t v) tt with
  | Yes _ => exists s1, mfine s1 (lent b r v) /\
      (forall has' A' reply', with_world T has' A' reply' c 0 (minted_data (Issue r v)) s = (Returned [], s1)) /\
      forall b2, mfine (A r (told T c t v d) s1) b2 ->
        settled call mfine s c (loan_call r t v d) (word 1)
          (decide (repay_checks T (believed (lent b r v) b2) r v (reply r (told T c t v d))) (repaid T (believed (lent b r v) b2) r v))
  | No why => settled call mfine s c (loan_call r t v d) (word 1) (No why)
  end.
Proof.
  intros HT F Hc Hr Ht Hv Hd call. pose proof (lend_meets T has s b r t v F Hr Ht Hv) as L. unfold meets in L.
  assert (He : call c 0 (loan_call r t v d) s = _) by exact (loan_entry T has A reply s c r t v d Hr Ht Hv Hd).
  unfold flag, bind at 1 in He. rewrite loan_split in He. destruct (decide (loan_checks T has b r t v) tt) as [[]|[why|]]; cbn [settled].
  - destruct L as (s1 & E1 & F1'). exists s1. split; [exact F1'|]. split.
    + intros has' A' reply'. unfold with_world. rewrite (mint_entry T has' A' reply' s c r v Hr Hv).
      assert (Em : map_err FlashMint.ErrErc20 (Erc20._mint r v) s = (Ok tt, s1)).
      { revert E1. unfold lend, FlashMint.flash_fee. mred. destruct (_ <? v); [discriminate|]. destruct (t =? _); [|discriminate].
        destruct (negb (has r)); [discriminate|]. auto. }
      unfold nothing, bind. rewrite Em. reflexivity.
    + intros b2 F2'. rewrite E1 in He.
      pose proof (proj1 F1') as (Ks & _). rewrite <- Ks in He.
      refine (settle (ExampleFlash (env_of T has) (borrow A reply)) mfine reason_flash_mint revert_flash_mint_ok
        (fun s0 => flag (collect T has r v (l_supply (lent b r v)) (reply r (told T c t v d)))
           (match reply r (told T c t v d) with Returned _ => A r (told T c t v d) s1 | Reverted _ => s1 end))
        s _ [Word 1] _ c _ _ He (one_word 1) _).
      assert (Fm : meets mfine reason_flash_mint (flag (collect T has r v (l_supply (lent b r v)) (reply r (told T c t v d)))) (A r (told T c t v d) s1)
        (repay_checks T (believed (lent b r v) b2) r v (reply r (told T c t v d))) [Word 1] (repaid T (believed (lent b r v) b2) r v)).
      { apply flag_meets, collect_meets; [exact HT|exact F2'|exact (proj2 F1')|exact Hr|exact Hv]. }
      destruct (reply r (told T c t v d)) as [out|out]; [exact Fm|].
      unfold meets, repay_checks. cbn [answers negb app decide]. eexists _, _. split; [reflexivity|]. split; [reflexivity|]. apply F1, address_fits, Hr.
  - destruct L as (x & s1 & E1 & <- & Hf). rewrite E1 in He. exists (revert_flash_mint x). split; [exact He|]. apply revert_flash_mint_ok, Hf.
  - destruct L as (s1 & E1). rewrite E1 in He. exact He.
Qed.

(** ** Any call *)
Lemma calldata_data sig ws d : data_ok (calldata sig (map Word ws ++ [Octets d])) -> List.Forall is_byte d -> data_ok d.
Proof. exact (EntryNft_props.calldata_data sig ws d). Qed.
Lemma any_call T has A reply c v d s : data_ok d ->
  snd (with_world T has A reply c v d s) = s \/
  (exists o, v = 0 /\ d = minted_data o /\ order_fits o) \/
  (exists r t x o, v = 0 /\ d = loan_call r t x o /\ is_address r /\ is_address t /\ is_u256 x /\ data_ok o).
Proof.
  intros Hdf. assert (Hb := proj1 Hdf). assert (Hsz : size d < two256) by (apply (Z.lt_trans _ (2 ^ 255)); [apply Hdf|reflexivity]).
  unfold with_world. set (C := ExampleFlash (env_of T has) (borrow A reply)).
  destruct (entry_cases C c v d s (known_flash _ _) Hb Hsz) as [->|(t & f & args & Hin & -> & Ht & Hd & He)]; [left; reflexivity|].
  unfold C in Hin. rewrite exposed_flash_ok in Hin. unfold exposed_flash in Hin. rewrite He. clear He Hb Hsz.
  repeat (destruct Hin as [Hin|Hin];
    [injection Hin as <- <-; cbn [arg_types] in Ht;
     repeat match goal with
     | H : List.Forall2 _ (_ :: _) _ |- _ => inversion H; subst; clear H
     | H : List.Forall2 _ [] _ |- _ => inversion H; subst; clear H
     | H : has_type Bytes ?y |- _ => destruct y; cbn [has_type word_of_type] in H;
         [destruct H|exfalso; destruct H as (? & H & _); discriminate H|destruct H as [_ H]]
     | H : has_type _ ?y |- _ => destruct y; cbn [has_type word_of_type] in H;
         [|exfalso; first [destruct H as (? & H & _); discriminate H | destruct H as [[H|H] _]; discriminate H]..]
     end|]); [..|destruct Hin].
  all: try (left; reflexivity).
  all: match goal with H : data_ok (calldata (fn_sig ?f) _) |- _ => let x := eval vm_compute in (fn_sig f) in change (fn_sig f) with x in * | _ => idtac end.
  Ltac req o := right; left; exists o; split; [reflexivity|]; split; [reflexivity|cbn [order_fits]; tauto].
  all: match goal with
    | |- context [calldata "transfer(address,uint256)" [Word ?a; Word ?v]] => req (Pay a v)
    | |- context [calldata "approve(address,uint256)" [Word ?a; Word ?v]] => req (Allow a v)
    | |- context [calldata "transferFrom(address,address,uint256)" [Word ?a; Word ?b; Word ?v]] => req (Draw a b v)
    | |- context [calldata "mint(address,uint256)" [Word ?a; Word ?v]] => req (Issue a v)
    | |- context [calldata "flashLoan(address,address,uint256,bytes)" [Word ?r; Word ?t; Word ?v; Octets ?o]] =>
        right; right; exists r, t, v, o; split; [reflexivity|]; split; [reflexivity|];
        apply (calldata_data "flashLoan(address,address,uint256,bytes)"%string [r; t; v] o) in Hdf; [tauto|assumption]
    | |- _ => left
    end.
  match goal with |- snd (finish C (body_of _ _ _ [Word ?x; Word ?y] _ _) _) = _ => 
    change (snd (finish C ((r <~ FlashMint.flash_fee (env_of T has) x y ;; ret [Word r]) s) s) = s); unfold FlashMint.flash_fee; mred; destruct (x =? _); reflexivity end.
Qed.

(** ** Visits *)
Scheme visit_mind := Induction for visit Sort Prop with visits_mind := Induction for visits Sort Prop.
Lemma visit_eq T c v d has acts reply s :
  visit_step T (Visit c v d has acts reply) s = with_world T has (fun r x s => visits_run T (acts r x) s) reply c v d s.
Proof. reflexivity. Qed.
Lemma visits_cons T x xs s : visits_run T (VCons x xs) s = visits_run T xs (snd (visit_step T x s)).
Proof. reflexivity. Qed.
Definition keeps_books (T : terms) (f : Erc20.state -> Erc20.state) : Prop := forall s b, mfine s b -> exists b', mfine (f s) b'.
Lemma settled_fine {B S0} (call : Z -> Z -> list Z -> S0 -> answer * S0) (P : S0 -> B -> Prop) s c d r v b :
  P s b -> settled call P s c d r v -> exists b', P (snd (call c 0 d s)) b'.
Proof.
  intros F. destruct v as [b'|[w|]]; cbn [settled].
  - intros (s' & -> & K). eauto.
  - intros (x & -> & _). eauto.
  - intros ->. eauto.
Qed.
Lemma world_keeps T has A reply c v d : terms_fit T -> is_address c -> data_ok d ->
  (forall r x, keeps_books T (A r x)) -> keeps_books T (fun s => snd (with_world T has A reply c v d s)).
Proof.
  intros HT Hc Hd HA s b F. destruct (any_call T has A reply c v d s Hd) as [->|[(o & -> & -> & Ho)|(r & t & x & o & -> & -> & Hr & Ht & Hx & Ho)]].
  - eauto.
  - exact (settled_fine _ _ _ _ _ _ _ b F (order_does T has A reply s b c o F Hc Ho)).
  - pose proof (loan_does T has A reply s b c r t x o HT F Hc Hr Ht Hx Ho) as L. cbv zeta in L.
    destruct (decide (loan_checks T has b r t x) tt) as [[]|why].
    + destruct L as (s1 & F1' & _ & L). destruct (HA r (told T c t x o) s1 _ F1') as [b2 F2']. specialize (L b2 F2').
      exact (settled_fine _ _ _ _ _ _ _ b F L).
    + exact (settled_fine _ _ _ _ _ _ _ b F L).
Qed.
Lemma visits_keep T : terms_fit T -> forall xs, visits_ok xs -> keeps_books T (visits_run T xs).
Proof.
  intros HT. apply (visits_mind (fun x => visit_ok x -> keeps_books T (fun s => snd (visit_step T x s))) (fun xs => visits_ok xs -> keeps_books T (visits_run T xs))).
  - intros c v d has acts IH reply (Hc & Hd & Ha).
    exact (world_keeps T has (fun r x s => visits_run T (acts r x) s) reply c v d HT Hc Hd (fun r x => IH r x (Ha r x))).
  - intros _ s b F. exists b. exact F.
  - intros x IHx xs IHxs (Hx & Hxs) s b F. destruct (IHx Hx s b F) as [b1 F1']. destruct (IHxs Hxs _ _ F1') as [b2 F2'].
    exists b2. rewrite visits_cons. exact F2'.
Qed.
Lemma init_fine : mfine Erc20.init new_ledger.
Proof. exact keeps_init. Qed.

(** What is shown is what is kept. *)
Definition idle (T : terms) : contract Erc20.state FlashMint.error :=
  ExampleFlash (env_of T (fun _ => false)) (borrow (fun r d s => visits_run T VNil s) (fun _ _ => Reverted [])).
Lemma asking_eq T : asking T = entry (idle T).
Proof. reflexivity. Qed.
Lemma fine_shown T s b : mfine s b -> shown T s b.
Proof.
  intros F. pose proof F as (K & Hf). split; [|split; [exact Hf|]]; rewrite asking_eq.
  - exact (ledger_shown (idle T) (fun s => s) (ask_supply T _ _ _) (ask_balance T _ _ _) (ask_allowance T _ _ _) s b K).
  - intros t Ht c. unfold idle. rewrite ask_most by exact Ht. rewrite (most_max T _ s b t F). reflexivity.
Qed.
Lemma shown_fine T s b0 b : mfine s b0 -> shown T s b -> mfine s b.
Proof.
  intros ((A1 & A2 & A3) & G1 & G2 & G3) ((S1 & S2 & S3) & F & _). split; [|exact F]. destruct F as (F1' & F2' & F3'). split; [|split].
  - specialize (S1 0). rewrite asking_eq in S1. unfold idle in S1. rewrite ask_supply in S1.
    refine (reported _ _ _ F1' _ S1). rewrite <- A1. exact G1.
  - intros a Ha. specialize (S2 a Ha 0). rewrite asking_eq in S2. unfold idle in S2. rewrite ask_balance in S2 by exact Ha.
    refine (reported _ _ _ (F2' a) _ S2). rewrite <- A2 by exact Ha. apply G2.
  - intros a x Ha Hx. specialize (S3 a x Ha Hx 0). rewrite asking_eq in S3. unfold idle in S3. rewrite ask_allowance in S3 by assumption.
    refine (reported _ _ _ (F3' a x) _ S3). rewrite <- A3 by assumption. apply G3.
Qed.
Lemma settled_impl {B S0} (call : Z -> Z -> list Z -> S0 -> answer * S0) (P P' : S0 -> B -> Prop) s c d r v :
  (forall s' b, P s' b -> P' s' b) -> settled call P s c d r v -> settled call P' s c d r v.
Proof. intros H. destruct v as [b|[w|]]; cbn [settled]; [|auto..]. intros (s' & E & K). eauto. Qed.
Definition turns (T : terms) (acts : Z -> list Z -> visits) (r : Z) (d : list Z) (s : Erc20.state) : Erc20.state := visits_run T (acts r d) s.
Lemma sending_eq T has acts reply : sending T has acts reply = with_world T has (turns T acts) reply.
Proof. reflexivity. Qed.

(** * C97 *)
(** After any visits, with whatever borrowers do meanwhile, the answers of the getters describe
    a ledger of words, and whatever a holder sends next is answered as the ledger says, with
    the reason it gives; the getters then describe its successor, modulo [2^256]. *)
Theorem c97_flash_token_keeps_a_ledger :
  forall T xs, terms_fit T -> visits_ok xs ->
  let s := visits_run T xs Erc20.init in
  (exists b, shown T s b) /\
  (forall b c o has acts reply, shown T s b -> is_address c -> order_fits o ->
     settled (sending T has acts reply) (shown T) s c (minted_data o) (order_answer o) (decide (order_checks c o b) (order_done c o b))) /\
  shown T Erc20.init new_ledger.
Proof.
  intros T xs HT Hx s. destruct (visits_keep T HT xs Hx _ _ init_fine) as [b0 F0]. fold s in F0. clearbody s. split; [|split].
  - exists b0. apply fine_shown, F0.
  - intros b c o has acts reply Sb Hc Ho. rewrite sending_eq. apply (settled_impl _ mfine); [apply fine_shown|].
    exact (order_does T has (turns T acts) reply s b c o (shown_fine T s b0 b F0 Sb) Hc Ho).
  - apply fine_shown, init_fine.
Qed.
Print Assumptions c97_flash_token_keeps_a_ledger.

(** A loan is refused for the first reason there is. Otherwise the borrower has its turn in the
    state that a mint of the same amount would lead to, told who asked, for what, and at what
    fee; and then the loan is settled, or undone for the first reason there is, on the ledger
    that the borrower left, with the supply from before its turn. *)
Theorem c97_loans_in_two_halves :
  forall T xs, terms_fit T -> visits_ok xs ->
  let s := visits_run T xs Erc20.init in
  forall b c r t v d has acts reply, shown T s b -> is_address c -> is_address r -> is_address t -> is_u256 v -> data_ok d ->
  (forall x y, visits_ok (acts x y)) ->
  let news := told T c t v d in
  let lends := sending T has acts reply in
  match decide (loan_checks T has b r t v) tt with
  | No why => settled lends (shown T) s c (loan_call r t v d) (word 1) (No why)
  | Yes _ => exists s1, shown T s1 (lent b r v) /\ asking T c 0 (minted_data (Issue r v)) s = (Returned [], s1) /\
      let s2 := visits_run T (acts r news) s1 in
      (exists b2, shown T s2 b2) /\
      forall b2, shown T s2 b2 ->
        let b' := believed (lent b r v) b2 in
        settled lends (shown T) s c (loan_call r t v d) (word 1) (decide (repay_checks T b' r v (reply r news)) (repaid T b' r v))
  end.
Proof.
  intros T xs HT Hx s b c r t v d has acts reply Sb Hc Hr Ht Hv Hd Ha news lends. unfold lends. rewrite sending_eq. clear lends.
  destruct (visits_keep T HT xs Hx _ _ init_fine) as [b0 F0]. fold s in F0. clearbody s. pose proof (shown_fine T s b0 b F0 Sb) as F.
  pose proof (loan_does T has (turns T acts) reply s b c r t v d HT F Hc Hr Ht Hv Hd) as L. cbv zeta in L.
  destruct (decide (loan_checks T has b r t v) tt) as [[]|why].
  - destruct L as (s1 & F1' & Em & L). exists s1. split; [apply fine_shown, F1'|].
    split; [rewrite asking_eq; exact (Em (fun _ => false) (fun r d s => visits_run T VNil s) (fun _ _ => Reverted []))|]. set (s2 := visits_run T (acts r news) s1).
    destruct (visits_keep T HT (acts r news) (Ha r news) _ _ F1') as [b20 F20]. fold s2 in F20. split; [exists b20; apply fine_shown, F20|].
    intros b2 S2. apply (settled_impl _ mfine); [apply fine_shown|]. exact (L b2 (shown_fine T s2 b20 b2 F20 S2)).
  - apply (settled_impl _ mfine); [apply fine_shown|]. exact L.
Qed.
Print Assumptions c97_loans_in_two_halves.

(** The fee is told for the token itself only. Whatever is not the encoding of a call of the
    interface, or carries a value, is refused without effect; and only orders and loans have
    effects. *)
Theorem c97_nothing_else :
  forall T has acts reply c v d s, data_ok d ->
  let call := sending T has acts reply in
  (forall t x, is_address t -> is_u256 x ->
     if t =? lender T then reports call s "flashFee(address,uint256)" [Word t; Word x] (loan_fee T)
     else forall c', exists why, call c' 0 (calldata "flashFee(address,uint256)" [Word t; Word x]) s = (Reverted why, s) /\
            decode_reason why = Some (ERC3156UnsupportedToken t)) /\
  (~ well_formed flash_interface v d -> call c v d s = (Reverted [], s)) /\
  (snd (call c v d s) <> s ->
     (exists o, v = 0 /\ d = minted_data o /\ order_fits o) \/
     (exists r t x o, v = 0 /\ d = loan_call r t x o /\ is_address r /\ is_address t /\ is_u256 x /\ data_ok o)) /\
  (forall out s', call c v d s = (Returned out, s') -> well_formed flash_interface v d).
Proof.
  intros T has acts reply c v d s Hd. rewrite sending_eq. intros call.
  assert (Hsz : size d < two256) by (apply (Z.lt_trans _ (2 ^ 255)); [apply Hd|reflexivity]).
  pose proof (proper_or_reverts (ExampleFlash (env_of T has) (borrow (turns T acts) reply)) flash_interface
    (known_flash _ _) (exposed_flash_interface _ _) c v d s (proj1 Hd) Hsz) as P.
  change (entry _ c v d s) with (call c v d s) in P. split; [|split; [|split]].
  - intros t x Ht Hx. pose proof (fun c' => ask_fee T has (turns T acts) reply c' s t x Ht Hx) as K.
    destruct (t =? lender T); [exact K|]. intros c'. eexists. split; [exact (K c')|].
    refine (revert_flash_mint_ok (FlashMint.UnsupportedToken t) _). apply F1, address_fits, Ht.
  - destruct P as [P|P]; [intros _; exact P|contradiction].
  - intros Hs. destruct (any_call T has (turns T acts) reply c v d s Hd) as [K|K]; [contradiction (Hs K)|exact K].
  - intros out s' E. destruct P as [P|P]; [|exact P]. exfalso. clear - E P. generalize dependent (call c v d s). intros p -> P. discriminate P.
Qed.
Print Assumptions c97_nothing_else.

(** ** The supply need not be the sum, also by bytes *)
Definition story_terms : terms := mkTerms 1 0 0.
Definition only20 (a : Z) : bool := a =? 20.
Definition quiet : Z -> list Z -> visits := fun _ _ => VNil.
Definition mute : Z -> list Z -> answer := fun _ _ => Reverted [].
Definition yes : Z -> list Z -> answer := fun _ _ => Returned (word magic).
Definition plain (c : Z) (o : order) : visit := Visit c 0 (minted_data o) only20 quiet mute.
(** The borrower lets the lender take the loan back, and has five tokens minted for account 30. *)
Definition story_turn : Z -> list Z -> visits := fun _ _ => VCons (plain 20 (Allow 1 10)) (VCons (plain 30 (Issue 30 5)) VNil).
Definition story_loan : visit := Visit 9 0 (loan_call 20 1 10 [7]) only20 story_turn yes.
Definition story : visits := VCons story_loan VNil.
Definition after_story : visits := VCons story_loan (VCons (plain 30 (Issue 30 U256_MAX)) VNil).

Lemma plain_step T s b c o : mfine s b -> is_address c -> order_fits o -> decide (order_checks c o b) tt = Yes tt ->
  exists s', visit_step T (plain c o) s = (Returned (order_answer o), s') /\ mfine s' (order_done c o b).
Proof.
  intros F Hc Ho D. pose proof (order_does T only20 (turns T quiet) mute s b c o F Hc Ho) as K.
  rewrite decide_tt, D in K. exact K.
Qed.
Lemma story_terms_fit : terms_fit story_terms.
Proof. split; [split; [discriminate|reflexivity]|]. split; [exact zero_fits|split; [discriminate|reflexivity]]. Qed.
Lemma A9 : is_address 9. Proof. split; [discriminate|reflexivity]. Qed.
Lemma A20 : is_address 20. Proof. split; [discriminate|reflexivity]. Qed.
Lemma A30 : is_address 30. Proof. split; [discriminate|reflexivity]. Qed.
Lemma A1 : is_address 1. Proof. split; [discriminate|reflexivity]. Qed.
Lemma u10 : is_u256 10. Proof. split; [discriminate|reflexivity]. Qed.
Lemma u5 : is_u256 5. Proof. split; [discriminate|reflexivity]. Qed.
Lemma umax : is_u256 U256_MAX. Proof. split; [discriminate|reflexivity]. Qed.
Lemma D7 : data_ok [7]. Proof. split; [apply List.Forall_cons; [split; [discriminate|reflexivity]|apply List.Forall_nil]|reflexivity]. Qed.
Definition book1 : ledger := lent new_ledger 20 10.
Definition book2 : ledger := order_done 30 (Issue 30 5) (order_done 20 (Allow 1 10) book1).
Definition book3 : ledger := repaid story_terms (believed book1 book2) 20 10.
Definition book4 : ledger := order_done 30 (Issue 30 U256_MAX) book3.
Lemma story_turn_runs s1 : mfine s1 book1 -> mfine (visits_run story_terms (story_turn 20 (told story_terms 9 1 10 [7])) s1) book2.
Proof.
  intros F. unfold story_turn. rewrite visits_cons.
  destruct (plain_step story_terms s1 book1 20 (Allow 1 10) F A20 (conj A1 u10) eq_refl) as (s2 & E2 & F2'). rewrite E2. cbn [snd].
  rewrite visits_cons. destruct (plain_step story_terms s2 _ 30 (Issue 30 5) F2' A30 (conj A30 u5) eq_refl) as (s3 & E3 & F3'). rewrite E3. exact F3'.
Qed.
Lemma story_loan_runs : exists s, visit_step story_terms story_loan Erc20.init = (Returned (word 1), s) /\ mfine s book3.
Proof.
  unfold story_loan. rewrite visit_eq.
  pose proof (loan_does story_terms only20 (turns story_terms story_turn) yes Erc20.init new_ledger 9 20 1 10 [7] story_terms_fit init_fine A9 A20 A1 u10 D7) as L.
  cbv zeta in L.
  replace (decide (loan_checks story_terms only20 new_ledger 20 1 10) tt) with (@Yes unit tt) in L by (vm_compute; reflexivity).
  destruct L as (s1 & F1' & _ & L). specialize (L book2 (story_turn_runs s1 F1')). rewrite decide_tt in L.
  replace (decide (repay_checks story_terms (believed (lent new_ledger 20 10) book2) 20 10 (yes 20 (told story_terms 9 1 10 [7]))) tt) with (@Yes unit tt) in L.
  - exact L.
  - symmetry. unfold repay_checks. change (answers (yes 20 (told story_terms 9 1 10 [7]))) with (answers (Returned (word magic))).
    unfold answers. destruct (list_eq_dec Z.eq_dec (word magic) (word magic)) as [_|N]; [|contradiction N; reflexivity]. vm_compute. reflexivity.
Qed.
Lemma minted_ok o : data_ok (minted_data o).
Proof.
  destruct o as [a v|a v|f t v|a v]; unfold minted_data, order_calldata;
    [apply (EntryNft_props.calldata_fits "transfer(address,uint256)"%string [a; v])|apply (EntryNft_props.calldata_fits "approve(address,uint256)"%string [a; v])|
     apply (EntryNft_props.calldata_fits "transferFrom(address,address,uint256)"%string [f; t; v])|apply (EntryNft_props.calldata_fits "mint(address,uint256)"%string [a; v])]; reflexivity.
Qed.
Lemma plain_ok c o : is_address c -> visit_ok (plain c o).
Proof. intros Hc. split; [exact Hc|]. split; [apply minted_ok|]. intros r d. exact I. Qed.
Lemma story_ok : visits_ok after_story.
Proof.
  split; [|split; [apply plain_ok, A30|exact I]]. split; [exact A9|]. split.
  - apply (EntryNft_props.calldata_fits_data "flashLoan(address,address,uint256,bytes)"%string [20; 1; 10] [7]); [reflexivity|apply D7|reflexivity].
  - intros r d. split; [apply plain_ok, A20|]. split; [apply plain_ok, A30|exact I].
Qed.
(** From a new contract: one loan, in whose callback five tokens are minted for somebody. The
    supply is then reported as nothing, while a balance of five is reported; another mint of
    all but one of the [2^256] tokens is let through, and takes one token away. *)
Theorem c97_supply_is_the_sum_refuted :
  exists T loan mint s1 s2, terms_fit T /\ visits_ok (VCons loan (VCons mint VNil)) /\
  visit_step T loan Erc20.init = (Returned (word 1), s1) /\
  reports (asking T) s1 "totalSupply()" [] 0 /\ reports (asking T) s1 "balanceOf(address)" [Word 30] 5 /\
  mint = Visit 30 0 (calldata "mint(address,uint256)" [Word 30; Word U256_MAX]) only20 quiet mute /\
  visit_step T mint s1 = (Returned [], s2) /\
  reports (asking T) s2 "balanceOf(address)" [Word 30] 4.
Proof.
  destruct story_loan_runs as (s1 & E1 & F1').
  destruct (plain_step story_terms s1 book3 30 (Issue 30 U256_MAX) F1' A30 (conj A30 umax) eq_refl) as (s2 & E2 & F2').
  exists story_terms, story_loan, (plain 30 (Issue 30 U256_MAX)), s1, s2.
  split; [exact story_terms_fit|]. split; [exact story_ok|]. split; [exact E1|].
  destruct (fine_shown story_terms s1 book3 F1') as ((S1 & S2 & _) & _). destruct (fine_shown story_terms s2 _ F2') as ((_ & S3 & _) & _).
  split; [exact S1|]. split; [exact (S2 30 A30)|]. split; [reflexivity|]. split; [exact E2|]. exact (S3 30 A30).
Qed.
Print Assumptions c97_supply_is_the_sum_refuted.
(** The loan of the story is one of those that the theorem above is about. *)
Example c97_nonvacuous :
  terms_fit story_terms /\ visits_ok story /\ decide (loan_checks story_terms only20 new_ledger 20 1 10) tt = Yes tt /\
  (exists s, visit_step story_terms story_loan Erc20.init = (Returned (word 1), s) /\ shown story_terms s book3) /\
  decide (loan_checks story_terms only20 new_ledger 30 1 10) tt = No (Some (ERC3156InvalidReceiver 30)) /\
  decide (repay_checks (mkTerms 1 2 0) book1 20 10 (Returned (word 5))) tt = No (Some (ERC3156InvalidReceiver 20)).
Proof.
  split; [exact story_terms_fit|]. split; [split; [apply story_ok|exact I]|]. split; [vm_compute; reflexivity|]. split.
  - destruct story_loan_runs as (s & E & F). exists s. split; [exact E|apply fine_shown, F].
  - split; [vm_compute; reflexivity|]. unfold repay_checks, answers. destruct (list_eq_dec Z.eq_dec (word 5) (word magic)) as [N|_]; [|reflexivity].
    apply word_inj in N; [discriminate N|split; [discriminate|reflexivity]..].
Qed.
