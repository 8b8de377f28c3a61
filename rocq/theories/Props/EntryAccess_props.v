(** C94: examples/access-control behind its entry point, over all calls as bytes. *)
From Verif.Base Require Import Prelude Bytes Keccak Maps.
From Coq Require Import String List.
From Verif.Model Require Import Introspection Router Entry EntryErc20 EntryAccess.
From Verif.Model Require SolAbi Erc20 AccessControl AccessExample.
From Verif.Spec Require Import Router_spec SolAbi_spec LogMeaning_spec Errors_spec Entry_spec Ledger_spec EntryAccess_spec.
From Verif.Proofs Require Import Router_lemmas Entry_lemmas Ledger_lemmas EntryVault_lemmas EntryAccess_lemmas.
From Verif.Proofs Require SolAbi_lemmas Erc20_inv Erc20_api.
From Verif.Props Require Import SolAbi_props.
From Verif.Props Require EntryNft_props.
Import SolAbi AccessExample.
#[global] Open Scope Z_scope.
Local Open Scope list_scope.
Local Open Scope Z_scope.
Opaque keccak256.

Local Notation C := ExampleAccess.
Definition reason_access_example (e : error) : reason :=
  match e with AccessError e => reason_access e | Erc20Error e => reason_erc20 e end.
Lemma reasons_ok e : reason_fits (reason_access_example e) -> decode_reason (revert_data C e) = Some (reason_access_example e).
Proof. destruct e as [e|e]; [exact (revert_access_ok e)|exact (revert_erc20_ok e)]. Qed.
Lemma known_access : all_known (blocks C) = true.
Proof. vm_compute. reflexivity. Qed.
Definition exposed_access := Eval vm_compute in exposed (blocks C).
Lemma exposed_access_ok : exposed (blocks C) = exposed_access.
Proof. vm_compute. reflexivity. Qed.
Lemma exposed_access_interface t f : In (t, f) (exposed (blocks C)) -> In (fn_sig f, arg_types f) access_interface.
Proof.
  rewrite exposed_access_ok. intros H.
  assert (K : forallb (fun p => if in_dec EntryNft_props.same_entry (fn_sig (snd p), arg_types (snd p)) access_interface then true else false) exposed_access = true)
    by (vm_compute; reflexivity).
  rewrite forallb_forall in K. specialize (K _ H). cbn [snd] in K. destruct (in_dec _ _ _) as [Hin|]; [exact Hin|discriminate].
Qed.

(** *** The getters *)
Lemma ask_supply c s : entry C c 0 (calldata "totalSupply()" []) s = (Returned (word (Erc20.total_supply (erc20 s))), s).
Proof. change (@nil val) with (map Word []). ask C known_access "totalSupply()"%string (@nil Z) "Erc20"%string (fn "total_supply" []). rewrite <- one_word. reflexivity. Qed.
Lemma ask_balance c s a : is_address a -> entry C c 0 (calldata "balanceOf(address)" [Word a]) s = (Returned (word (Erc20.balance_of (erc20 s) a)), s).
Proof. intros H. change [Word a] with (map Word [a]). ask C known_access "balanceOf(address)"%string [a] "Erc20"%string (fn "balance_of" [Address]). rewrite <- one_word. reflexivity. Qed.
Lemma ask_allowance c s a b : is_address a -> is_address b ->
  entry C c 0 (calldata "allowance(address,address)" [Word a; Word b]) s = (Returned (word (Erc20.allowance (erc20 s) a b)), s).
Proof.
  intros H H'. change [Word a; Word b] with (map Word [a; b]). ask C known_access "allowance(address,address)"%string [a; b] "Erc20"%string (fn "allowance" [Address; Address]).
  rewrite <- one_word. reflexivity.
Qed.
Lemma ask_role c s r a : is_u256 r -> is_address a ->
  entry C c 0 (calldata "hasRole(bytes32,address)" [Word r; Word a]) s = (Returned (word (of_bool (AccessControl.has_role (access s) r a))), s).
Proof.
  intros H H'. change [Word r; Word a] with (map Word [r; a]). ask C known_access "hasRole(bytes32,address)"%string [r; a] "AccessControl"%string (fn "has_role" [B256; Address]).
  rewrite <- one_word. reflexivity.
Qed.
Lemma ask_admin c s r : is_u256 r ->
  entry C c 0 (calldata "getRoleAdmin(bytes32)" [Word r]) s = (Returned (word (AccessControl.get_role_admin (access s) r)), s).
Proof.
  intros H. change [Word r] with (map Word [r]). ask C known_access "getRoleAdmin(bytes32)"%string [r] "AccessControl"%string (fn "get_role_admin" [B256]).
  rewrite <- one_word. reflexivity.
Qed.

(** *** The book and the state *)
Definition keeps_roles (a : AccessControl.state) (b : roster) : Prop :=
  (forall r x, is_u256 r -> is_address x -> member b r x = AccessControl.has_role a r x) /\
  (forall r, is_u256 r -> admin_of b r = AccessControl.get_role_admin a r) /\
  (forall r, is_u256 (admin_of b r)).
Definition fine (s : state) (b : roster) : Prop := tfine (erc20 s) (funds b) /\ keeps_roles (access s) b.
Lemma fine_fits s b : fine s b -> roster_fits b.
Proof. intros ((_ & _ & F) & _ & _ & Ha). split; assumption. Qed.
Lemma fine_shows s b : fine s b -> shows_roster (entry C) s b.
Proof.
  intros ((_ & K & _) & A1 & A2 & _). split; [|split].
  - intros r a Hr Ha c. rewrite (ask_role c s r a Hr Ha), A1 by assumption. destruct (AccessControl.has_role _ _ _); reflexivity.
  - intros r Hr c. rewrite (ask_admin c s r Hr), A2 by assumption. reflexivity.
  - exact (ledger_shown C erc20 ask_supply ask_balance ask_allowance s (funds b) K).
Qed.
Lemma flag_fits (x : bool) : is_u256 (if x then 1 else 0).
Proof. destruct x; split; (lia || reflexivity). Qed.
Lemma shows_fine s b0 b : fine s b0 -> roster_fits b -> shows_roster (entry C) s b -> fine s b.
Proof.
  intros ((HI & _ & _) & A1 & A2 & A3) (F1' & F2) (S1 & S2 & S3). split.
  - exact (shown_ledger C erc20 ask_supply ask_balance ask_allowance s (funds b) HI F2 S3).
  - split; [|split; [|exact F1']].
    + intros r a Hr Ha. specialize (S1 r a Hr Ha 0). rewrite (ask_role 0 s r a Hr Ha) in S1.
      apply reported in S1; [|exact (flag_fits (AccessControl.has_role (access s) r a))|apply flag_fits].
      destruct (member b r a), (AccessControl.has_role (access s) r a); try reflexivity; discriminate S1.
    + intros r Hr. specialize (S2 r Hr 0). rewrite (ask_admin 0 s r Hr) in S2.
      refine (reported _ _ _ (F1' r) _ S2). rewrite <- A2 by exact Hr. apply A3.
Qed.

(** *** The functions *)
Local Notation meets := (EntryVault_lemmas.meets fine reason_access_example).
Lemma F2 x y : is_u256 x -> is_u256 y -> List.Forall is_u256 [x; y].
Proof. intros. apply List.Forall_cons; [assumption|]. apply F1. assumption. Qed.
Lemma only_meets s b c r : fine s b -> is_address c -> is_u256 r ->
  meets (on_access (AccessControl.only_role c r)) s (holds b r c) tt b.
Proof.
  intros F Hc Hr. destruct s as [t a]. pose proof F as (_ & A1 & _). unfold holds. rewrite (A1 r c Hr Hc). cbn [access].
  unfold EntryVault_lemmas.meets, on_access, AccessControl.only_role, AccessControl._check_role. mred. cbn [access erc20 decide].
  destruct (AccessControl.has_role a r c); cbn [negb].
  - eexists. split; [reflexivity|exact F].
  - eexists _, _. split; [reflexivity|]. split; [reflexivity|]. apply F2; [apply address_fits, Hc|exact Hr].
Qed.
Lemma has_set m ad l r a x r' a' :
  AccessControl.has_role (AccessControl.mk (base.insert (r, a) x m) ad l) r' a' =
  if (r' =? r) && (a' =? a) then x else AccessControl.has_role (AccessControl.mk m ad l) r' a'.
Proof.
  unfold AccessControl.has_role. cbn [AccessControl.members]. rewrite getd_set.
  destruct (stdpp.base.decide _) as [D|D].
  - injection D as -> ->. rewrite !Z.eqb_refl. reflexivity.
  - destruct ((r' =? r) && (a' =? a)) eqn:X; [|reflexivity]. exfalso. apply D. f_equal; lia.
Qed.
Lemma seat_fine t a b r x v : fine (mk t a) b ->
  fine (mk t (AccessControl.mk (base.insert (r, x) v (AccessControl.members a)) (AccessControl.admins a) (AccessControl.log a))) (seat b r x v).
Proof.
  intros (K & A1 & A2 & A3). split; [exact K|]. split; [|split; [exact A2|exact A3]].
  intros r' x' Hr Hx. cbn [access seat member]. rewrite has_set. rewrite (A1 r' x' Hr Hx). destruct a. reflexivity.
Qed.
Lemma fine_log t m ad l l' b : fine (mk t (AccessControl.mk m ad l)) b -> fine (mk t (AccessControl.mk m ad l')) b.
Proof. exact (fun H => H). Qed.
Lemma seat_same t a b r x v : fine (mk t a) b -> is_u256 r -> is_address x -> AccessControl.has_role a r x = v -> fine (mk t a) (seat b r x v).
Proof.
  intros (K & A1 & A2 & A3) Hr Hx Hv. split; [exact K|]. split; [|split; [exact A2|exact A3]].
  intros r' x' Hr' Hx'. cbn [access seat member]. destruct ((r' =? r) && (x' =? x)) eqn:E; [|apply A1; assumption].
  replace r' with r by lia. replace x' with x by lia. symmetry. exact Hv.
Qed.
Lemma grant_meets s b c r x : fine s b -> is_u256 r -> is_address x ->
  meets (on_access (AccessControl._grant_role c r x ;;; ret tt)) s [] tt (seat b r x true).
Proof.
  intros F Hr Hx. destruct s as [t a]. unfold EntryVault_lemmas.meets, on_access, AccessControl._grant_role. mred. cbn [access erc20 decide].
  destruct (AccessControl.has_role a r x) eqn:E.
  - eexists. split; [reflexivity|]. apply seat_same; assumption.
  - eexists. split; [reflexivity|]. exact (seat_fine t a b r x true F).
Qed.
Lemma revoke_meets s b c r x : fine s b -> is_u256 r -> is_address x ->
  meets (on_access (AccessControl._revoke_role c r x ;;; ret tt)) s [] tt (seat b r x false).
Proof.
  intros F Hr Hx. destruct s as [t a]. unfold EntryVault_lemmas.meets, on_access, AccessControl._revoke_role. mred. cbn [access erc20 decide].
  destruct (AccessControl.has_role a r x) eqn:E.
  - eexists. split; [reflexivity|]. exact (seat_fine t a b r x false F).
  - eexists. split; [reflexivity|]. apply seat_same; assumption.
Qed.
Lemma on_access_bind {A A'} (m : M AccessControl.state AccessControl.error A) (f : A -> M AccessControl.state AccessControl.error A') s :
  on_access (bind m f) s = bind (on_access m) (fun x => on_access (f x)) s.
Proof.
  unfold on_access. mred. destruct s as [t a]. cbn [access erc20]. destruct (m a) as [[x|e|] a']; reflexivity.
Qed.
Lemma admin_fits s b r : fine s b -> is_u256 r -> is_u256 (AccessControl.get_role_admin (access s) r).
Proof. intros (_ & _ & A2 & A3) Hr. rewrite <- A2 by exact Hr. apply A3. Qed.
(** A function of the role's administrator. *)
Lemma by_admin s b c r (m : M AccessControl.state AccessControl.error unit) b' : fine s b -> is_address c -> is_u256 r ->
  (forall s', fine s' b -> meets (on_access m) s' [] tt b') ->
  meets (on_access (ad <~ gets (fun s => AccessControl.get_role_admin s r) ;; AccessControl.only_role c ad ;;; m)) s (holds b (admin_of b r) c) tt b'.
Proof.
  intros F Hc Hr Hm. pose proof F as (_ & _ & A2 & _). rewrite (A2 r Hr).
  rewrite <- (app_nil_r (holds b _ c)).
  apply (meets_ext fine reason_access_example (bind (on_access (AccessControl.only_role c (AccessControl.get_role_admin (access s) r))) (fun _ => on_access m))).
  { rewrite <- on_access_bind. reflexivity. }
  refine (meets_bind fine reason_access_example _ _ _ _ _ b _ _ _ (only_meets s b c _ F Hc (admin_fits s b r F Hr)) _).
  intros s' _ F'. apply Hm, F'.
Qed.
Lemma give_meets s b c r x : fine s b -> is_address c -> is_u256 r -> is_address x ->
  meets (on_access (AccessControl.grant_role c r x)) s (holds b (admin_of b r) c) tt (seat b r x true).
Proof. intros F Hc Hr Hx. apply by_admin; auto. intros s' F'. apply grant_meets; assumption. Qed.
Lemma take_meets s b c r x : fine s b -> is_address c -> is_u256 r -> is_address x ->
  meets (on_access (AccessControl.revoke_role c r x)) s (holds b (admin_of b r) c) tt (seat b r x false).
Proof. intros F Hc Hr Hx. apply by_admin; auto. intros s' F'. apply revoke_meets; assumption. Qed.
Lemma leave_meets s b c r x : fine s b -> is_address c -> is_u256 r -> is_address x ->
  meets (on_access (AccessControl.renounce_role c r x)) s [(negb (c =? x), Some AccessControlBadConfirmation)] tt (seat b r x false).
Proof.
  intros F Hc Hr Hx. change [(negb (c =? x), Some AccessControlBadConfirmation)] with ([(negb (c =? x), Some AccessControlBadConfirmation)] ++ []).
  unfold AccessControl.renounce_role. refine (meets_ext _ _ _ _ _ _ _ _ (eq_sym (on_access_bind _ _ s)) _).
  refine (meets_bind fine reason_access_example _ _ _ _ _ b _ _ _ _ _).
  - unfold EntryVault_lemmas.meets, on_access. mred. destruct s as [t a]. cbn [access erc20 decide]. destruct (negb (c =? x)).
    + eexists _, _. split; [reflexivity|]. split; [reflexivity|]. apply List.Forall_nil.
    + eexists. split; [reflexivity|exact F].
  - intros s' _ F'. apply revoke_meets; assumption.
Qed.
Lemma reassign_meets s b r n : fine s b -> is_u256 r -> is_u256 n ->
  meets (set_role_admin r n) s [] tt (mkRoster (member b) (at_key (admin_of b) r n) (funds b)).
Proof.
  intros (K & A1 & A2 & A3) Hr Hn. unfold EntryVault_lemmas.meets, set_role_admin, on_access, AccessControl._set_role_admin. mred. destruct s as [t a].
  cbn [access erc20 decide]. eexists. split; [reflexivity|]. split; [exact K|]. split; [exact A1|]. split.
  - intros r' Hr'. unfold AccessControl.get_role_admin. cbn [access AccessControl.admins admin_of]. rewrite mget_set. unfold at_key.
    destruct (stdpp.base.decide (r = r')) as [->|D]; [rewrite Z.eqb_refl; reflexivity|]. replace (r' =? r) with false by lia. apply A2, Hr'.
  - intros r'. cbn [admin_of]. unfold at_key. destruct (r' =? r); [exact Hn|apply A3].
Qed.
Lemma transfer_role_fits : is_u256 transfer_role.
Proof. split; [discriminate|reflexivity]. Qed.
Lemma promote_meets s b c x : fine s b -> is_address c -> is_address x ->
  meets (make_admin c x) s (holds b root_role c ++ holds b (admin_of b transfer_role) c) tt (seat b transfer_role x true).
Proof.
  intros F Hc Hx. unfold make_admin.
  refine (meets_bind fine reason_access_example _ _ _ _ _ b _ _ _ (only_meets s b c root_role F Hc zero_fits) _).
  intros s' _ F'. exact (give_meets s' b c transfer_role x F' Hc transfer_role_fits Hx).
Qed.
Lemma money_meets s b c o : fine s b -> is_address c -> holder_order o ->
  meets (on_erc20 (order_flag c o)) s (order_checks c o (funds b)) [Word 1] (mkRoster (member b) (admin_of b) (order_effect c o (funds b))).
Proof.
  intros [K A] Hc Ho. apply (lift_meets fine tfine reason_access_example reason_erc20 Erc20Error erc20 (fun t s => mk t (access s))
    (fun l => mkRoster (member b) (admin_of b) l) (order_flag c o) s (order_checks c o (funds b))); [reflexivity| |exact (order_flag_meets _ _ c o K Hc Ho)].
  intros t Kt. split; [exact Kt|exact A].
Qed.
Lemma draw_meets s b c f t v : fine s b -> is_address c -> holder_order (Draw f t v) ->
  meets (flag (transfer_from c f t v)) s (holds b transfer_role c ++ order_checks c (Draw f t v) (funds b)) [Word 1]
    (mkRoster (member b) (admin_of b) (order_effect c (Draw f t v) (funds b))).
Proof.
  intros F Hc Ho.
  apply (meets_ext fine reason_access_example (bind (on_access (AccessControl.only_role c transfer_role)) (fun _ => on_erc20 (order_flag c (Draw f t v))))).
  { unfold transfer_from, flag, bind. destruct (on_access (AccessControl.only_role c TRANSFER_ROLE) s) as [[[]|e|] s'] eqn:E;
      change (AccessControl.only_role c transfer_role) with (AccessControl.only_role c TRANSFER_ROLE); rewrite E; try reflexivity.
    exact (eq_sym (flag_lift Erc20Error erc20 (fun t s => mk t (access s)) (Erc20.transfer_from c f t v) s')). }
  refine (meets_bind fine reason_access_example _ _ _ _ _ b _ _ _ (only_meets s b c transfer_role F Hc transfer_role_fits) _).
  intros s' _ F'. exact (money_meets s' b c (Draw f t v) F' Hc Ho).
Qed.

(** *** The requests *)
Lemma request_does s b c q : fine s b -> is_address c -> role_request_fits q ->
  settled (entry C) fine s c (role_data q) (role_result q) (role_ideal c q b).
Proof.
  intros F Hc Hq. destruct q as [r a|r a|r a|r n|a|[a v|a v|f t v|a v]]; cbn [role_request_fits holder_order order_fits] in Hq; unfold role_data, order_calldata, role_result, role_ideal.
  - refine (settle C fine reason_access_example reasons_ok (nothing (on_access (AccessControl.grant_role c r a))) s _ [] _ c _ [] _ eq_refl _).
    + change [Word r; Word a] with (map Word [r; a]). ask C known_access "grantRole(bytes32,address)"%string [r; a] "AccessControl"%string (fn "grant_role" [B256; Address]). reflexivity.
    + apply nothing_meets, give_meets; tauto.
  - refine (settle C fine reason_access_example reasons_ok (nothing (on_access (AccessControl.revoke_role c r a))) s _ [] _ c _ [] _ eq_refl _).
    + change [Word r; Word a] with (map Word [r; a]). ask C known_access "revokeRole(bytes32,address)"%string [r; a] "AccessControl"%string (fn "revoke_role" [B256; Address]). reflexivity.
    + apply nothing_meets, take_meets; tauto.
  - refine (settle C fine reason_access_example reasons_ok (nothing (on_access (AccessControl.renounce_role c r a))) s _ [] _ c _ [] _ eq_refl _).
    + change [Word r; Word a] with (map Word [r; a]). ask C known_access "renounceRole(bytes32,address)"%string [r; a] "AccessControl"%string (fn "renounce_role" [B256; Address]). reflexivity.
    + apply nothing_meets, leave_meets; tauto.
  - refine (settle C fine reason_access_example reasons_ok (nothing (set_role_admin r n)) s [] [] _ c _ [] _ eq_refl _).
    + change [Word r; Word n] with (map Word [r; n]). ask C known_access "setRoleAdmin(bytes32,bytes32)"%string [r; n] "AccessControlExample"%string (fn "set_role_admin" [B256; B256]). reflexivity.
    + apply nothing_meets, reassign_meets; tauto.
  - refine (settle C fine reason_access_example reasons_ok (nothing (make_admin c a)) s _ [] _ c _ [] _ eq_refl _).
    + change [Word a] with (map Word [a]). ask C known_access "makeAdmin(address)"%string [a] "AccessControlExample"%string (fn "make_admin" [Address]). reflexivity.
    + apply nothing_meets, promote_meets; tauto.
  - refine (settle C fine reason_access_example reasons_ok (on_erc20 (order_flag c (Pay a v))) s _ [Word 1] _ c _ _ _ (one_word 1) (money_meets s b c (Pay a v) F Hc Hq)).
    change [Word a; Word v] with (map Word [a; v]). ask C known_access "transfer(address,uint256)"%string [a; v] "Erc20"%string (fn "transfer" [Address; U256]).
    exact (f_equal (fun x => finish C x s) (flag_lift Erc20Error erc20 (fun t s => mk t (access s)) (Erc20.transfer c a v) s)).
  - refine (settle C fine reason_access_example reasons_ok (on_erc20 (order_flag c (Allow a v))) s _ [Word 1] _ c _ _ _ (one_word 1) (money_meets s b c (Allow a v) F Hc Hq)).
    change [Word a; Word v] with (map Word [a; v]). ask C known_access "approve(address,uint256)"%string [a; v] "Erc20"%string (fn "approve" [Address; U256]).
    exact (f_equal (fun x => finish C x s) (flag_lift Erc20Error erc20 (fun t s => mk t (access s)) (Erc20.approve c a v) s)).
  - refine (settle C fine reason_access_example reasons_ok (flag (transfer_from c f t v)) s _ [Word 1] _ c _ _ _ (one_word 1) (draw_meets s b c f t v F Hc Hq)).
    change [Word f; Word t; Word v] with (map Word [f; t; v]). ask C known_access "transferFrom(address,address,uint256)"%string [f; t; v] "AccessControlExample"%string (fn "transfer_from" [Address; Address; U256]).
    reflexivity.
  - contradiction.
Qed.

Lemma only_role_entry c r s : is_u256 r -> entry C c 0 (calldata "onlyRole(bytes32)" [Word r]) s =
  (if AccessControl.has_role (access s) r c then Returned [] else Reverted (revert_access (AccessControl.UnauthorizedAccount c r)), s).
Proof.
  intros H. change [Word r] with (map Word [r]). ask C known_access "onlyRole(bytes32)"%string [r] "AccessControl"%string (fn "only_role" [B256]).
  change (finish C (nothing (on_access (AccessControl.only_role c r)) s) s =
    (if AccessControl.has_role (access s) r c then Returned [] else Reverted (revert_access (AccessControl.UnauthorizedAccount c r)), s)).
  destruct s as [t a]. unfold nothing, on_access, AccessControl.only_role, AccessControl._check_role. mred. cbn [access erc20].
  destruct (AccessControl.has_role a r c); reflexivity.
Qed.
Lemma only_quiet c r s : snd (finish C (nothing (on_access (AccessControl.only_role c r)) s) s) = s.
Proof.
  destruct s as [t a]. unfold nothing, on_access, AccessControl.only_role, AccessControl._check_role. mred. cbn [access erc20].
  destruct (AccessControl.has_role a r c); reflexivity.
Qed.
Lemma any_call c v d s : List.Forall is_byte d -> size d < two256 ->
  snd (entry C c v d s) = s \/ exists q, v = 0 /\ d = role_data q /\ role_request_fits q.
Proof.
  intros Hb Hsz. destruct (entry_cases C c v d s known_access Hb Hsz) as [->|(t & f & args & Hin & -> & Ht & Hd & He)]; [left; reflexivity|].
  rewrite exposed_access_ok in Hin. unfold exposed_access in Hin. rewrite He. clear He Hb Hsz.
  one_of Hin Ht.
  all: try (left; reflexivity).
  all: match goal with |- context [fn_sig ?f] => let x := eval vm_compute in (fn_sig f) in change (fn_sig f) with x end.
  Ltac req r := right; exists r; split; [reflexivity|]; split; [reflexivity|cbn [role_request_fits holder_order order_fits]; tauto].
  all: match goal with
    | |- context [calldata "transfer(address,uint256)" [Word ?a; Word ?v]] => req (Money (Pay a v))
    | |- context [calldata "approve(address,uint256)" [Word ?a; Word ?v]] => req (Money (Allow a v))
    | |- context [calldata "transferFrom(address,address,uint256)" [Word ?a; Word ?b; Word ?v]] => req (Money (Draw a b v))
    | |- context [calldata "grantRole(bytes32,address)" [Word ?a; Word ?v]] => req (Give a v)
    | |- context [calldata "revokeRole(bytes32,address)" [Word ?a; Word ?v]] => req (Take a v)
    | |- context [calldata "renounceRole(bytes32,address)" [Word ?a; Word ?v]] => req (Leave a v)
    | |- context [calldata "setRoleAdmin(bytes32,bytes32)" [Word ?a; Word ?v]] => req (Reassign a v)
    | |- context [calldata "makeAdmin(address)" [Word ?a]] => req (Promote a)
    | |- _ => left
    end.
  match goal with K : is_u256 ?r |- _ => apply (only_quiet c r s) end.
Qed.
Lemma init_fine deployer t : is_address deployer -> Erc20_inv.Inv t ->
  fine (mk t (access (init deployer))) (new_roster deployer (ledger_of t)).
Proof.
  intros Hd HI. destruct (ledger_of_ok t HI) as [F K]. split; [split; [exact HI|split; [exact K|exact F]]|].
  split; [|split; [reflexivity|intros r; exact zero_fits]].
  intros r x Hr Hx. cbn [access new_roster member].
  change (access (init deployer)) with (AccessControl.mk (base.insert (0, deployer) true base.empty) base.empty [AccessControl.RoleGranted 0 deployer deployer]).
  rewrite has_set. unfold root_role. destruct ((r =? 0) && (x =? deployer)); [reflexivity|]. unfold AccessControl.has_role. cbn [AccessControl.members].
  rewrite getd_empty. reflexivity.
Qed.

(** * C94 *)
(** Deployed over any ledger that the library's token can have. *)
Definition deployed (deployer : Z) (h0 : list (Z * Erc20.op)) : state := mk (Erc20.run h0 Erc20.init) (access (init deployer)).
Lemma deployed_fine deployer h0 : is_address deployer -> Erc20.hist_wf h0 ->
  fine (deployed deployer h0) (new_roster deployer (ledger_of (Erc20.run h0 Erc20.init))).
Proof. intros Hd Hh. apply init_fine; [exact Hd|]. apply Erc20_inv.inv_run; [exact Hh|apply Erc20_inv.inv_init]. Qed.
Lemma reach_fine deployer h0 h : is_address deployer -> Erc20.hist_wf h0 -> sent h ->
  exists b, fine (raw_run C h (deployed deployer h0)) b.
Proof.
  intros Hd Hh0 Hh. exact (run_fine C fine role_data role_result role_request_fits role_ideal any_call request_does h _ _ Hh (deployed_fine deployer h0 Hd Hh0)).
Qed.
Definition shown_roster (s : state) (b : roster) : Prop := shows_roster (entry C) s b /\ roster_fits b.
Lemma fine_shown s b : fine s b -> shown_roster s b.
Proof. intros F. split; [apply fine_shows, F|apply (fine_fits s), F]. Qed.
Lemma settled_impl {B S0} (call : Z -> Z -> list Z -> S0 -> answer * S0) (P P' : S0 -> B -> Prop) s c d r v :
  (forall s' b, P s' b -> P' s' b) -> settled call P s c d r v -> settled call P' s c d r v.
Proof. intros H. destruct v as [b|[w|]]; cbn [settled]; [|auto..]. intros (s' & E & K). eauto. Qed.

(** After any history of calls, each of any bytes, the answers of the getters describe a book,
    and whatever is sent next is answered as the ideal book says, with the reason it gives;
    the getters then describe the ideal successor. *)
Theorem c94_access_token_is_ideal :
  forall deployer h0 h, is_address deployer -> Erc20.hist_wf h0 -> sent h ->
  let s := raw_run C h (deployed deployer h0) in
  (exists b, shown_roster s b) /\
  (forall b c q, shown_roster s b -> is_address c -> role_request_fits q ->
     settled (entry C) shown_roster s c (role_data q) (role_result q) (role_ideal c q b)) /\
  (exists l, shown_roster (deployed deployer h0) (new_roster deployer l)) /\
  shown_roster (init deployer) (new_roster deployer new_ledger).
Proof.
  intros deployer h0 h Hd Hh0 Hh s. destruct (reach_fine deployer h0 h Hd Hh0 Hh) as [b0 F0]. fold s in F0. split; [|split; [|split]].
  - exists b0. apply fine_shown, F0.
  - intros b c q [Sb Fb] Hc Hq. apply (settled_impl _ fine); [exact fine_shown|].
    apply request_does; [apply (shows_fine s b0); assumption|assumption..].
  - eexists. apply fine_shown, (deployed_fine deployer h0 Hd Hh0).
  - apply fine_shown. change (init deployer) with (deployed deployer []). exact (deployed_fine deployer [] Hd (List.Forall_nil _)).
Qed.
Print Assumptions c94_access_token_is_ideal.

(** Nothing but the requests does anything, and nothing but the interface answers. *)
Theorem c94_nothing_else :
  forall c v d s, List.Forall is_byte d -> size d < two256 ->
  (~ well_formed access_interface v d -> entry C c v d s = (Reverted [], s)) /\
  (snd (entry C c v d s) <> s -> exists q, v = 0 /\ d = role_data q /\ role_request_fits q).
Proof.
  intros c v d s Hb Hsz. split.
  - intros N. destruct (proper_or_reverts C access_interface known_access exposed_access_interface c v d s Hb Hsz) as [K|K]; [exact K|contradiction].
  - intros N. destruct (any_call c v d s Hb Hsz) as [K|K]; [contradiction|exact K].
Qed.
Print Assumptions c94_nothing_else.

(** onlyRole(role): the caller learns whether they hold the role, and nothing changes. *)
Theorem c94_only_role :
  forall deployer h0 h, is_address deployer -> Erc20.hist_wf h0 -> sent h ->
  let s := raw_run C h (deployed deployer h0) in
  forall b c r, shown_roster s b -> is_address c -> is_u256 r ->
  settled (entry C) (fun s' b' => s' = s /\ b' = b) s c (calldata "onlyRole(bytes32)" [Word r]) [] (decide (holds b r c) b).
Proof.
  intros deployer h0 h Hd Hh0 Hh s b c r [Sb Fb] Hc Hr. destruct (reach_fine deployer h0 h Hd Hh0 Hh) as [b0 F0]. fold s in F0.
  pose proof (shows_fine s b0 b F0 Fb Sb) as (_ & A1 & _). unfold holds. rewrite (A1 r c Hr Hc).
  pose proof (only_role_entry c r s Hr) as E. cbn [decide]. destruct (AccessControl.has_role (access s) r c); cbn [negb settled].
  - exists s. split; [exact E|auto].
  - eexists. split; [exact E|]. apply (revert_access_ok (AccessControl.UnauthorizedAccount c r)). apply F2; [apply address_fits, Hc|exact Hr].
Qed.
Print Assumptions c94_only_role.

(** Role of an account as the contract reports it. *)
Definition has (s : state) (r a : Z) (x : bool) : Prop :=
  reports (entry C) s "hasRole(bytes32,address)" [Word r; Word a] (if x then 1 else 0).
Lemma has_member s b r a x : fine s b -> is_u256 r -> is_address a -> has s r a x -> member b r a = x.
Proof.
  intros F Hr Ha H. pose proof F as (_ & A1 & _). rewrite (A1 r a Hr Ha). specialize (H 0). rewrite (ask_role 0 s r a Hr Ha) in H.
  apply reported in H; [|exact (flag_fits (AccessControl.has_role (access s) r a))|apply flag_fits].
  destruct x, (AccessControl.has_role (access s) r a); try reflexivity; discriminate H.
Qed.
Lemma member_has s b r a : fine s b -> is_u256 r -> is_address a -> has s r a (member b r a).
Proof. intros F Hr Ha. exact (proj1 (fine_shows s b F) r a Hr Ha). Qed.
Lemma run_app {S E} (K : contract S E) h1 h2 s : raw_run K h2 (raw_run K h1 s) = raw_run K (h1 ++ h2) s.
Proof. unfold raw_run. rewrite fold_left_app. reflexivity. Qed.
Local Notation invariant := (fun P h Hh => run_ideal C fine role_data role_result role_request_fits role_ideal any_call request_does P h Hh).

Ltac verdict H := unfold holds in H; cbn [app decide] in H;
  repeat match type of H with context [if ?x then _ else _] => let X := fresh "V" in destruct x eqn:X; [discriminate H|]; cbn [decide] in H end;
  try (injection H as <-).
(** An account without roles gets none unless a call gives it one. *)
Theorem c94_no_role_by_itself :
  forall deployer h0 h1 h2 a, is_address deployer -> Erc20.hist_wf h0 -> sent h1 -> sent h2 -> is_address a ->
  let s1 := raw_run C h1 (deployed deployer h0) in
  let s2 := raw_run C h2 s1 in
  (forall r, is_u256 r -> has s1 r a false) ->
  (forall c r, In (c, 0, role_data (Give r a)) h2 -> False) ->
  (forall c, In (c, 0, role_data (Promote a)) h2 -> False) ->
  forall r, is_u256 r -> has s2 r a false.
Proof.
  intros deployer h0 h1 h2 a Hd Hh0 Hh1 Hh2 Ha s1 s2 H N1 N2 r Hr. destruct (reach_fine deployer h0 h1 Hd Hh0 Hh1) as [b0 F0]. fold s1 in F0.
  destruct (invariant (fun b => forall r, is_u256 r -> member b r a = false) h2 Hh2) with (s := s1) (b := b0) as (b & F & P).
  - intros c q b b' Hin Hq P E r' Hr'. destruct q as [x y|x y|x y|x n|y|o]; unfold role_ideal in E.
    + verdict E. cbn [seat member]. destruct ((r' =? x) && (a =? y)) eqn:D; [|apply P, Hr'].
      exfalso. apply (N1 c x). replace a with y by (clear - D; lia). exact Hin.
    + verdict E. cbn [seat member]. destruct (_ && _); [reflexivity|apply P, Hr'].
    + verdict E. cbn [seat member]. destruct (_ && _); [reflexivity|apply P, Hr'].
    + injection E as <-. apply P, Hr'.
    + verdict E. cbn [seat member]. destruct ((r' =? transfer_role) && (a =? y)) eqn:D; [|apply P, Hr'].
      exfalso. apply (N2 c). replace a with y by (clear - D; lia). exact Hin.
    + rewrite decide_tt in E. destruct (decide _ tt); [|discriminate E]. injection E as <-. apply P, Hr'.
  - exact F0.
  - intros r' Hr'. apply (has_member s1 b0 r' a false F0 Hr' Ha (H r' Hr')).
  - fold s2 in F. rewrite <- (P r Hr). apply member_has; assumption.
Qed.
Print Assumptions c94_no_role_by_itself.

(** Roles come from holders of roles: when nobody holds any, nobody ever will. *)
Theorem c94_roles_from_roles :
  forall deployer h0 h1 h2, is_address deployer -> Erc20.hist_wf h0 -> sent h1 -> sent h2 ->
  let s1 := raw_run C h1 (deployed deployer h0) in
  let s2 := raw_run C h2 s1 in
  (forall r a, is_u256 r -> is_address a -> has s1 r a false) ->
  forall r a, is_u256 r -> is_address a -> has s2 r a false.
Proof.
  intros deployer h0 h1 h2 Hd Hh0 Hh1 Hh2 s1 s2 H r a Hr Ha. destruct (reach_fine deployer h0 h1 Hd Hh0 Hh1) as [b0 F0]. fold s1 in F0.
  assert (Sd : forall c d, In (c, 0, d) h2 -> is_address c).
  { intros c d Hin. unfold sent in Hh2. rewrite List.Forall_forall in Hh2. apply (Hh2 _ Hin). }
  destruct (invariant (fun b => (forall r, is_u256 (admin_of b r)) /\ forall r a, is_u256 r -> is_address a -> member b r a = false) h2 Hh2)
    with (s := s1) (b := b0) as (b & F & _ & P).
  - intros c q b b' Hin Hq [P0 P] E. assert (Hc := Sd _ _ Hin).
    destruct q as [x y|x y|x y|x n|y|o]; unfold role_ideal in E; cbn [role_request_fits] in Hq.
    + unfold holds in E. rewrite P in E; [discriminate E|apply P0|exact Hc].
    + unfold holds in E. rewrite P in E; [discriminate E|apply P0|exact Hc].
    + verdict E. split; [exact P0|]. intros r' a' Hr' Ha'. cbn [seat member]. destruct (_ && _); [reflexivity|apply P; assumption].
    + injection E as <-. split; [|exact P]. intros r'. cbn [admin_of]. unfold at_key. destruct (r' =? x); [tauto|apply P0].
    + unfold holds in E. rewrite (P root_role c zero_fits Hc) in E. discriminate E.
    + rewrite decide_tt in E. destruct (decide _ tt); [|discriminate E]. injection E as <-. split; [exact P0|exact P].
  - exact F0.
  - split; [apply (fine_fits s1 b0 F0)|]. intros r' a' Hr' Ha'. apply (has_member s1 b0 r' a' false F0 Hr' Ha' (H r' a' Hr' Ha')).
  - fold s2 in F. rewrite <- (P r a Hr Ha). apply member_has; assumption.
Qed.
Print Assumptions c94_roles_from_roles.

(** [setRoleAdmin] is open. Whoever holds any role at all makes themselves holder of every
    other role, with two calls. *)
Theorem c94_any_member_takes_any_role :
  forall deployer h0 h c r r', is_address deployer -> Erc20.hist_wf h0 -> sent h ->
  is_address c -> is_u256 r -> is_u256 r' ->
  let s := raw_run C h (deployed deployer h0) in
  has s r c true ->
  exists s1 s2, entry C c 0 (role_data (Reassign r' r)) s = (Returned [], s1) /\
    entry C c 0 (role_data (Give r' c)) s1 = (Returned [], s2) /\ has s2 r' c true.
Proof.
  intros deployer h0 h c r r' Hd Hh0 Hh Hc Hr Hr' s H. destruct (reach_fine deployer h0 h Hd Hh0 Hh) as [b F]. fold s in F.
  pose proof (has_member s b r c true F Hr Hc H) as M.
  destruct (request_does s b c (Reassign r' r) F Hc (conj Hr' Hr)) as (s1 & E1 & G1).
  pose proof (request_does s1 _ c (Give r' c) G1 Hc (conj Hr' Hc)) as D. unfold role_ideal, holds in D. cbn [admin_of member] in D.
  unfold at_key in D. rewrite Z.eqb_refl, M in D. cbn [negb decide settled] in D. destruct D as (s2 & E2 & G2).
  exists s1, s2. split; [exact E1|]. split; [exact E2|].
  pose proof (member_has s2 _ r' c G2 Hr' Hc) as K. cbn [seat member] in K. rewrite !Z.eqb_refl in K. exact K.
Qed.
Print Assumptions c94_any_member_takes_any_role.

(** And anybody at all shuts every administrator of a role out of it, with one call. *)
Theorem c94_anybody_freezes_a_role :
  forall deployer h0 h c r x, is_address deployer -> Erc20.hist_wf h0 -> sent h ->
  is_address c -> is_u256 r -> is_u256 x ->
  let s := raw_run C h (deployed deployer h0) in
  (forall a, is_address a -> has s x a false) ->
  exists s1, entry C c 0 (role_data (Reassign r x)) s = (Returned [], s1) /\
    forall admin a, is_address admin -> is_address a ->
    (exists d, entry C admin 0 (role_data (Give r a)) s1 = (Reverted d, s1) /\ decode_reason d = Some (AccessControlUnauthorizedAccount admin x)) /\
    (exists d, entry C admin 0 (role_data (Take r a)) s1 = (Reverted d, s1) /\ decode_reason d = Some (AccessControlUnauthorizedAccount admin x)).
Proof.
  intros deployer h0 h c r x Hd Hh0 Hh Hc Hr Hx s H. destruct (reach_fine deployer h0 h Hd Hh0 Hh) as [b F]. fold s in F.
  destruct (request_does s b c (Reassign r x) F Hc (conj Hr Hx)) as (s1 & E1 & G1).
  exists s1. split; [exact E1|]. intros admin a Had Ha.
  pose proof (has_member s b x admin false F Hx Had (H admin Had)) as M.
  pose proof (request_does s1 _ admin (Give r a) G1 Had (conj Hr Ha)) as D1.
  pose proof (request_does s1 _ admin (Take r a) G1 Had (conj Hr Ha)) as D2.
  unfold role_ideal, holds in D1, D2. cbn [admin_of member] in D1, D2. unfold at_key in D1, D2. rewrite Z.eqb_refl, M in D1, D2. split; [exact D1|exact D2].
Qed.
Print Assumptions c94_anybody_freezes_a_role.

(** So it is false that who was given the transfer role alone cannot help themselves to the root
    role. *)
Theorem c94_transfer_role_cannot_escalate_refuted :
  exists deployer c r', is_address deployer /\ is_address c /\ is_u256 r' /\
  ~ (forall h, sent h -> (forall x v d, In (x, v, d) h -> x = c) ->
       has (init deployer) r' c false -> has (snd (entry C deployer 0 (role_data (Promote c)) (init deployer))) r' c false ->
       has (raw_run C h (snd (entry C deployer 0 (role_data (Promote c)) (init deployer)))) r' c false).
Proof.
  exists 5, 7, root_role. assert (H5 : is_address 5) by (unfold is_address; lia). assert (H7 : is_address 7) by (unfold is_address; lia).
  split; [exact H5|]. split; [exact H7|]. split; [exact zero_fits|]. intros K.
  pose proof (deployed_fine 5 [] H5 (List.Forall_nil _)) as F. change (deployed 5 []) with (init 5) in F.
  pose proof (request_does _ _ 5 (Promote 7) F H5 H7) as D. cbn [role_ideal] in D. unfold holds in D.
  cbn [new_roster member admin_of app decide negb settled andb Z.eqb Pos.eqb root_role] in D. destruct D as (s1 & E1 & G1). rewrite E1 in K. cbn [snd] in K.
  set (h := [(7, 0, role_data (Reassign root_role transfer_role)); (7, 0, role_data (Give root_role 7))]) in *.
  assert (Sh : sent h).
  { apply List.Forall_cons; [|apply List.Forall_cons; [|apply List.Forall_nil]]; cbn [fst snd role_data]; (split; [exact H7|]).
    - exact (data_bytes "setRoleAdmin(bytes32,bytes32)"%string [root_role; transfer_role] eq_refl).
    - exact (data_bytes "grantRole(bytes32,address)"%string [root_role; 7] eq_refl). }
  assert (Own : forall x v d, In (x, v, d) h -> x = 7).
  { intros x v d [Hx|[Hx|[]]]; apply pair_equal_spec in Hx; destruct Hx as [Hx _]; apply pair_equal_spec in Hx; symmetry; apply Hx. }
  assert (N0 : has (init 5) root_role 7 false) by (exact (member_has _ _ root_role 7 F zero_fits H7)).
  assert (N1 : has s1 root_role 7 false) by (exact (member_has _ _ root_role 7 G1 zero_fits H7)).
  pose proof (K h Sh Own N0 N1) as K'. clear K N0 N1 Own Sh.
  destruct (request_does s1 _ 7 (Reassign root_role transfer_role) G1 H7 (conj zero_fits transfer_role_fits)) as (s2 & E2 & G2).
  pose proof (request_does s2 _ 7 (Give root_role 7) G2 H7 (conj zero_fits H7)) as D. unfold role_ideal, holds in D.
  cbn [admin_of member seat at_key] in D. unfold at_key in D. rewrite !Z.eqb_refl in D. cbn [andb negb decide settled] in D. destruct D as (s3 & E3 & G3).
  assert (R : raw_run C h s1 = s3).
  { change (raw_run C h s1) with (snd (entry C 7 0 (role_data (Give root_role 7)) (snd (entry C 7 0 (role_data (Reassign root_role transfer_role)) s1)))).
    rewrite E2. cbn [snd]. rewrite E3. reflexivity. }
  rewrite R in K'. pose proof (has_member s3 _ root_role 7 false G3 zero_fits H7 K') as Bad. discriminate Bad.
Qed.
Print Assumptions c94_transfer_role_cannot_escalate_refuted.

(** The deployer makes 8 a spender, 7 allows 8 to spend 60, 8 moves 50 to 9; 9 may not. *)
Example c94_in_use :
  exists s1 s2 s3 d, let s0 := deployed 5 [(1, Erc20.OMint 7 100)] in
  entry C 5 0 (role_data (Promote 8)) s0 = (Returned [], s1) /\
  entry C 7 0 (role_data (Money (Allow 8 60))) s1 = (Returned (word 1), s2) /\
  entry C 8 0 (role_data (Money (Draw 7 9 50))) s2 = (Returned (word 1), s3) /\
  reports (entry C) s3 "balanceOf(address)" [Word 7] 50 /\ reports (entry C) s3 "balanceOf(address)" [Word 9] 50 /\
  reports (entry C) s3 "allowance(address,address)" [Word 7; Word 8] 10 /\
  entry C 9 0 (role_data (Money (Draw 7 9 50))) s3 = (Reverted d, s3) /\
  decode_reason d = Some (AccessControlUnauthorizedAccount 9 transfer_role).
Proof.
  assert (Ad : forall x, 0 <= x < 10 -> is_address x) by (unfold is_address; lia).
  assert (U : forall x, 0 <= x < 1000 -> is_u256 x) by (intros x Hx; split; [lia|]; transitivity 1000; [lia|reflexivity]).
  assert (Hw : Erc20.hist_wf [(1, Erc20.OMint 7 100)]).
  { apply List.Forall_cons; [|apply List.Forall_nil]. exact (U 100 ltac:(lia)). }
  pose proof (deployed_fine 5 _ (Ad 5 ltac:(lia)) Hw) as F0. set (s0 := deployed 5 _) in *.
  destruct (request_does s0 _ 5 (Promote 8) F0 (Ad 5 ltac:(lia)) (Ad 8 ltac:(lia))) as (s1 & E1 & F1').
  destruct (request_does s1 _ 7 (Money (Allow 8 60)) F1' (Ad 7 ltac:(lia)) (conj (Ad 8 ltac:(lia)) (U 60 ltac:(lia)))) as (s2 & E2 & F2').
  destruct (request_does s2 _ 8 (Money (Draw 7 9 50)) F2' (Ad 8 ltac:(lia)) (conj (Ad 7 ltac:(lia)) (conj (Ad 9 ltac:(lia)) (U 50 ltac:(lia))))) as (s3 & E3 & F3').
  destruct (request_does s3 _ 9 (Money (Draw 7 9 50)) F3' (Ad 9 ltac:(lia)) (conj (Ad 7 ltac:(lia)) (conj (Ad 9 ltac:(lia)) (U 50 ltac:(lia))))) as (d & E4 & R4).
  destruct (fine_shows _ _ F3') as (_ & _ & _ & B1 & B2).
  exists s1, s2, s3, d. split; [exact E1|]. split; [exact E2|]. split; [exact E3|].
  split; [exact (B1 7 (Ad 7 ltac:(lia)))|]. split; [exact (B1 9 (Ad 9 ltac:(lia)))|].
  split; [exact (B2 7 8 (Ad 7 ltac:(lia)) (Ad 8 ltac:(lia)))|]. split; [exact E4|exact R4].
Qed.
