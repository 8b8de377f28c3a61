(** Encoding and decoding of events and errors. Each signature is hashed once ([known]). *)
From Verif.Base Require Import Prelude Bytes Keccak.
From Coq Require Import String List.
From Verif.Model Require Introspection.
From Verif.Model Require Import SolAbi.
From Verif.Spec Require Import SolAbi_spec.
Import Introspection.
#[global] Open Scope Z_scope.
Local Open Scope string_scope.
Local Open Scope list_scope.
Local Open Scope Z_scope.
Opaque keccak256.

(** ** Hashes *)
Definition hash (s : string) : Z := keccak256 (bytes_of_string s).
Definition event_sigs : list string :=
  ["Transfer(address,address,uint256)"; "Approval(address,address,uint256)"; "ApprovalForAll(address,address,bool)";
   "TransferSingle(address,address,address,uint256,uint256)"; "TransferBatch(address,address,address,uint256[],uint256[])";
   "URI(string,uint256)"; "OwnershipTransferred(address,address)"; "OwnershipTransferStarted(address,address)";
   "RoleAdminChanged(bytes32,bytes32,bytes32)"; "RoleGranted(bytes32,address,address)"; "RoleRevoked(bytes32,address,address)";
   "Paused(address)"; "Unpaused(address)"; "Deposit(address,address,uint256,uint256)";
   "Withdraw(address,address,address,uint256,uint256)"; "EtherReleased(uint256)"; "ERC20Released(address,uint256)";
   "ConsecutiveTransfer(uint256,uint256,address,address)"; "MetadataUpdate(uint256)"].
Definition error_sigs : list string :=
  ["ERC20InsufficientBalance(address,uint256,uint256)"; "ERC20InvalidSender(address)"; "ERC20InvalidReceiver(address)";
   "ERC20InsufficientAllowance(address,uint256,uint256)"; "ERC20InvalidSpender(address)";
   "ERC20InvalidApprover(address)"; "ERC721InvalidOwner(address)"; "ERC721NonexistentToken(uint256)";
   "ERC721IncorrectOwner(address,uint256,address)"; "ERC721InvalidSender(address)"; "ERC721InvalidReceiver(address)";
   "ERC721InsufficientApproval(address,uint256)"; "ERC721InvalidApprover(address)"; "ERC721InvalidOperator(address)";
   "ERC1155InsufficientBalance(address,uint256,uint256,uint256)"; "ERC1155InvalidSender(address)";
   "ERC1155InvalidReceiver(address)"; "ERC1155MissingApprovalForAll(address,address)";
   "ERC1155InvalidOperator(address)"; "ERC1155InvalidArrayLength(uint256,uint256)";
   "OwnableUnauthorizedAccount(address)"; "OwnableInvalidOwner(address)";
   "AccessControlUnauthorizedAccount(address,bytes32)"; "AccessControlBadConfirmation()"; "EnforcedPause()";
   "ExpectedPause()"; "InvalidAccountNonce(address,uint256)"; "CheckpointUnorderedInsertion()";
   "ECDSAInvalidSignature()"; "ECDSAInvalidSignatureS(bytes32)"; "ERC2612ExpiredSignature(uint256)";
   "ERC2612InvalidSigner(address,address)"; "ERC3156UnsupportedToken(address)"; "ERC3156ExceededMaxLoan(uint256)";
   "ERC3156InvalidReceiver(address)"; "SafeErc20FailedOperation(address)";
   "SafeErc20FailedDecreaseAllowance(address,uint256,uint256)"; "ERC20InvalidUnderlying(address)";
   "ERC20ExceededCap(uint256,uint256)"; "ERC4626ExceededMaxDeposit(address,uint256,uint256)";
   "ERC4626ExceededMaxMint(address,uint256,uint256)"; "ERC4626ExceededMaxWithdraw(address,uint256,uint256)";
   "ERC4626ExceededMaxRedeem(address,uint256,uint256)"; "InvalidAsset(address)";
   "ERC2981InvalidDefaultRoyalty(uint256,uint256)"; "ERC2981InvalidDefaultRoyaltyReceiver(address)";
   "ERC2981InvalidTokenRoyalty(uint256,uint256,uint256)"; "ERC2981InvalidTokenRoyaltyReceiver(uint256,address)";
   "ERC721ExceededMaxBatchMint(uint256,uint256)"; "ERC721OutOfBoundsIndex(address,uint256)";
   "ERC721EnumerableForbiddenBatchMint()"; "InvalidToken(address)"].
Definition known : list (string * Z) := Eval vm_compute in map (fun s => (s, hash s)) (event_sigs ++ error_sigs).
Lemma known_ok : forallb (fun x => hash (fst x) =? snd x) known = true.
Proof. vm_cast_no_check (eq_refl true). Qed.
Fixpoint find (s : string) (l : list (string * Z)) : option Z :=
  match l with [] => None | (x, z) :: l' => if String.eqb s x then Some z else find s l' end.
Lemma find_in s l z : find s l = Some z -> In (s, z) l.
Proof.
  induction l as [|[x y] l IH]; cbn [find]; [discriminate|]. destruct (String.eqb_spec s x) as [->|].
  - intros E. inversion E. left. reflexivity.
  - right. auto.
Qed.
Lemma hash_known s z : find s known = Some z -> keccak256 (bytes_of_string s) = z.
Proof.
  intros H. apply find_in in H. pose proof known_ok as K. rewrite forallb_forall in K. apply K in H.
  cbn [fst snd] in H. apply Z.eqb_eq in H. exact H.
Qed.
Lemma selector_known name args z :
  option_map (fun h => h / 2 ^ 224) (find (signature name args) known) = Some z -> function_selector name args = z.
Proof.
  unfold function_selector. destruct (find (signature name args) known) as [h|] eqn:E; [|discriminate]. cbn [option_map].
  rewrite (hash_known _ _ E). intros H. congruence.
Qed.

(** ** Words *)
Lemma skipn_add {A} a b (l : list A) : skipn (a + b) l = skipn b (skipn a l).
Proof. revert l. induction a as [|a IH]; intros [|x l]; cbn [skipn plus]; auto. rewrite skipn_nil. reflexivity. Qed.
Definition words (l : list Z) : list Z := flat_map word l.
Lemma take_app {A} n (a b : list A) : length a = n -> firstn n (a ++ b) = a.
Proof. intros <-. rewrite firstn_app, Nat.sub_diag, firstn_all. cbn [firstn]. apply app_nil_r. Qed.
Lemma drop_app {A} n (a b : list A) : length a = n -> skipn n (a ++ b) = b.
Proof. intros <-. rewrite skipn_app, Nat.sub_diag, skipn_all. reflexivity. Qed.
Lemma of_be_word x : is_u256 x -> of_be (word x) = x.
Proof. intros H. unfold word. rewrite of_be_be_bytes. apply Z.mod_small. exact H. Qed.
Lemma words_length l : length (words l) = (32 * length l)%nat.
Proof. induction l as [|x l IH]; [reflexivity|]. unfold words in *. cbn [flat_map length]. rewrite app_length, word_length, IH. lia. Qed.
Lemma words_app l1 l2 : words (l1 ++ l2) = words l1 ++ words l2.
Proof. apply flat_map_app. Qed.
Lemma skipn_words n l : skipn (32 * n) (words l) = words (skipn n l).
Proof.
  revert l. induction n as [|n IH]; intros l; [rewrite Nat.mul_0_r; reflexivity|].
  destruct l as [|x l]; [rewrite !skipn_nil; reflexivity|]. cbn [skipn].
  replace (32 * S n)%nat with (32 + 32 * n)%nat by lia. rewrite skipn_add. unfold words at 1. cbn [flat_map].
  rewrite drop_app by apply word_length. apply IH.
Qed.
Lemma word_at_words l n :
  Forall is_u256 l -> (n < length l)%nat -> word_at (words l) (32 * Z.of_nat n) = nth n l 0.
Proof.
  intros Hl Hn. unfold word_at. replace (Z.to_nat (32 * Z.of_nat n)) with (32 * n)%nat by lia. rewrite skipn_words.
  revert l Hl Hn. induction n as [|n IH]; intros [|x l] Hl Hn; cbn [length] in Hn; try lia.
  - cbn [skipn nth]. unfold words. cbn [flat_map]. rewrite take_app by apply word_length.
    apply of_be_word. inversion Hl; assumption.
  - cbn [skipn nth]. inversion Hl; subst. apply IH; [assumption|lia].
Qed.
Lemma size_ok_words l n : size_ok (words l) (Z.of_nat n) = Nat.eqb (length l) n.
Proof.
  unfold size_ok. rewrite words_length. destruct (Nat.eqb_spec (length l) n) as [->|H].
  - apply Z.eqb_eq. lia.
  - apply Z.eqb_neq. lia.
Qed.
Lemma abi_static l : abi_params (map Word l) = words l.
Proof.
  unfold abi_params. rewrite map_length.
  assert (H1 : forall off, heads off (map Word l) = words l).
  { intros off. induction l as [|x l IH]; [reflexivity|]. cbn [map heads]. rewrite IH. reflexivity. }
  assert (H2 : flat_map tail_of (map Word l) = []) by (clear; induction l as [|x l IH]; [reflexivity|exact IH]).
  rewrite H1, H2, app_nil_r. reflexivity.
Qed.
Lemma abi_two_arrays ids vals :
  abi_params [Words ids; Words vals] =
  words (64 :: (96 + 32 * Z.of_nat (length ids)) :: Z.of_nat (length ids) :: ids ++ Z.of_nat (length vals) :: vals).
Proof.
  unfold abi_params. cbn [heads flat_map length tail_of]. rewrite app_length, word_length.
  replace (length (flat_map word ids)) with (32 * length ids)%nat by (symmetry; apply words_length).
  replace (32 * Z.of_nat 2 + Z.of_nat (32 + 32 * length ids)) with (96 + 32 * Z.of_nat (length ids)) by lia.
  change (32 * Z.of_nat 2) with 64. unfold words. cbn [flat_map]. rewrite flat_map_app. cbn [flat_map].
  rewrite !app_nil_r, !app_assoc. reflexivity.
Qed.
Lemma map_nth_seq (l : list Z) : map (fun i => nth i l 0) (seq 0 (length l)) = l.
Proof.
  induction l as [|x l IH]; [reflexivity|]. cbn [length seq map nth]. f_equal. rewrite <- seq_shift, map_map. exact IH.
Qed.
Lemma array_at_words l n a rest pre :
  l = pre ++ Z.of_nat (length a) :: a ++ rest -> length pre = n -> Forall is_u256 l ->
  array_at (words l) (32 * Z.of_nat n) = a.
Proof.
  intros El En Hl. unfold array_at.
  assert (E : word_at (words l) (32 * Z.of_nat n) = Z.of_nat (length a)).
  { rewrite word_at_words; [|exact Hl|rewrite El, app_length; cbn [length]; lia].
    rewrite El, app_nth2 by lia. rewrite En, Nat.sub_diag. reflexivity. }
  rewrite E, Nat2Z.id. etransitivity; [|apply map_nth_seq]. apply map_ext_in. intros i Hi. apply in_seq in Hi.
  replace (32 * Z.of_nat n + 32 + 32 * Z.of_nat i) with (32 * Z.of_nat (n + 1 + i)) by lia.
  rewrite word_at_words; [|exact Hl|rewrite El, app_length; cbn [length]; rewrite app_length; lia].
  rewrite El, app_nth2 by lia. rewrite En. replace (n + 1 + i - n)%nat with (S i) by lia. cbn [nth].
  apply app_nth1. lia.
Qed.
Lemma octets_string v :
  is_u256 (Z.of_nat (length v)) -> octets_at (abi_params [Octets v]) (word_at (abi_params [Octets v]) (32 * 0)) = v.
Proof.
  intros Hv. unfold abi_params. cbn [heads flat_map length tail_of]. change (32 * Z.of_nat 1) with 32.
  rewrite !app_nil_r. set (t := v ++ repeat 0 ((32 - length v mod 32) mod 32)).
  assert (E1 : word_at (word 32 ++ word (Z.of_nat (length v)) ++ t) (32 * 0) = 32).
  { unfold word_at. change (Z.to_nat (32 * 0)) with 0%nat. rewrite skipn_O.
    rewrite take_app by apply word_length.
    apply of_be_word. split; [lia|reflexivity]. }
  rewrite E1. unfold octets_at, word_at. change (Z.to_nat 32) with 32%nat. change (Z.to_nat (32 + 32)) with (32 + 32)%nat.
  assert (E2 : skipn 32 (word 32 ++ word (Z.of_nat (length v)) ++ t) = word (Z.of_nat (length v)) ++ t).
  { apply drop_app, word_length. }
  rewrite skipn_add, E2. rewrite take_app by apply word_length. rewrite of_be_word by exact Hv.
  rewrite drop_app by apply word_length. rewrite Nat2Z.id. apply take_app. reflexivity.
Qed.

(** ** Errors *)
Lemma decode_sol_error name args sel :
  option_map (fun h => h / 2 ^ 224) (find (signature name (map fst args)) known) = Some sel ->
  decode_reason (sol_error name args) = decode_selector (sel mod 2 ^ 32) (words (map snd args)).
Proof.
  intros H. apply selector_known in H. unfold decode_reason, sol_error. rewrite H.
  rewrite take_app by apply be_bytes_length. rewrite drop_app by apply be_bytes_length. rewrite of_be_be_bytes. change (256 ^ Z.of_nat 4) with (2 ^ 32).
  f_equal. unfold words. rewrite flat_map_concat_map, flat_map_concat_map, map_map. reflexivity.
Qed.
Lemma decode_evm_log name ps z :
  find (signature name (map param_type ps)) known = Some z ->
  decode (topics (evm_log name ps)) (data (evm_log name ps)) =
  decode_topics ((z mod 2 ^ 256) :: flat_map (fun p => match p with Indexed _ v => [v mod 2 ^ 256] | Plain _ _ => [] end) ps)
    (data (evm_log name ps)).
Proof.
  intros H. apply hash_known in H. unfold decode, evm_log. cbn [topics map data]. rewrite H.
  assert (W : forall x, of_be (word x) = x mod 2 ^ 256) by (intros; apply of_be_be_bytes).
  rewrite W. do 2 f_equal. clear H. induction ps as [|[t v|t a] ps IH]; [reflexivity| |exact IH].
  cbn [flat_map map app]. rewrite W. f_equal. exact IH.
Qed.
