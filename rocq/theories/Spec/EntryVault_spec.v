(** A vault and a wrapper over a token, as their users know them: two ideal ledgers, exact
    fractions, and what each call does to both. *)
From Verif.Base Require Import Prelude Bytes.
From Coq Require Import String List.
From Verif.Model Require Import Introspection.
From Verif.Model Require SolAbi Entry.
From Verif.Spec Require Import SolAbi_spec Entry_spec Ledger_spec.
Import SolAbi Entry.
#[global] Open Scope Z_scope.
Local Open Scope string_scope.
Local Open Scope list_scope.
Local Open Scope Z_scope.

(** The books of both contracts: the token's, and that of the shares (or wrapped tokens). *)
Record books := mkBooks { coins : ledger; shares : ledger }.
Definition books_fit (b : books) : Prop := ledger_fits (coins b) /\ ledger_fits (shares b).
Definition new_books : books := mkBooks new_ledger new_ledger.

Definition order_data (o : order) : list Z :=
  match o with
  | Pay to v => calldata "transfer(address,uint256)" [Word to; Word v]
  | Allow sp v => calldata "approve(address,uint256)" [Word sp; Word v]
  | Draw f t v => calldata "transferFrom(address,address,uint256)" [Word f; Word t; Word v]
  | Issue a v => calldata "mint(address,uint256)" [Word a; Word v]
  end.
Definition order_result (o : order) : list Z := match o with Issue _ _ => [] | _ => word 1 end.
(** Whether a ledger would refuse an order. *)
Definition refused (c : Z) (o : order) (b : ledger) : bool :=
  match decide (order_checks c o b) tt with Yes _ => false | No _ => true end.
(** Taking [v] out of circulation on behalf of [c]. *)
Definition may_destroy (b : ledger) (c o v : Z) : checks :=
  (if c =? o then [] else may_spend b o c v) ++
  [(o =? 0, Some (ERC20InvalidSender 0)); (l_balance b o <? v, Some (ERC20InsufficientBalance o (l_balance b o) v))].
Definition after_destroying (b : ledger) (c o v : Z) : ledger :=
  with_balances (if c =? o then b else after_spending b o c v) (l_supply b - v) (at_key (l_balance b) o (l_balance b o - v)).

(** * The vault at [this] over the token at [coin] *)
Inductive request :=
| Deposit (assets receiver : Z) | Mint (amount receiver : Z)
| Withdraw (assets receiver owner : Z) | Redeem (amount receiver owner : Z)
| OnShares (o : order) | OnCoin (o : order).
Definition request_fits (r : request) : Prop :=
  match r with
  | Deposit a r | Mint a r => is_u256 a /\ is_address r
  | Withdraw a r o | Redeem a r o => is_u256 a /\ is_address r /\ is_address o
  | OnShares (Issue _ _) => False
  | OnShares o | OnCoin o => order_fits o
  end.
Definition request_to (this coin : Z) (r : request) : Z := match r with OnCoin _ => coin | _ => this end.
Definition request_data (r : request) : list Z :=
  match r with
  | Deposit a r => calldata "deposit(uint256,address)" [Word a; Word r]
  | Mint s r => calldata "mint(uint256,address)" [Word s; Word r]
  | Withdraw a r o => calldata "withdraw(uint256,address,address)" [Word a; Word r; Word o]
  | Redeem s r o => calldata "redeem(uint256,address,address)" [Word s; Word r; Word o]
  | OnShares o | OnCoin o => order_data o
  end.
Section vault.
  Context (this coin offset : Z).
  (** What the vault holds and has issued, each with the virtual amount. *)
  Definition held (b : books) : Z := l_balance (coins b) this + 1.
  Definition issued (b : books) : Z := l_supply (shares b) + 10 ^ offset.
  Definition down (n d : Z) : Z := n / d.
  Definition up (n d : Z) : Z := - (- n / d).
  Definition shares_for (round : Z -> Z -> Z) (b : books) (assets : Z) : Z := round (assets * issued b) (held b).
  Definition assets_for (round : Z -> Z -> Z) (b : books) (amount : Z) : Z := round (amount * held b) (issued b).
  (** Every number must fit a word; otherwise the call fails without a reason. *)
  Definition fits_words (b : books) (q : Z) : bool := (held b <? two256) && (issued b <? two256) && (q <? two256).
  Definition priced (b : books) (q : Z) : checks := [(negb (fits_words b q), None)].
  Definition money_in (b : books) (c r assets amount : Z) : checks :=
    (refused this (Draw c this assets) (coins b), Some (SafeErc20FailedOperation coin)) :: order_checks c (Issue r amount) (shares b).
  Definition after_in (b : books) (c r assets amount : Z) : books :=
    mkBooks (order_effect this (Draw c this assets) (coins b)) (order_effect c (Issue r amount) (shares b)).
  Definition money_out (b : books) (c r o assets amount : Z) : checks :=
    may_destroy (shares b) c o amount ++ [(refused this (Pay r assets) (coins b), Some (SafeErc20FailedOperation coin))].
  Definition after_out (b : books) (c r o assets amount : Z) : books :=
    mkBooks (order_effect this (Pay r assets) (coins b)) (after_destroying (shares b) c o amount).
  (** The verdict on a request of [c]: the answer and the new books, or why not. *)
  Definition ideal (c : Z) (r : request) (b : books) : verdict (list Z * books) :=
    match r with
    | Deposit a r => let q := shares_for down b a in decide (priced b q ++ money_in b c r a q) (word q, after_in b c r a q)
    | Mint s r => let q := assets_for up b s in decide (priced b q ++ money_in b c r q s) (word q, after_in b c r q s)
    | Withdraw a r o =>
        let top := assets_for down b (l_balance (shares b) o) in let q := shares_for up b a in
        decide (priced b top ++ [(top <? a, Some (ERC4626ExceededMaxWithdraw o a top))] ++ priced b q ++ money_out b c r o a q)
          (word q, after_out b c r o a q)
    | Redeem s r o =>
        let top := l_balance (shares b) o in let q := assets_for down b s in
        decide ([(top <? s, Some (ERC4626ExceededMaxRedeem o s top))] ++ priced b q ++ money_out b c r o q s)
          (word q, after_out b c r o q s)
    | OnShares o => decide (order_checks c o (shares b)) (order_result o, mkBooks (coins b) (order_effect c o (shares b)))
    | OnCoin o => decide (order_checks c o (coins b)) (order_result o, mkBooks (order_effect c o (coins b)) (shares b))
    end.
  (** The questions with one number as answer, where there is one. *)
  Inductive question :=
  | TotalAssets | MaxDeposit (a : Z) | MaxMint (a : Z) | MaxWithdraw (a : Z) | MaxRedeem (a : Z)
  | ConvertToShares (n : Z) | ConvertToAssets (n : Z)
  | PreviewDeposit (n : Z) | PreviewMint (n : Z) | PreviewWithdraw (n : Z) | PreviewRedeem (n : Z).
  Definition question_fits (q : question) : Prop :=
    match q with
    | TotalAssets => True
    | MaxDeposit a | MaxMint a | MaxWithdraw a | MaxRedeem a => is_address a
    | ConvertToShares n | ConvertToAssets n | PreviewDeposit n | PreviewMint n | PreviewWithdraw n | PreviewRedeem n => is_u256 n
    end.
  Definition question_data (q : question) : list Z :=
    match q with
    | TotalAssets => calldata "totalAssets()" []
    | MaxDeposit a => calldata "maxDeposit(address)" [Word a]
    | MaxMint a => calldata "maxMint(address)" [Word a]
    | MaxWithdraw a => calldata "maxWithdraw(address)" [Word a]
    | MaxRedeem a => calldata "maxRedeem(address)" [Word a]
    | ConvertToShares n => calldata "convertToShares(uint256)" [Word n]
    | ConvertToAssets n => calldata "convertToAssets(uint256)" [Word n]
    | PreviewDeposit n => calldata "previewDeposit(uint256)" [Word n]
    | PreviewMint n => calldata "previewMint(uint256)" [Word n]
    | PreviewWithdraw n => calldata "previewWithdraw(uint256)" [Word n]
    | PreviewRedeem n => calldata "previewRedeem(uint256)" [Word n]
    end.
  Definition ideal_answer (q : question) (b : books) : answer :=
    let n x := if fits_words b x then Returned (word x) else Reverted [] in
    match q with
    | TotalAssets => Returned (word (l_balance (coins b) this))
    | MaxDeposit _ | MaxMint _ => Returned (word U256_MAX)
    | MaxWithdraw a => n (assets_for down b (l_balance (shares b) a))
    | MaxRedeem a => Returned (word (l_balance (shares b) a))
    | ConvertToShares x | PreviewDeposit x => n (shares_for down b x)
    | ConvertToAssets x | PreviewRedeem x => n (assets_for down b x)
    | PreviewMint x => n (assets_for up b x)
    | PreviewWithdraw x => n (shares_for up b x)
    end.
End vault.

(** * The wrapper *)
Inductive wrequest := DepositFor (account v : Z) | WithdrawTo (account v : Z) | OnWrapped (o : order) | OnUnderlying (o : order).
Definition wrequest_fits (r : wrequest) : Prop :=
  match r with
  | DepositFor a v | WithdrawTo a v => is_address a /\ is_u256 v
  | OnWrapped (Issue _ _) => False
  | OnWrapped o | OnUnderlying o => order_fits o
  end.
Definition wrequest_to (this coin : Z) (r : wrequest) : Z := match r with OnUnderlying _ => coin | _ => this end.
Definition wrequest_data (r : wrequest) : list Z :=
  match r with
  | DepositFor a v => calldata "depositFor(address,uint256)" [Word a; Word v]
  | WithdrawTo a v => calldata "withdrawTo(address,uint256)" [Word a; Word v]
  | OnWrapped o | OnUnderlying o => order_data o
  end.
Definition wideal (this coin c : Z) (r : wrequest) (b : books) : verdict (list Z * books) :=
  match r with
  | DepositFor a v =>
      decide ([(c =? this, Some (ERC20InvalidSender this)); (a =? this, Some (ERC20InvalidReceiver this))] ++ money_in this coin b c a v v)
        (word 1, after_in this b c a v v)
  | WithdrawTo a v =>
      decide ((a =? this, Some (ERC20InvalidReceiver this)) :: money_out this coin b c a c v v) (word 1, after_out this b c a c v v)
  | OnWrapped o => decide (order_checks c o (shares b)) (order_result o, mkBooks (coins b) (order_effect c o (shares b)))
  | OnUnderlying o => decide (order_checks c o (coins b)) (order_result o, mkBooks (order_effect c o (coins b)) (shares b))
  end.

(** * What the answers say: [call to sender value input] *)
Section seen.
  Context {S : Type} (call : Z -> Z -> Z -> list Z -> S -> answer * S).
  Definition says (to : Z) (s : S) (sig : string) (args : list val) (v : Z) : Prop :=
    forall c, call to c 0 (calldata sig args) s = (Returned (word v), s).
  Definition shows_ledger (to : Z) (s : S) (b : ledger) : Prop :=
    says to s "totalSupply()" [] (l_supply b) /\
    (forall a, is_address a -> says to s "balanceOf(address)" [Word a] (l_balance b a)) /\
    (forall o sp, is_address o -> is_address sp -> says to s "allowance(address,address)" [Word o; Word sp] (l_allowance b o sp)).
  Definition shows (this coin : Z) (s : S) (b : books) : Prop := shows_ledger coin s (coins b) /\ shows_ledger this s (shares b).
  Definition follows (this coin : Z) (s : S) (to c : Z) (data : list Z) (x : verdict (list Z * books)) : Prop :=
    match x with
    | Yes (out, b') => exists s', call to c 0 data s = (Returned out, s') /\ shows this coin s' b' /\ books_fit b'
    | No (Some why) => exists d, call to c 0 data s = (Reverted d, s) /\ decode_reason d = Some why
    | No None => call to c 0 data s = (Reverted [], s)
    end.
End seen.

(** * The public functions *)
Definition token_interface : list (string * list abi_type) :=
  [("totalSupply()", []); ("balanceOf(address)", [Address]); ("allowance(address,address)", [Address; Address]);
   ("transfer(address,uint256)", [Address; U256]); ("approve(address,uint256)", [Address; U256]);
   ("transferFrom(address,address,uint256)", [Address; Address; U256])].
Definition vault_interface : list (string * list abi_type) :=
  token_interface ++
  [("name()", []); ("symbol()", []); ("decimals()", []); ("asset()", []); ("totalAssets()", []);
   ("convertToShares(uint256)", [U256]); ("convertToAssets(uint256)", [U256]);
   ("maxDeposit(address)", [Address]); ("previewDeposit(uint256)", [U256]); ("deposit(uint256,address)", [U256; Address]);
   ("maxMint(address)", [Address]); ("previewMint(uint256)", [U256]); ("mint(uint256,address)", [U256; Address]);
   ("maxWithdraw(address)", [Address]); ("previewWithdraw(uint256)", [U256]);
   ("withdraw(uint256,address,address)", [U256; Address; Address]);
   ("maxRedeem(address)", [Address]); ("previewRedeem(uint256)", [U256]);
   ("redeem(uint256,address,address)", [U256; Address; Address])].
Definition coin_interface : list (string * list abi_type) := ("mint(address,uint256)", [Address; U256]) :: token_interface.
Definition wrapper_interface : list (string * list abi_type) :=
  token_interface ++
  [("underlying()", []); ("decimals()", []); ("depositFor(address,uint256)", [Address; U256]); ("withdrawTo(address,uint256)", [Address; U256])].
(** The encoding of a function of an interface without value. *)
Definition proper_call (I : list (string * list abi_type)) (value : Z) (input : list Z) : Prop :=
  value = 0 /\ exists sig ts args, In (sig, ts) I /\ List.Forall2 has_type ts args /\ input = calldata sig args.
(** Calls are bytes, and senders addresses. *)
Definition sane_chain (h : list (Z * (Z * Z * list Z))) : Prop :=
  List.Forall (fun x => List.Forall is_byte (snd (snd x)) /\ size (snd (snd x)) < two256 /\ is_address (fst (fst (snd x)))) h.
(** The contract at [this] calls nobody by itself. *)
Definition others_call (this : Z) (h : list (Z * (Z * Z * list Z))) : Prop := List.Forall (fun x => fst (fst (snd x)) <> this) h.
