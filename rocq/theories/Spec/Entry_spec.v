(** A token as its users know it: what they send, what they get back, and an ideal ledger
    over the integers that predicts it. Nothing here refers to the state of the contract. *)
From Verif.Base Require Import Prelude Bytes.
From Coq Require Import String List.
From Verif.Model Require Import Introspection.
From Verif.Model Require SolAbi Entry.
From Verif.Spec Require Import Router_spec SolAbi_spec Utf8_spec.
Import SolAbi Entry.
#[global] Open Scope Z_scope.
Local Open Scope string_scope.
Local Open Scope list_scope.
Local Open Scope Z_scope.

(** * Calldata as Solidity writes it: selector of the signature, encoded arguments *)
Definition calldata (sig : string) (args : list val) : list Z := be_bytes 4 (sig_selector sig) ++ abi_params args.
Definition is_address (a : Z) : Prop := 0 <= a < 2 ^ 160.
(** Values that have a type. *)
Definition word_of_type (t : abi_type) (v : Z) : Prop :=
  match t with
  | Address => is_address v
  | U256 | B256 => is_u256 v
  | u64 => 0 <= v < 2 ^ 64
  | u8 => 0 <= v < 2 ^ 8
  | bool_ => v = 0 \/ v = 1
  | FixedBytes4 => exists x, 0 <= x < 2 ^ 32 /\ v = x * 2 ^ 224
  | _ => False
  end.
Definition has_type (t : abi_type) (a : val) : Prop :=
  match a with
  | Word v => word_of_type t v
  | Words l => exists t', t = Vec t' /\ List.Forall (word_of_type t') l
  | Octets l => (t = Bytes \/ t = String_) /\ match t with String_ => text l | _ => List.Forall is_byte l end
  end.

(** * An ideal token *)
Record book := mkBook {
  b_supply : Z;
  b_balance : Z -> Z;
  b_allowance : Z -> Z -> Z;
  b_paused : bool;
  b_cap : Z
}.
Definition at_key (f : Z -> Z) (a v : Z) : Z -> Z := fun x => if x =? a then v else f x.
Definition moved (f : Z -> Z) (from to v : Z) : Z -> Z :=
  let g := at_key f from (f from - v) in at_key g to (g to + v).
Definition set_allowance (b : book) (o sp v : Z) : book :=
  mkBook (b_supply b) (b_balance b) (fun x y => if (x =? o) && (y =? sp) then v else b_allowance b x y) (b_paused b) (b_cap b).
Definition set_balances (b : book) (supply : Z) (f : Z -> Z) : book :=
  mkBook supply f (b_allowance b) (b_paused b) (b_cap b).
Definition set_paused (b : book) (p : bool) : book := mkBook (b_supply b) (b_balance b) (b_allowance b) p (b_cap b).

Inductive request :=
| Transfer (to v : Z) | Approve (spender v : Z) | TransferFrom (from to v : Z)
| Mint (to v : Z) | Burn (v : Z) | BurnFrom (from v : Z) | Pause | Unpause.
(** What a user sends for it, and gets back on success. *)
Definition request_data (r : request) : list Z :=
  match r with
  | Transfer to v => calldata "transfer(address,uint256)" [Word to; Word v]
  | Approve sp v => calldata "approve(address,uint256)" [Word sp; Word v]
  | TransferFrom f t v => calldata "transferFrom(address,address,uint256)" [Word f; Word t; Word v]
  | Mint a v => calldata "mint(address,uint256)" [Word a; Word v]
  | Burn v => calldata "burn(uint256)" [Word v]
  | BurnFrom a v => calldata "burnFrom(address,uint256)" [Word a; Word v]
  | Pause => calldata "pause()" []
  | Unpause => calldata "unpause()" []
  end.
Definition request_result (r : request) : list Z :=
  match r with
  | Transfer _ _ | Approve _ _ | TransferFrom _ _ _ => word 1
  | _ => []
  end.
Definition request_fits (r : request) : Prop :=
  match r with
  | Transfer a v | Approve a v | Mint a v | BurnFrom a v => is_address a /\ is_u256 v
  | TransferFrom a b v => is_address a /\ is_address b /\ is_u256 v
  | Burn v => is_u256 v
  | Pause | Unpause => True
  end.

(** The verdict on a request: a new ledger, or a reason ([None]: no reason given). *)
Inductive verdict := Granted (b : book) | Denied (r : option reason).
Fixpoint judge (l : list (bool * option reason)) (b : book) : verdict :=
  match l with
  | [] => Granted b
  | (bad, r) :: l' => if bad then Denied r else judge l' b
  end.
Definition running (b : book) : list (bool * option reason) := [(b_paused b, Some EnforcedPause)].
Definition spending (b : book) (o sp v : Z) : list (bool * option reason) :=
  let al := b_allowance b o sp in
  if al =? U256_MAX then [] else
  [(al <? v, Some (ERC20InsufficientAllowance sp al v)); (o =? 0, Some (ERC20InvalidApprover 0));
   (sp =? 0, Some (ERC20InvalidSpender 0))].
Definition spent (b : book) (o sp v : Z) : book :=
  let al := b_allowance b o sp in if al =? U256_MAX then b else set_allowance b o sp (al - v).
Definition enough (b : book) (a v : Z) : list (bool * option reason) :=
  [(b_balance b a <? v, Some (ERC20InsufficientBalance a (b_balance b a) v))].
Definition ideal (c : Z) (r : request) (b : book) : verdict :=
  match r with
  | Transfer to v =>
      judge (running b ++ [(c =? 0, Some (ERC20InvalidSender 0)); (to =? 0, Some (ERC20InvalidReceiver 0))] ++ enough b c v)
        (set_balances b (b_supply b) (moved (b_balance b) c to v))
  | Approve sp v =>
      judge [(c =? 0, Some (ERC20InvalidApprover 0)); (sp =? 0, Some (ERC20InvalidSpender 0))] (set_allowance b c sp v)
  | TransferFrom f t v =>
      judge (running b ++ spending b f c v ++ [(f =? 0, Some (ERC20InvalidSender 0)); (t =? 0, Some (ERC20InvalidReceiver 0))] ++ enough b f v)
        (set_balances (spent b f c v) (b_supply b) (moved (b_balance b) f t v))
  | Mint a v =>
      judge (running b ++
             [(two256 <=? b_supply b + v, None);
              (b_cap b <? b_supply b + v, Some (ERC20ExceededCap (b_supply b + v) (b_cap b)));
              (a =? 0, Some (ERC20InvalidReceiver 0))])
        (set_balances b (b_supply b + v) (at_key (b_balance b) a (b_balance b a + v)))
  | Burn v =>
      judge (running b ++ [(c =? 0, Some (ERC20InvalidSender 0))] ++ enough b c v)
        (set_balances b (b_supply b - v) (at_key (b_balance b) c (b_balance b c - v)))
  | BurnFrom a v =>
      judge (running b ++ spending b a c v ++ [(a =? 0, Some (ERC20InvalidSender 0))] ++ enough b a v)
        (set_balances (spent b a c v) (b_supply b - v) (at_key (b_balance b) a (b_balance b a - v)))
  | Pause => judge (running b) (set_paused b true)
  | Unpause => judge [(negb (b_paused b), Some ExpectedPause)] (set_paused b false)
  end.
Definition new_book (cap : Z) : book := mkBook 0 (fun _ => 0) (fun _ _ => 0) false cap.

(** Words of a ledger fit. *)
Definition book_fits (b : book) : Prop :=
  is_u256 (b_supply b) /\ is_u256 (b_cap b) /\ (forall a, is_u256 (b_balance b a)) /\ (forall o sp, is_u256 (b_allowance b o sp)).

(** * What the answers say *)
Section seen.
  Context {S : Type} (call : Z -> Z -> list Z -> S -> answer * S).
  (** Anybody may ask; the answer is a word, and asking changes nothing. *)
  Definition tells (s : S) (sig : string) (args : list val) (v : Z) : Prop :=
    forall c, call c 0 (calldata sig args) s = (Returned (word v), s).
  Definition shows (s : S) (b : book) : Prop :=
    tells s "totalSupply()" [] (b_supply b) /\
    (forall a, is_address a -> tells s "balanceOf(address)" [Word a] (b_balance b a)) /\
    (forall o sp, is_address o -> is_address sp -> tells s "allowance(address,address)" [Word o; Word sp] (b_allowance b o sp)) /\
    tells s "paused()" [] (if b_paused b then 1 else 0) /\
    tells s "cap()" [] (b_cap b).
  (** The answer to a request follows the verdict on it. *)
  Definition follows (s : S) (b : book) (c : Z) (r : request) : Prop :=
    match ideal c r b with
    | Granted b' => exists s', call c 0 (request_data r) s = (Returned (request_result r), s') /\ shows s' b' /\ book_fits b'
    | Denied (Some why) => exists d, call c 0 (request_data r) s = (Reverted d, s) /\ decode_reason d = Some why
    | Denied None => call c 0 (request_data r) s = (Reverted [], s)
    end.
End seen.

(** * The public functions of examples/erc20 *)
Definition erc20_interface : list (string * list abi_type) :=
  [("totalSupply()", []); ("balanceOf(address)", [Address]); ("allowance(address,address)", [Address; Address]);
   ("transfer(address,uint256)", [Address; U256]); ("approve(address,uint256)", [Address; U256]);
   ("transferFrom(address,address,uint256)", [Address; Address; U256]);
   ("name()", []); ("symbol()", []); ("decimals()", []);
   ("mint(address,uint256)", [Address; U256]); ("burn(uint256)", [U256]); ("burnFrom(address,uint256)", [Address; U256]);
   ("cap()", []); ("paused()", []); ("pause()", []); ("unpause()", []);
   ("supportsInterface(bytes4)", [FixedBytes4])].
(** A call that carries no value and is the encoding of a public function applied to values of
    the types of its parameters. *)
Definition proper (value : Z) (input : list Z) : Prop :=
  value = 0 /\ exists sig ts args, In (sig, ts) erc20_interface /\ List.Forall2 has_type ts args /\ input = calldata sig args.
(** Calldata are bytes, and fewer than [2^256] of them. *)
Definition sane (h : list (Z * Z * list Z)) : Prop :=
  List.Forall (fun c => List.Forall is_byte (snd c) /\ size (snd c) < two256) h.
