(** A token with flash loans as its users know it: an ideal ledger modulo [2^256], what a loan
    asks for before and after the borrower's turn, and what the borrower is told. Nothing here
    refers to the state of the contract. *)
From Verif.Base Require Import Prelude Bytes.
From Coq Require Import String List.
From Verif.Model Require Import Introspection.
From Verif.Model Require SolAbi Entry.
From Verif.Model Require Import EntryFlash.
From Verif.Spec Require Import Router_spec SolAbi_spec Entry_spec Ledger_spec EntryAccess_spec.
Import SolAbi Entry.
#[global] Open Scope Z_scope.
Local Open Scope string_scope.
Local Open Scope list_scope.
Local Open Scope Z_scope.

Definition terms_fit (T : terms) : Prop := is_address (lender T) /\ is_u256 (loan_fee T) /\ is_address (fee_to T).
(** The Keccak-256 hash of "ERC3156FlashBorrower.onFlashLoan". *)
Definition magic : Z := 0x439148f0bbc682ca079e46d6e2c2f0c1e3b820f1a291b069d8882abf8cf18dd9.

(** Balances and the supply are kept modulo [2^256]. *)
Definition reduced (b : ledger) : ledger :=
  mkLedger (l_supply b mod two256) (fun a => l_balance b a mod two256) (l_allowance b).
Definition order_done (c : Z) (o : order) (b : ledger) : ledger := reduced (order_effect c o b).
Definition minted_data (o : order) : list Z :=
  match o with Issue a v => calldata "mint(address,uint256)" [Word a; Word v] | _ => order_calldata o end.
Definition order_answer (o : order) : list Z := match o with Issue _ _ => [] | _ => word 1 end.

(** * A loan *)
Definition most (T : terms) (b : ledger) (token : Z) : Z := if token =? lender T then U256_MAX - l_supply b else 0.
(** What is asked before the borrower's turn, and the ledger that the borrower meets. *)
Definition loan_checks (T : terms) (code : Z -> bool) (b : ledger) (receiver token v : Z) : checks :=
  [(most T b token <? v, Some (ERC3156ExceededMaxLoan (most T b token)));
   (negb (token =? lender T), Some (ERC3156UnsupportedToken token));
   (negb (code receiver), Some (ERC3156InvalidReceiver receiver))] ++ order_checks 0 (Issue receiver v) b.
Definition lent (b : ledger) (receiver v : Z) : ledger := order_done 0 (Issue receiver v) b.
Definition loan_call (r t v : Z) (d : list Z) : list Z := calldata "flashLoan(address,address,uint256,bytes)" [Word r; Word t; Word v; Octets d].
(** What the borrower is told. *)
Definition told (T : terms) (c token v : Z) (data : list Z) : list Z :=
  calldata "onFlashLoan(address,address,uint256,uint256,bytes)" [Word c; Word token; Word v; Word (loan_fee T); Octets data].
(** After the borrower's turn the supply is believed to be what it was before. *)
Definition believed (before after : ledger) : ledger := mkLedger (l_supply before) (l_balance after) (l_allowance after).
Definition may_burn (b : ledger) (a v : Z) : checks :=
  [(a =? 0, Some (ERC20InvalidSender 0)); (l_balance b a <? v, Some (ERC20InsufficientBalance a (l_balance b a) v))].
Definition burnt (b : ledger) (a v : Z) : ledger :=
  reduced (with_balances b (l_supply b - v) (at_key (l_balance b) a (l_balance b a - v))).
Definition pays_nobody (T : terms) : bool := (loan_fee T =? 0) || (fee_to T =? 0).
Definition answers (a : answer) : bool :=
  match a with Returned d => if list_eq_dec Z.eq_dec d (word magic) then true else false | Reverted _ => false end.
Definition repay_checks (T : terms) (b : ledger) (receiver v : Z) (a : answer) : checks :=
  let sum := v + loan_fee T in
  [(negb (answers a), Some (ERC3156InvalidReceiver receiver)); (two256 <=? sum, None)] ++
  may_spend b receiver (lender T) sum ++
  (if pays_nobody T then may_burn b receiver sum
   else may_burn b receiver v ++ may_move (burnt b receiver v) receiver (fee_to T) (loan_fee T)).
Definition repaid (T : terms) (b : ledger) (receiver v : Z) : ledger :=
  let sum := v + loan_fee T in
  let b' := after_spending b receiver (lender T) sum in
  if pays_nobody T then burnt b' receiver sum
  else order_done receiver (Pay (fee_to T) (loan_fee T)) (burnt b' receiver v).

(** * Visits *)
Definition data_ok (d : list Z) : Prop := List.Forall is_byte d /\ size d < 2 ^ 255.
Fixpoint visit_ok (x : visit) : Prop :=
  match x with
  | Visit c _ input _ acts _ => is_address c /\ data_ok input /\ forall r d, visits_ok (acts r d)
  end
with visits_ok (xs : visits) : Prop :=
  match xs with VNil => True | VCons x xs' => visit_ok x /\ visits_ok xs' end.

Definition flash_interface : list (string * list abi_type) :=
  token_interface ++
  [("maxFlashLoan(address)", [Address]); ("flashFee(address,uint256)", [Address; U256]);
   ("flashLoan(address,address,uint256,bytes)", [Address; Address; U256; Bytes]); ("mint(address,uint256)", [Address; U256])].
(** A call in a world: who has code, and what borrowers do and answer. *)
Definition sending (T : terms) (has : Z -> bool) (acts : Z -> list Z -> visits) (reply : Z -> list Z -> answer)
    (c v : Z) (d : list Z) (s : Erc20.state) : answer * Erc20.state := visit_step T (Visit c v d has acts reply) s.
(** What the answers show; nobody takes a loan here, so no borrower matters. *)
Definition asking (T : terms) (c v : Z) (d : list Z) (s : Erc20.state) : answer * Erc20.state :=
  visit_step T (Visit c v d (fun _ => false) (fun _ _ => VNil) (fun _ _ => Reverted [])) s.
Definition shown (T : terms) (s : Erc20.state) (b : ledger) : Prop :=
  shows_ledger (asking T) s b /\ ledger_fits b /\
  forall t, is_address t -> reports (asking T) s "maxFlashLoan(address)" [Word t] (most T b t).
