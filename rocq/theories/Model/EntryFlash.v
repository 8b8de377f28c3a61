(** The deployed examples/erc20-flash-mint as a table of functions for the entry point of
    Model/Entry.v, with borrowers that call back as bytes.

    A visit is one call into the contract: sender, value and calldata; which addresses hold
    code at that time; and, should it be a loan that gets as far as the callback, the visits
    that the borrower and whoever it talks to make meanwhile, and what the borrower answers.
    Both may depend on the receiver and on the calldata of the callback. The example is built
    with the [reentrant] feature (Cargo.toml). Accessors remember, as in Model/FlashCache.v. *)
From Verif.Base Require Import Prelude Bytes Keccak.
From Coq Require Import String List.
From Verif.Model Require Import Introspection Router Entry EntryErc20 EntryErc721 FlashCache.
From Verif.Model Require SolAbi Erc20 FlashMint.
Import SolAbi.
#[global] Open Scope Z_scope.
Local Open Scope string_scope.
Local Open Scope list_scope.
Local Open Scope Z_scope.

(** What is fixed when the contract is deployed: its address, and the two words that the
    constructor writes (constructor.sol of the example). *)
Record terms := mkTerms { lender : Z; loan_fee : Z; fee_to : Z }.
(** flash_mint.rs:37-39 *)
Definition BORROWER_CALLBACK_VALUE : Z := keccak256 (bytes_of_string "ERC3156FlashBorrower.onFlashLoan").
Definition env_of (T : terms) (code : Z -> bool) : FlashMint.env :=
  FlashMint.mkenv (lender T) code BORROWER_CALLBACK_VALUE (loan_fee T) (fee_to T).

(** flash_mint.rs:85-125: the [sol_interface!] of the borrower; the arguments are those of
    330-339. *)
Definition loan_data (initiator token value fee : Z) (data : list Z) : list Z :=
  be_bytes 4 (function_selector "onFlashLoan" [Address; Address; U256; U256; Bytes]) ++
  abi_params [Word initiator; Word token; Word value; Word fee; Octets data].

(** examples/erc20-flash-mint/src/lib.rs:31-59; [borrower] is the call at flash_mint.rs:330-342. *)
Definition ExampleFlash (e : FlashMint.env) (borrower : Z -> list Z -> FlashMint.M20 Z) : contract Erc20.state FlashMint.error :=
  mkContract _ _ Pub.Erc20FlashMintExample
    ([("Erc20FlashMintExample", "max_flash_loan", read_w (fun t s => [Word (FlashMint.max_flash_loan e t s)]));
      ("Erc20FlashMintExample", "flash_fee", ask_ww (fun t v => FlashMint.flash_fee e t v));
      ("Erc20FlashMintExample", "flash_loan", do_wwwo (fun c r t v d =>
         flag (flash_loan_cached e (borrower r (loan_data c t v (FlashMint.flash_fee_value e) d)) r t v)));
      ("Erc20FlashMintExample", "mint", do_ww (fun _ a v => nothing (map_err FlashMint.ErrErc20 (Erc20._mint a v))))] ++
     erc20_bodies (fun s => s) (fun A m => map_err FlashMint.ErrErc20 m))
    revert_flash_mint.

Inductive visit :=
| Visit (sender value : Z) (input : list Z) (code : Z -> bool) (acts : Z -> list Z -> visits) (reply : Z -> list Z -> answer)
with visits := VNil | VCons (x : visit) (xs : visits).

(** The borrower's answer is decoded as [bytes32]; a failed call or other data are an error,
    which flash_mint.rs:340-342 replaces. *)
Definition borrow (acts : Z -> list Z -> Erc20.state -> Erc20.state) (reply : Z -> list Z -> answer) (receiver : Z) (data : list Z) : FlashMint.M20 Z :=
  fun s => match reply receiver data with
           | Returned out =>
               (match decode_params [B256] out with Some [Word w] => Ok w | _ => Err (FlashMint.InvalidReceiver receiver) end,
                acts receiver data s)
           | Reverted _ => (Err (FlashMint.InvalidReceiver receiver), s)
           end.
Fixpoint visit_step (T : terms) (x : visit) (s : Erc20.state) {struct x} : answer * Erc20.state :=
  match x with
  | Visit c v input code acts reply =>
      entry (ExampleFlash (env_of T code) (borrow (fun r d s => visits_run T (acts r d) s) reply)) c v input s
  end
with visits_run (T : terms) (xs : visits) (s : Erc20.state) {struct xs} : Erc20.state :=
  match xs with
  | VNil => s
  | VCons x xs' => visits_run T xs' (snd (visit_step T x s))
  end.
