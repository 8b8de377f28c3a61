(** The deployed examples/erc721-wrapper as a table of functions for the entry point of
    Model/Entry.v. The collection it wraps and the receivers are contracts elsewhere: each call
    to one of them meets a world (Model/EntryErc721.v) of its own, as a batch makes many. A call
    to an address without code succeeds without data. The contract is built without the
    [reentrant] feature, so the SDK refuses calls back into it. *)
From Verif.Base Require Import Prelude Bytes.
From Coq Require Import String List.
From Verif.Model Require Import Introspection Router Entry EntryErc721.
From Verif.Model Require SolAbi Erc721 Erc721Example.
Import SolAbi.
#[global] Open Scope Z_scope.
Local Open Scope string_scope.
Local Open Scope list_scope.
Local Open Scope Z_scope.

(** extensions/wrapper.rs:43-62 *)
Inductive error :=
| ErrErc721 (e : Erc721.error)
| UnsupportedToken (token : Z)
| FailedOperation (token : Z)
| FailedOperationWithReason (reason : list Z).
(** [#[derive(SolidityError)]]; [call::Error] is encoded as the data of the failed call. *)
Definition revert_wrapper721 (e : error) : list Z :=
  match e with
  | ErrErc721 e => revert_erc721 e
  | UnsupportedToken token => sol_error "ERC721UnsupportedToken" [a_ token]
  | FailedOperation token => sol_error "Erc721FailedOperation" [a_ token]
  | FailedOperationWithReason reason => reason
  end.

Section example.
  (** The address of the contract and the word [underlying], written by the constructor only
      (src/constructor.sol:12-14). *)
  Context (me tok : Z).
  (** Whether the SDK accepts return data from a function that declares none: not settled by
      this repository, either will do. *)
  Context (lenient : bool).
  (** The world at the time of the n-th call that goes out. *)
  Context (w : nat -> world).
  Definition mint_to (n : nat) (c account id : Z) : M Erc721.state error unit :=
    map_err ErrErc721 (Erc721._safe_mint (deployed (w n)) (Erc721Example.answers (hook (w n) c 0 account id [])) c account id []).
  (** A call to the collection and the handling of its failure: wrapper.rs:116-134, 175-194. *)
  Definition ask_collection (n : nat) (input : list Z) : M Erc721.state error unit :=
    match (if deployed (w n) tok then replies (w n) tok input else Returned []) with
    | Returned [] => ret tt
    | Returned _ => if lenient then ret tt else fail (FailedOperation tok)
    | Reverted [] => fail (FailedOperation tok)
    | Reverted reason => fail (FailedOperationWithReason reason)
    end.
  Definition transfer_data (from to id : Z) : list Z :=
    be_bytes 4 (function_selector "transferFrom" [Address; Address; U256]) ++ abi_params [Word from; Word to; Word id].
  Definition safe_transfer_data (from to id : Z) : list Z :=
    be_bytes 4 (function_selector "safeTransferFrom" [Address; Address; U256; Bytes]) ++
    abi_params [Word from; Word to; Word id; Octets []].
  (** wrapper.rs:98-141 *)
  Fixpoint deposit_loop (c account : Z) (n : nat) (ids : list Z) : M Erc721.state error unit :=
    match ids with
    | [] => ret tt
    | id :: ids' => ask_collection n (transfer_data c me id) ;;; mint_to (S n) c account id ;;; deposit_loop c account (S (S n)) ids'
    end.
  Definition deposit_for (c account : Z) (ids : list Z) : M Erc721.state error bool := deposit_loop c account 0 ids ;;; ret true.
  (** wrapper.rs:158-199 *)
  Fixpoint withdraw_loop (c account : Z) (n : nat) (ids : list Z) : M Erc721.state error unit :=
    match ids with
    | [] => ret tt
    | id :: ids' =>
        map_err ErrErc721 (Erc721._update 0 id c ;;; ret tt) ;;;
        ask_collection n (safe_transfer_data me account id) ;;; withdraw_loop c account (S n) ids'
    end.
  Definition withdraw_to (c account : Z) (ids : list Z) : M Erc721.state error bool := withdraw_loop c account 0 ids ;;; ret true.
  (** wrapper.rs:218-236 *)
  Definition on_erc721_received (c from id : Z) : M Erc721.state error unit :=
    if negb (tok =? c) then fail (UnsupportedToken c) else mint_to 0 c from id.
  Definition own {A} (m : M Erc721.state Erc721.error A) : M Erc721.state error A := map_err ErrErc721 m.
  (** examples/erc721-wrapper/src/lib.rs:23-62; what is not there comes from
      token/erc721/mod.rs:409-491. *)
  Definition ExampleWrapper721 : contract Erc721.state error :=
    mkContract _ _ Pub.Erc721WrapperExample
      [("Erc721WrapperExample", "underlying", read1 (fun _ => [Word tok]));
       ("Erc721WrapperExample", "deposit_for", fun args c => match args with
          | [Word a; Words ids] => flag (deposit_for c a ids) | _ => panic end);
       ("Erc721WrapperExample", "withdraw_to", fun args c => match args with
          | [Word a; Words ids] => flag (withdraw_to c a ids) | _ => panic end);
       ("Erc721WrapperExample", "on_erc721_received", do_wwwo (fun c _ f i _ =>
          on_erc721_received c f i ;;; ret [Word (Erc721.RECEIVER_FN_SELECTOR * 2 ^ 224)]));
       ("Erc721", "balance_of", ask_w (fun a => own (Erc721.balance_of a)));
       ("Erc721", "owner_of", ask_w (fun i => own (Erc721.owner_of i)));
       ("Erc721", "safe_transfer_from", do_www (fun c f t i => nothing (own
          (Erc721.safe_transfer_from (deployed (w 0%nat)) (Erc721Example.answers (hook (w 0%nat) c f t i [])) c f t i))));
       ("Erc721", "safe_transfer_from_with_data", do_wwwo (fun c f t i d => nothing (own
          (Erc721.safe_transfer_from_with_data (deployed (w 0%nat)) (Erc721Example.answers (hook (w 0%nat) c f t i d)) c f t i d))));
       ("Erc721", "transfer_from", do_www (fun c f t i => nothing (own (Erc721.transfer_from c f t i))));
       ("Erc721", "approve", do_ww (fun c t i => nothing (own (Erc721.approve c t i))));
       ("Erc721", "set_approval_for_all", do_ww (fun c p v => nothing (own (Erc721.set_approval_for_all c p (negb (v =? 0))))));
       ("Erc721", "get_approved", ask_w (fun i => own (Erc721.get_approved i)));
       ("Erc721", "is_approved_for_all", read_ww (fun o p s => [Word (of_bool (Erc721.is_approved_for_all o p s))]))]
      revert_wrapper721.
End example.
