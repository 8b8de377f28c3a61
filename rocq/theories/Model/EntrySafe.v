(** The deployed examples/safe-erc20 as a table of functions for the entry point of
    Model/Entry.v, in an arbitrary world: the token it is told to call may be any contract,
    and it reaches that contract with bytes. *)
From Verif.Base Require Import Prelude Bytes.
From Coq Require Import String List.
From Verif.Model Require Import Introspection Router Entry EntryErc20 EntryVault.
From Verif.Model Require SolAbi Erc20 SafeErc20.
Import SolAbi.
#[global] Open Scope Z_scope.
Local Open Scope string_scope.
Local Open Scope list_scope.
Local Open Scope Z_scope.

(** Four words. *)
Definition do_wwww {S E} (f : Z -> Z -> Z -> Z -> Z -> M S E (list val)) : body S E :=
  fun args c => match args with [Word a; Word b; Word d; Word e] => f c a b d e | _ => panic end.

Section safe.
  (** The world; the contract's address; which addresses have code; what a call from the
      contract does: bytes to an address, then failure or bytes and a new world. *)
  Context {W : Type} (this : Z) (code_at : Z -> bool) (call : Z -> list Z -> W -> option (list Z * W)).
  Definition any_ext : SafeErc20.ext W := SafeErc20.mkext W this code_at (fun target c w => call target (call_data c) w).
  (** examples/safe-erc20/src/lib.rs:7-16, safe_erc20.rs:233-316 *)
  Definition ExampleSafe : contract W SafeErc20.error :=
    mkContract _ _ Pub.SafeErc20Example
      [("SafeErc20", "safe_transfer", do_www (fun _ t to v => nothing (SafeErc20.safe_transfer any_ext t to v)));
       ("SafeErc20", "safe_transfer_from", do_wwww (fun _ t from to v => nothing (SafeErc20.safe_transfer_from any_ext t from to v)));
       ("SafeErc20", "safe_increase_allowance", do_www (fun _ t sp v => nothing (SafeErc20.safe_increase_allowance any_ext t sp v)));
       ("SafeErc20", "safe_decrease_allowance", do_www (fun _ t sp v => nothing (SafeErc20.safe_decrease_allowance any_ext t sp v)));
       ("SafeErc20", "force_approve", do_www (fun _ t sp v => nothing (SafeErc20.force_approve any_ext t sp v)))]
      revert_safe_erc20.
End safe.

(** The world in which every contract the example may be pointed at is a Coin
    (Model/EntryVault.v), each with its own state. *)
Definition coins_call (this : Z) (is_coin : Z -> bool) (target : Z) (data : list Z) (w : Z -> Erc20.state) : option (list Z * (Z -> Erc20.state)) :=
  if is_coin target then
    match entry Coin this 0 data (w target) with
    | (Returned d, u) => Some (d, fun a => if a =? target then u else w a)
    | (Reverted _, _) => None
    end
  else Some ([], w).
