(** The deployed examples/access-control, examples/ownable and examples/ownable-two-step, as
    tables of functions for the entry point of Model/Entry.v. *)
From Verif.Base Require Import Prelude Bytes.
From Coq Require Import String List.
From Verif.Model Require Import Introspection Router Entry EntryErc20.
From Verif.Model Require SolAbi Erc20 AccessControl AccessExample Ownable Ownable2Step OwnableExample.
Import SolAbi.
#[global] Open Scope Z_scope.
Local Open Scope string_scope.
Local Open Scope list_scope.
Local Open Scope Z_scope.

(** examples/access-control/src/lib.rs:13-17 *)
Definition revert_access_example (e : AccessExample.error) : list Z :=
  match e with
  | AccessExample.AccessError e => revert_access e
  | AccessExample.Erc20Error e => revert_erc20 e
  end.
(** examples/access-control/src/lib.rs:31-56; contracts/src/access/control.rs:255-306 *)
Definition ExampleAccess : contract AccessExample.state AccessExample.error :=
  mkContract _ _ Pub.AccessControlExample
    ([("AccessControlExample", "make_admin", do_w (fun c a => nothing (AccessExample.make_admin c a)));
      ("AccessControlExample", "transfer_from", do_www (fun c f t v => flag (AccessExample.transfer_from c f t v)));
      ("AccessControlExample", "set_role_admin", do_ww (fun _ r n => nothing (AccessExample.set_role_admin r n)))] ++
     erc20_bodies AccessExample.erc20 (@AccessExample.on_erc20) ++
     [("AccessControl", "has_role",
        read_ww (fun r a s => [Word (of_bool (AccessControl.has_role (AccessExample.access s) r a))]));
      ("AccessControl", "only_role", do_w (fun c r => nothing (AccessExample.on_access (AccessControl.only_role c r))));
      ("AccessControl", "get_role_admin",
        read_w (fun r s => [Word (AccessControl.get_role_admin (AccessExample.access s) r)]));
      ("AccessControl", "grant_role", do_ww (fun c r a => nothing (AccessExample.on_access (AccessControl.grant_role c r a))));
      ("AccessControl", "revoke_role", do_ww (fun c r a => nothing (AccessExample.on_access (AccessControl.revoke_role c r a))));
      ("AccessControl", "renounce_role",
        do_ww (fun c r a => nothing (AccessExample.on_access (AccessControl.renounce_role c r a))))])
    revert_access_example.

(** examples/ownable/src/lib.rs:13-17 *)
Definition revert_ownable_example (e : OwnableExample.error) : list Z :=
  match e with
  | OwnableExample.Erc20Error e => revert_erc20 e
  | OwnableExample.OwnableError e => revert_ownable e
  end.
(** examples/ownable/src/lib.rs:28-36; contracts/src/access/ownable.rs:128-158 *)
Definition ExampleOwnable : contract OwnableExample.state OwnableExample.error :=
  mkContract _ _ Pub.OwnableExample
    ([("OwnableExample", "transfer", do_ww (fun c to v => nothing (OwnableExample.transfer c to v)))] ++
     erc20_bodies OwnableExample.erc20 (@OwnableExample.on_erc20) ++
     [("Ownable", "owner", read1 (fun s => [Word (Ownable.owner (OwnableExample.ownable s))]));
      ("Ownable", "transfer_ownership",
        do_w (fun c a => nothing (OwnableExample.on_ownable (Ownable.transfer_ownership c a))));
      ("Ownable", "renounce_ownership", do_0 (fun c => nothing (OwnableExample.on_ownable (Ownable.renounce_ownership c))))])
    revert_ownable_example.
(** examples/ownable-two-step/src/lib.rs:28-36; contracts/src/access/ownable_two_step.rs:160-204 *)
Definition ExampleTwoStep : contract OwnableExample.state2 OwnableExample.error :=
  mkContract _ _ Pub.Ownable2StepExample
    ([("Ownable2StepExample", "transfer", do_ww (fun c to v => nothing (OwnableExample.transfer2 c to v)))] ++
     erc20_bodies OwnableExample.erc20_2 (@OwnableExample.on_erc20_2) ++
     [("Ownable2Step", "owner", read1 (fun s => [Word (Ownable2Step.owner (OwnableExample.ownable2 s))]));
      ("Ownable2Step", "pending_owner", read1 (fun s => [Word (Ownable2Step.pending_owner (OwnableExample.ownable2 s))]));
      ("Ownable2Step", "transfer_ownership",
        do_w (fun c a => nothing (OwnableExample.on_ownable2 (Ownable2Step.transfer_ownership c a))));
      ("Ownable2Step", "accept_ownership", do_0 (fun c => nothing (OwnableExample.on_ownable2 (Ownable2Step.accept_ownership c))));
      ("Ownable2Step", "renounce_ownership",
        do_0 (fun c => nothing (OwnableExample.on_ownable2 (Ownable2Step.renounce_ownership c))))])
    revert_ownable_example.
