(** The deployed examples/erc721-consecutive as a table of functions for the entry point of
    Model/Entry.v; worlds and the question to receivers as in Model/EntryErc721.v. *)
From Verif.Base Require Import Prelude Bytes.
From Coq Require Import String List.
From Verif.Model Require Import Introspection Router Entry EntryErc721.
From Verif.Model Require SolAbi Erc721 Erc721Example Consecutive.
Import SolAbi.
#[global] Open Scope Z_scope.
Local Open Scope string_scope.
Local Open Scope list_scope.
Local Open Scope Z_scope.

Section example.
  (** The storage word [first_consecutive_id], written by the constructor only. *)
  Context (first : Z).
  Context (w : world).
  (** token/erc721/extensions/consecutive.rs:195-209; 184-193 is the case of empty data *)
  Definition safe_transfer_from_with_data (c f t i : Z) (d : list Z) : M Consecutive.state Consecutive.error unit :=
    Consecutive.transfer_from first c f t i ;;;
    Consecutive.on_base (Erc721._check_on_erc721_received (deployed w) (Erc721Example.answers (hook w c f t i d)) c f t i d).
  (** examples/erc721-consecutive/src/lib.rs:21-41; what is not there comes from
      extensions/consecutive.rs:171-259. *)
  Definition ExampleConsecutive : contract Consecutive.state Consecutive.error :=
    mkContract _ _ Pub.Erc721ConsecutiveExample
      [("Erc721ConsecutiveExample", "burn", do_w (fun _ i => nothing (Consecutive._burn first i)));
       ("Erc721ConsecutiveExample", "mint", do_ww (fun _ t i => nothing (Consecutive._mint first t i)));
       ("Erc721ConsecutiveExample", "supports_interface",
          read_w (fun id _ => [Word (of_bool (Introspection.Erc721ConsecutiveExample (firstn 4 (word id))))]));
       ("Erc721Consecutive", "balance_of", ask_w Consecutive.balance_of);
       ("Erc721Consecutive", "owner_of", ask_w (Consecutive.owner_of first));
       ("Erc721Consecutive", "safe_transfer_from", do_www (fun c f t i => nothing (safe_transfer_from_with_data c f t i [])));
       ("Erc721Consecutive", "safe_transfer_from_with_data", do_wwwo (fun c f t i d =>
          nothing (safe_transfer_from_with_data c f t i d)));
       ("Erc721Consecutive", "transfer_from", do_www (fun c f t i => nothing (Consecutive.transfer_from first c f t i)));
       ("Erc721Consecutive", "approve", do_ww (fun c t i => nothing (Consecutive.approve first c t i)));
       ("Erc721Consecutive", "set_approval_for_all", do_ww (fun c p v =>
          nothing (Consecutive.set_approval_for_all c p (negb (v =? 0)))));
       ("Erc721Consecutive", "get_approved", ask_w (Consecutive.get_approved first));
       ("Erc721Consecutive", "is_approved_for_all", read_ww (fun o p s =>
          [Word (of_bool (Erc721.is_approved_for_all o p (Consecutive.erc721 s)))]))]
      revert_consecutive.
End example.

(** A history of calls, each in its own world. *)
Definition raw_run_consecutive (first : Z) (h : list (world * (Z * Z * list Z))) (s : Consecutive.state) : Consecutive.state :=
  fold_left (fun s wc => raw_step (ExampleConsecutive first (fst wc)) s (snd wc)) h s.
