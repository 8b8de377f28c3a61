(** The deployed examples/erc721-metadata as a table of functions for the entry point of
    Model/Entry.v; worlds and the questions to receivers as in Model/EntryErc721.v. *)
From Verif.Base Require Import Prelude Bytes Maps.
From Coq Require Import String List.
From Verif.Model Require Import Introspection Router Entry EntryErc721.
From Verif.Model Require SolAbi Erc721 Erc721Example Erc721Uri.
Import SolAbi.
#[global] Open Scope Z_scope.
Local Open Scope string_scope.
Local Open Scope list_scope.
Local Open Scope Z_scope.

(** A function of a number that returns a string. *)
Definition ask_text {S E} (f : Z -> M S E (list Z)) : body S E :=
  fun args _ => match args with [Word a] => v <~ f a ;; ret [Octets v] | _ => panic end.

Section example.
  (** What the storage strings written by the constructor (constructor.sol) read as
      (for texts, what was written); the base URI is in the state. *)
  Context (name symbol : list Z).
  Context (w : world).
  (** examples/erc721-metadata/src/lib.rs:29-59; what is not there comes from
      token/erc721/mod.rs:409-491 and extensions/metadata.rs:71-87. *)
  Definition ExampleMeta : contract Erc721Uri.state Erc721.error :=
    mkContract _ _ Pub.Erc721MetadataExample
      [("Erc721MetadataExample", "mint", do_ww (fun _ t i => nothing (Erc721Uri.on_erc721 (Erc721._mint t i))));
       ("Erc721MetadataExample", "burn", do_w (fun c i => nothing (Erc721Uri.on_erc721 (Erc721.burn c i))));
       ("Erc721MetadataExample", "token_uri", ask_text Erc721Uri.token_uri);
       ("Erc721MetadataExample", "set_token_uri", fun args _ => match args with
          | [Word i; Octets u] => nothing (Erc721Uri._set_token_uri i u)
          | _ => panic end);
       ("Erc721MetadataExample", "supports_interface",
          read_w (fun id _ => [Word (of_bool (Introspection.Erc721MetadataExample (firstn 4 (word id))))]));
       ("Erc721", "balance_of", ask_w (fun a => Erc721Uri.on_erc721 (Erc721.balance_of a)));
       ("Erc721", "owner_of", ask_w (fun i => Erc721Uri.on_erc721 (Erc721.owner_of i)));
       ("Erc721", "safe_transfer_from", do_www (fun c f t i =>
          nothing (Erc721Uri.on_erc721 (Erc721.safe_transfer_from (deployed w) (Erc721Example.answers (hook w c f t i [])) c f t i))));
       ("Erc721", "safe_transfer_from_with_data", do_wwwo (fun c f t i d =>
          nothing (Erc721Uri.on_erc721 (Erc721.safe_transfer_from_with_data (deployed w) (Erc721Example.answers (hook w c f t i d)) c f t i d))));
       ("Erc721", "transfer_from", do_www (fun c f t i => nothing (Erc721Uri.on_erc721 (Erc721.transfer_from c f t i))));
       ("Erc721", "approve", do_ww (fun c t i => nothing (Erc721Uri.on_erc721 (Erc721.approve c t i))));
       ("Erc721", "set_approval_for_all", do_ww (fun c p v =>
          nothing (Erc721Uri.on_erc721 (Erc721.set_approval_for_all c p (negb (v =? 0))))));
       ("Erc721", "get_approved", ask_w (fun i => Erc721Uri.on_erc721 (Erc721.get_approved i)));
       ("Erc721", "is_approved_for_all", read_ww (fun o p s =>
          [Word (of_bool (Erc721.is_approved_for_all o p (Erc721Uri.erc721 s)))]));
       ("Erc721Metadata", "name", read1 (fun _ => [Octets name]));
       ("Erc721Metadata", "symbol", read1 (fun _ => [Octets symbol]))]
      revert_erc721.
End example.

(** A history of calls, each in its own world. *)
Definition raw_run_meta (name symbol : list Z) (h : list (world * (Z * Z * list Z))) (s : Erc721Uri.state) : Erc721Uri.state :=
  fold_left (fun s wc => raw_step (ExampleMeta name symbol (fst wc)) s (snd wc)) h s.
