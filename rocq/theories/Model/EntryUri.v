(** The deployed examples/erc1155-metadata-uri as a table of functions for the entry point of
    Model/Entry.v; worlds and the questions to receivers as in Model/EntryErc1155.v. *)
From Verif.Base Require Import Prelude Bytes.
From Coq Require Import String List.
From Verif.Model Require Import Introspection Router Entry EntryErc721 EntryErc1155.
From Verif.Model Require SolAbi Erc1155 Erc1155Example Erc721Uri.
Import SolAbi.
#[global] Open Scope Z_scope.
Local Open Scope string_scope.
Local Open Scope list_scope.
Local Open Scope Z_scope.

(** examples/erc1155-metadata-uri/src/lib.rs:14-21; [metadata_uri] and [uri_storage] are
    together in [uris]. *)
Record state := mk { tokens : Erc1155.state; uris : Erc721Uri.Erc1155Uri.state }.
Definition on_tokens {A} (m : M Erc1155.state Erc1155.error A) : M state Erc1155.error A :=
  zoom tokens (fun t s => mk t (uris s)) m.
Definition on_uris (f : Erc721Uri.Erc1155Uri.state -> Erc721Uri.Erc1155Uri.state) : M state Erc1155.error unit :=
  modify (fun s => mk (tokens s) (f (uris s))).
(** After the constructor (src/constructor.sol): no balances, the given URI. *)
Definition init (metadata : list Z) : state := mk Erc1155.init (Erc721Uri.Erc1155Uri.init metadata).

Section example.
  Context (w : world).
  (** examples/erc1155-metadata-uri/src/lib.rs:23-46; what is not there comes from
      token/erc1155/mod.rs:360-420. *)
  Definition ExampleUri : contract state Erc1155.error :=
    mkContract _ _ Pub.Erc1155MetadataUriExample
      [("Erc1155MetadataUriExample", "uri", read_w (fun id s => [Octets (Erc721Uri.Erc1155Uri.uri id (uris s))]));
       ("Erc1155MetadataUriExample", "set_token_uri", fun args _ => match args with
          | [Word i; Octets u] => nothing (on_uris (Erc721Uri.Erc1155Uri.set_token_uri i u))
          | _ => panic end);
       ("Erc1155MetadataUriExample", "set_base_uri", fun args _ => match args with
          | [Octets u] => nothing (on_uris (Erc721Uri.Erc1155Uri.set_base_uri u))
          | _ => panic end);
       ("Erc1155MetadataUriExample", "supports_interface",
          read_w (fun id _ => [Word (of_bool (Introspection.Erc1155MetadataUriExample (firstn 4 (word id))))]));
       ("Erc1155", "balance_of", read_ww (fun a i s => [Word (Erc1155.balance_of a i (tokens s))]));
       ("Erc1155", "balance_of_batch", fun args _ => match args with
          | [Words accounts; Words ids] => l <~ on_tokens (Erc1155.balance_of_batch accounts ids) ;; ret [Words l]
          | _ => panic end);
       ("Erc1155", "set_approval_for_all", do_ww (fun c p v =>
          nothing (on_tokens (Erc1155.set_approval_for_all c p (negb (v =? 0))))));
       ("Erc1155", "is_approved_for_all", read_ww (fun o p s =>
          [Word (of_bool (Erc1155.is_approved_for_all o p (tokens s)))]));
       ("Erc1155", "safe_transfer_from", fun args c => match args with
          | [Word f; Word t; Word i; Word v; Octets d] => nothing (on_tokens
              (Erc1155.safe_transfer_from Erc1155.base (deployed w) (Erc1155Example.answers (hook1155 w c f t [i] [v] d)) c f t i v d))
          | _ => panic end);
       ("Erc1155", "safe_batch_transfer_from", fun args c => match args with
          | [Word f; Word t; Words is; Words vs; Octets d] => nothing (on_tokens
              (Erc1155.safe_batch_transfer_from Erc1155.base (deployed w) (Erc1155Example.answers (hook1155 w c f t is vs d)) c f t is vs d))
          | _ => panic end)]
      revert_erc1155.
End example.

(** A history of calls, each in its own world. *)
Definition raw_run_uri (h : list (world * (Z * Z * list Z))) (s : state) : state :=
  fold_left (fun s wc => raw_step (ExampleUri (fst wc)) s (snd wc)) h s.
