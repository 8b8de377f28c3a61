(** Model of contracts/src/token/erc721/extensions/metadata.rs and uri_storage.rs, and of
    the contract of examples/erc721-metadata.  Strings are lists of bytes. *)
From Verif.Base Require Import Prelude Maps.
From Verif.Model Require Erc721.
From stdpp Require Import gmap.
#[global] Open Scope Z_scope.

(** [U256::to_string]: decimal digits in ASCII, most significant first; a 256-bit number
    has at most 78. *)
Fixpoint dec_digits (fuel : nat) (n : Z) (acc : list Z) : list Z :=
  match fuel with
  | O => acc
  | S f => let acc' := (48 + n mod 10) :: acc in
           if n <? 10 then acc' else dec_digits f (n / 10) acc'
  end.
Definition to_string (n : Z) : list Z := dec_digits 78 n [].

(** metadata.rs:118-134 *)
Definition metadata_token_uri (base_uri : list Z) (token_id : Z) : M Erc721.state Erc721.error (list Z) :=
  Erc721.owner_of token_id ;;;
  ret (if decide (base_uri = []) then [] else base_uri ++ to_string token_id).

(** uri_storage.rs:41-44 (event: MetadataUpdate), with the contract's other parts
    (examples/erc721-metadata/src/lib.rs:20-27) *)
Record state := mk {
  erc721 : Erc721.state;
  base_uri : list Z;
  token_uris : gmap Z (list Z);
  updates : list Z
}.
(** uri_storage.rs:57-60 *)
Definition _set_token_uri (token_id : Z) (token_uri : list Z) : M state Erc721.error unit :=
  modify (fun s => mk (erc721 s) (base_uri s) (<[token_id := token_uri]> (token_uris s)) (updates s ++ [token_id])).
Definition on_erc721 {A} (m : M Erc721.state Erc721.error A) : M state Erc721.error A :=
  zoom erc721 (fun t s => mk t (base_uri s) (token_uris s) (updates s)) m.
(** uri_storage.rs:94-118 *)
Definition token_uri (token_id : Z) : M state Erc721.error (list Z) :=
  on_erc721 (Erc721.owner_of token_id) ;;;
  token_uri <~ gets (fun s => getd [] (token_uris s) token_id) ;;
  base <~ gets base_uri ;;
  if decide (base = []) then ret token_uri
  else if decide (token_uri = []) then on_erc721 (metadata_token_uri base token_id)
  else ret (base ++ token_uri).

(** A call to the example contract: one of the ERC-721 functions, [mint], [burn] or
    [set_token_uri] (lib.rs:29-55). *)
Inductive op := Token (o : Erc721.op) | SetTokenUri (token_id : Z) (uri : list Z).
Definition exec (has_code : Z -> bool) (c : Z) (o : op) : M state Erc721.error unit :=
  match o with
  | Token o => on_erc721 (Erc721.exec has_code c o)
  | SetTokenUri i u => _set_token_uri i u
  end.
Fixpoint run (has_code : Z -> bool) (l : list (Z * op)) (s : state) : state :=
  match l with
  | [] => s
  | (c, o) :: l' => run has_code l' (snd (tx (exec has_code c o) s))
  end.
Definition init (base : list Z) : state := mk Erc721.init base ∅ [].

(** erc1155/extensions/metadata_uri.rs:63-65 and uri_storage.rs:16-25, 47-93 *)
Module Erc1155Uri.
  Record state := mk { metadata_uri : list Z; base_uri : list Z; token_uris : gmap Z (list Z); log : list (list Z * Z) }.
  Definition uri (token_id : Z) (s : state) : list Z :=
    let token_uri := getd [] (token_uris s) token_id in
    if decide (token_uri = []) then metadata_uri s else base_uri s ++ token_uri.
  Definition set_token_uri (token_id : Z) (token_uri : list Z) (s : state) : state :=
    let s1 := mk (metadata_uri s) (base_uri s) (<[token_id := token_uri]> (token_uris s)) (log s) in
    mk (metadata_uri s1) (base_uri s1) (token_uris s1) (log s1 ++ [(uri token_id s1, token_id)]).
  Definition set_base_uri (base : list Z) (s : state) : state :=
    mk (metadata_uri s) base (token_uris s) (log s).
  Inductive op := SetTokenUri (token_id : Z) (uri : list Z) | SetBaseUri (base : list Z).
  Definition step (s : state) (o : op) : state :=
    match o with SetTokenUri i u => set_token_uri i u s | SetBaseUri b => set_base_uri b s end.
  Definition run (l : list op) (s : state) : state := fold_left step l s.
  Definition init (metadata : list Z) : state := mk metadata [] ∅ [].
End Erc1155Uri.
