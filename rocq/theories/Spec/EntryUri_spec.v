(** A collection whose tokens link to their descriptions (examples/erc1155-metadata-uri) as its
    users know it, on top of Spec/EntryMulti_spec.v: there is no pause and nothing to mint with;
    anybody sets the texts. *)
From Verif.Base Require Import Prelude Bytes.
From Coq Require Import String List.
From Verif.Model Require Import Introspection.
From Verif.Model Require SolAbi Entry EntryErc721.
From Verif.Spec Require Import Router_spec SolAbi_spec Utf8_spec.
From Verif.Spec Require Entry_spec EntryMulti_spec.
Import SolAbi Entry.
Import EntryErc721 (world, mkWorld, deployed, replies).
Import Entry_spec (calldata, is_address, has_type).
Import EntryMulti_spec.
#[global] Open Scope Z_scope.
Local Open Scope string_scope.
Local Open Scope list_scope.
Local Open Scope Z_scope.

(** * An ideal book with texts *)
Record ubook := mkUbook { u_tokens : mbook; u_own : Z -> list Z; u_base : list Z }.
Definition new_ubook : ubook := mkUbook new_book (fun _ => []) [].
(** Where a token links to: what was set for it, after the base; otherwise what was chosen at
    deployment for all tokens. *)
Definition link (common : list Z) (b : ubook) (id : Z) : list Z :=
  match u_own b id with [] => common | u => u_base b ++ u end.

Inductive urequest := Tokens (r : request) | SetTokenURI (id : Z) (u : list Z) | SetBaseURI (u : list Z).
Definition urequest_data (r : urequest) : list Z :=
  match r with
  | Tokens r => request_data r
  | SetTokenURI id u => calldata "setTokenURI(uint256,string)" [Word id; Octets u]
  | SetBaseURI u => calldata "setBaseURI(string)" [Octets u]
  end.
Definition available (r : request) : Prop :=
  match r with Transfer _ _ _ _ _ | TransferBatch _ _ _ _ _ | SetApprovalForAll _ _ => True | _ => False end.
Definition asks (r : urequest) : Prop :=
  match r with
  | Tokens r => request_fits r /\ available r
  | SetTokenURI id u => is_u256 id /\ text u /\ size (urequest_data r) < two256
  | SetBaseURI u => text u /\ size (urequest_data r) < two256
  end.
Inductive uverdict := Yes (b : ubook) | No (why : refusal).
Definition ideal (w : world) (c : Z) (r : urequest) (b : ubook) : uverdict :=
  match r with
  | Tokens r => match EntryMulti_spec.ideal w c r (u_tokens b) with
                | Granted t => Yes (mkUbook t (u_own b) (u_base b))
                | Denied why => No why
                end
  | SetTokenURI id u => Yes (mkUbook (u_tokens b) (fun j => if j =? id then u else u_own b j) (u_base b))
  | SetBaseURI u => Yes (mkUbook (u_tokens b) (u_own b) u)
  end.
Definition ideal_step (b : ubook) (x : world * Z * urequest) : ubook :=
  match ideal (fst (fst x)) (snd (fst x)) (snd x) b with Yes b' => b' | No _ => b end.
Definition ideal_run (l : list (world * Z * urequest)) (b : ubook) : ubook := fold_left ideal_step l b.
Definition sends (l : list (world * Z * urequest)) : list (world * (Z * Z * list Z)) :=
  map (fun x => (fst (fst x), (snd (fst x), 0, urequest_data (snd x)))) l.
Definition ubook_fits (b : ubook) : Prop :=
  book_fits (u_tokens b) /\ m_paused (u_tokens b) = false /\ (forall id, text (u_own b id)) /\ text (u_base b).
(** The requests among the calls of a history; everything else does not count. *)
Inductive requests_of : list (world * (Z * Z * list Z)) -> list (world * Z * urequest) -> Prop :=
| no_calls : requests_of [] []
| a_request w c r h l : asks r -> requests_of h l -> requests_of ((w, (c, 0, urequest_data r)) :: h) ((w, c, r) :: l)
| another_call w c v d h l : (forall r, asks r -> ~ (v = 0 /\ d = urequest_data r)) ->
    requests_of h l -> requests_of ((w, (c, v, d)) :: h) l.

(** * What the answers say *)
Section seen.
  Context {S : Type} (call : world -> Z -> Z -> list Z -> S -> answer * S).
  Definition says_text (s : S) (sig : string) (args : list val) (u : list Z) : Prop :=
    forall w c, call w c 0 (calldata sig args) s = (Returned (abi_params [Octets u]), s).
  Definition shows (common : list Z) (s : S) (b : ubook) : Prop :=
    (forall a id, is_address a -> is_u256 id ->
       tells call s "balanceOf(address,uint256)" [Word a; Word id] (m_balance (u_tokens b) a id)) /\
    (forall o p, is_address o -> is_address p ->
       tells call s "isApprovedForAll(address,address)" [Word o; Word p] (if m_operator (u_tokens b) o p then 1 else 0)) /\
    (forall id, is_u256 id -> says_text s "uri(uint256)" [Word id] (link common b id)).
  Definition follows (common : list Z) (w : world) (s : S) (b : ubook) (c : Z) (r : urequest) : Prop :=
    match ideal w c r b with
    | Yes b' => exists s', call w c 0 (urequest_data r) s = (Returned [], s') /\ shows common s' b' /\ ubook_fits b'
    | No (Because why) => exists d, call w c 0 (urequest_data r) s = (Reverted d, s) /\ decode_reason d = Some why
    | No (Quoting d) => call w c 0 (urequest_data r) s = (Reverted d, s)
    | No Silent => call w c 0 (urequest_data r) s = (Reverted [], s)
    end.
End seen.

(** * The public functions of examples/erc1155-metadata-uri *)
Definition uri_interface : list (string * list abi_type) :=
  [("balanceOf(address,uint256)", [Address; U256]); ("balanceOfBatch(address[],uint256[])", [Vec Address; Vec U256]);
   ("setApprovalForAll(address,bool)", [Address; bool_]); ("isApprovedForAll(address,address)", [Address; Address]);
   ("safeTransferFrom(address,address,uint256,uint256,bytes)", [Address; Address; U256; U256; Bytes]);
   ("safeBatchTransferFrom(address,address,uint256[],uint256[],bytes)", [Address; Address; Vec U256; Vec U256; Bytes]);
   ("uri(uint256)", [U256]); ("setTokenURI(uint256,string)", [U256; String_]); ("setBaseURI(string)", [String_]);
   ("supportsInterface(bytes4)", [FixedBytes4])].
Definition proper (value : Z) (input : list Z) : Prop :=
  value = 0 /\ exists sig ts args, In (sig, ts) uri_interface /\ List.Forall2 has_type ts args /\ input = calldata sig args.
