(** A collection of non-fungible tokens that link to their descriptions
    (examples/erc721-metadata) as its users know it, on top of Spec/EntryNft_spec.v: the
    register, the requests and the refusals are the same; there is no pause and no enumeration,
    and every token has an address on the web. *)
From Verif.Base Require Import Prelude Bytes.
From Coq Require Import String List.
From Verif.Model Require Import Introspection.
From Verif.Model Require SolAbi Entry EntryErc721.
From Verif.Spec Require Import Router_spec SolAbi_spec Utf8_spec.
From Verif.Spec Require Uri_spec Entry_spec EntryNft_spec.
Import SolAbi Entry.
Import EntryErc721 (world, mkWorld, deployed, replies).
Import Entry_spec (calldata, is_address, has_type, at_key).
Import EntryNft_spec.
#[global] Open Scope Z_scope.
Local Open Scope string_scope.
Local Open Scope list_scope.
Local Open Scope Z_scope.

(** * A plain register *)
(** The requests there are. *)
Definition available (r : request) : Prop :=
  match r with SafeMint _ _ _ | Pause | Unpause => False | _ => True end.
(** The zero address is refused first, then tokens that do not exist, strangers and false owners. *)
Definition moving (b : register) (c f t id : Z) : list (bool * refusal) :=
  [(t =? 0, Because (ERC721InvalidReceiver 0))] ++ existing b id ++ entitled b c id ++
  [(negb (owner_in (r_tokens b) id =? f), Because (ERC721IncorrectOwner f id (owner_in (r_tokens b) id)))].
Definition minting (b : register) (t id : Z) : list (bool * refusal) :=
  [(t =? 0, Because (ERC721InvalidReceiver 0)); (negb (owner_in (r_tokens b) id =? 0), Because (ERC721InvalidSender 0))].
Definition plain (w : world) (c : Z) (r : request) (b : register) : verdict :=
  match r with
  | Burn id => judge (existing b id ++ entitled b c id) (destroyed b id)
  | Mint t id => judge (minting b t id) (given b id t)
  | TransferFrom f t id => judge (moving b c f t id) (given b id t)
  | SafeTransferFrom f t id => judge (moving b c f t id ++ asking w c f t id []) (given b id t)
  | SafeTransferFromData f t id d => judge (moving b c f t id ++ asking w c f t id d) (given b id t)
  | _ => EntryNft_spec.ideal w c r b
  end.

(** * With texts *)
(** What was set for each token, whether it exists or not. *)
Record mbook := mkBook { m_tokens : register; m_uri : Z -> list Z }.
Definition new_book : mbook := mkBook new_register (fun _ => []).
(** What was chosen at deployment. *)
Record labels := mkLabels { l_name : list Z; l_symbol : list Z; l_base : list Z }.
(** Where a token links to. *)
Definition links (base own : list Z) (id : Z) (u : list Z) : Prop :=
  match base, own with
  | [], _ => u = own
  | _, [] => exists digits, Uri_spec.is_decimal digits id /\ u = base ++ digits
  | _, _ => u = base ++ own
  end.

Inductive mrequest := Token (r : request) | SetTokenURI (id : Z) (u : list Z).
Definition mrequest_data (r : mrequest) : list Z :=
  match r with
  | Token r => request_data r
  | SetTokenURI id u => calldata "setTokenURI(uint256,string)" [Word id; Octets u]
  end.
Definition asks (r : mrequest) : Prop :=
  match r with
  | Token r => request_fits r /\ available r
  | SetTokenURI id u => is_u256 id /\ text u /\ size u < 2 ^ 255
  end.
Inductive mverdict := Yes (b : mbook) | No (why : refusal).
(** Anybody sets what they like for any token. *)
Definition ideal (w : world) (c : Z) (r : mrequest) (b : mbook) : mverdict :=
  match r with
  | Token r => match plain w c r (m_tokens b) with
               | Granted t => Yes (mkBook t (m_uri b))
               | Denied why => No why
               end
  | SetTokenURI id u => Yes (mkBook (m_tokens b) (fun j => if j =? id then u else m_uri b j))
  end.
Definition ideal_step (b : mbook) (x : world * Z * mrequest) : mbook :=
  match ideal (fst (fst x)) (snd (fst x)) (snd x) b with Yes b' => b' | No _ => b end.
Definition ideal_run (l : list (world * Z * mrequest)) (b : mbook) : mbook := fold_left ideal_step l b.
Definition sends (l : list (world * Z * mrequest)) : list (world * (Z * Z * list Z)) :=
  map (fun x => (fst (fst x), (snd (fst x), 0, mrequest_data (snd x)))) l.
Definition mbook_fits (b : mbook) : Prop :=
  register_fits (m_tokens b) /\ r_paused (m_tokens b) = false /\ (forall id, text (m_uri b id)).

(** The requests among the calls of a history; everything else does not count. *)
Inductive requests_of : list (world * (Z * Z * list Z)) -> list (world * Z * mrequest) -> Prop :=
| no_calls : requests_of [] []
| a_request w c r h l : asks r -> requests_of h l -> requests_of ((w, (c, 0, mrequest_data r)) :: h) ((w, c, r) :: l)
| another_call w c v d h l : (forall r, asks r -> ~ (v = 0 /\ d = mrequest_data r)) ->
    requests_of h l -> requests_of ((w, (c, v, d)) :: h) l.

(** * What the answers say *)
Section seen.
  Context {S : Type} (call : world -> Z -> Z -> list Z -> S -> answer * S).
  Definition says_text (s : S) (sig : string) (args : list val) (u : list Z) : Prop :=
    forall w c, call w c 0 (calldata sig args) s = (Returned (abi_params [Octets u]), s).
  Definition shows (lb : labels) (s : S) (b : mbook) : Prop :=
    (forall id, is_u256 id ->
       if owner_in (r_tokens (m_tokens b)) id =? 0 then
         objects call s "ownerOf(uint256)" [Word id] (ERC721NonexistentToken id) /\
         objects call s "getApproved(uint256)" [Word id] (ERC721NonexistentToken id) /\
         objects call s "tokenURI(uint256)" [Word id] (ERC721NonexistentToken id)
       else
         tells call s "ownerOf(uint256)" [Word id] (owner_in (r_tokens (m_tokens b)) id) /\
         tells call s "getApproved(uint256)" [Word id] (r_approved (m_tokens b) id) /\
         exists u, links (l_base lb) (m_uri b id) id u /\ text u /\ says_text s "tokenURI(uint256)" [Word id] u) /\
    (forall a, is_address a -> a <> 0 -> tells call s "balanceOf(address)" [Word a] (holding (r_tokens (m_tokens b)) a)) /\
    objects call s "balanceOf(address)" [Word 0] (ERC721InvalidOwner 0) /\
    (forall o p, is_address o -> is_address p ->
       tells call s "isApprovedForAll(address,address)" [Word o; Word p] (if r_operator (m_tokens b) o p then 1 else 0)) /\
    says_text s "name()" [] (l_name lb) /\ says_text s "symbol()" [] (l_symbol lb).
  Definition follows (lb : labels) (w : world) (s : S) (b : mbook) (c : Z) (r : mrequest) : Prop :=
    match ideal w c r b with
    | Yes b' => exists s', call w c 0 (mrequest_data r) s = (Returned [], s') /\ shows lb s' b' /\ mbook_fits b'
    | No (Because why) => exists d, call w c 0 (mrequest_data r) s = (Reverted d, s) /\ decode_reason d = Some why
    | No (Quoting d) => call w c 0 (mrequest_data r) s = (Reverted d, s)
    end.
End seen.

(** * The public functions of examples/erc721-metadata *)
Definition meta_interface : list (string * list abi_type) :=
  [("balanceOf(address)", [Address]); ("ownerOf(uint256)", [U256]); ("getApproved(uint256)", [U256]);
   ("isApprovedForAll(address,address)", [Address; Address]);
   ("approve(address,uint256)", [Address; U256]); ("setApprovalForAll(address,bool)", [Address; bool_]);
   ("transferFrom(address,address,uint256)", [Address; Address; U256]);
   ("safeTransferFrom(address,address,uint256)", [Address; Address; U256]);
   ("safeTransferFrom(address,address,uint256,bytes)", [Address; Address; U256; Bytes]);
   ("mint(address,uint256)", [Address; U256]); ("burn(uint256)", [U256]);
   ("tokenURI(uint256)", [U256]); ("setTokenURI(uint256,string)", [U256; String_]);
   ("name()", []); ("symbol()", []); ("supportsInterface(bytes4)", [FixedBytes4])].
Definition proper (value : Z) (input : list Z) : Prop :=
  value = 0 /\ exists sig ts args, In (sig, ts) meta_interface /\ List.Forall2 has_type ts args /\ input = calldata sig args.
