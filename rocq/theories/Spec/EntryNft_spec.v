(** A collection of non-fungible tokens as its users know it: what they send, what they get
    back, and an ideal register that predicts it. Nothing here refers to the state of the
    contract. *)
From Verif.Base Require Import Prelude Bytes.
From Coq Require Import String List Permutation.
From Verif.Model Require Import Introspection.
From Verif.Model Require SolAbi Entry EntryErc721.
From Verif.Spec Require Import Router_spec SolAbi_spec.
From Verif.Spec Require Entry_spec.
Import SolAbi Entry.
Import EntryErc721 (world, mkWorld, deployed, replies).
Import Entry_spec (calldata, is_address, has_type, at_key).
#[global] Open Scope Z_scope.
Local Open Scope string_scope.
Local Open Scope list_scope.
Local Open Scope Z_scope.

(** * An ideal register: the tokens with their owners, whom they are approved for, operators *)
Record register := mkReg {
  r_tokens : list (Z * Z);
  r_approved : Z -> Z;
  r_operator : Z -> Z -> bool;
  r_paused : bool
}.
(** The owner of a token; 0 if there is no such token. *)
Fixpoint owner_in (l : list (Z * Z)) (id : Z) : Z :=
  match l with
  | [] => 0
  | (i, o) :: l' => if i =? id then o else owner_in l' id
  end.
(** How many tokens somebody has. *)
Fixpoint holding (l : list (Z * Z)) (a : Z) : Z :=
  match l with
  | [] => 0
  | (_, o) :: l' => (if o =? a then 1 else 0) + holding l' a
  end.
Definition without (l : list (Z * Z)) (id : Z) : list (Z * Z) := filter (fun p => negb (fst p =? id)) l.
(** A token that changes hands is approved for nobody. *)
Definition given (b : register) (id to : Z) : register :=
  mkReg ((id, to) :: without (r_tokens b) id) (at_key (r_approved b) id 0) (r_operator b) (r_paused b).
Definition destroyed (b : register) (id : Z) : register :=
  mkReg (without (r_tokens b) id) (at_key (r_approved b) id 0) (r_operator b) (r_paused b).
Definition approved_for (b : register) (id to : Z) : register :=
  mkReg (r_tokens b) (at_key (r_approved b) id to) (r_operator b) (r_paused b).
Definition operated_by (b : register) (o p : Z) (v : bool) : register :=
  mkReg (r_tokens b) (r_approved b) (fun x y => if (x =? o) && (y =? p) then v else r_operator b x y) (r_paused b).
Definition paused_now (b : register) (v : bool) : register := mkReg (r_tokens b) (r_approved b) (r_operator b) v.

Inductive request :=
| Burn (id : Z) | Mint (to id : Z) | SafeMint (to id : Z) (data : list Z)
| TransferFrom (from to id : Z) | SafeTransferFrom (from to id : Z) | SafeTransferFromData (from to id : Z) (data : list Z)
| Approve (to id : Z) | SetApprovalForAll (operator : Z) (v : bool) | Pause | Unpause.
(** What a user sends for it; nothing is returned on success. *)
Definition request_data (r : request) : list Z :=
  match r with
  | Burn id => calldata "burn(uint256)" [Word id]
  | Mint t id => calldata "mint(address,uint256)" [Word t; Word id]
  | SafeMint t id d => calldata "safeMint(address,uint256,bytes)" [Word t; Word id; Octets d]
  | TransferFrom f t id => calldata "transferFrom(address,address,uint256)" [Word f; Word t; Word id]
  | SafeTransferFrom f t id => calldata "safeTransferFrom(address,address,uint256)" [Word f; Word t; Word id]
  | SafeTransferFromData f t id d =>
      calldata "safeTransferFrom(address,address,uint256,bytes)" [Word f; Word t; Word id; Octets d]
  | Approve t id => calldata "approve(address,uint256)" [Word t; Word id]
  | SetApprovalForAll p v => calldata "setApprovalForAll(address,bool)" [Word p; Word (if v then 1 else 0)]
  | Pause => calldata "pause()" []
  | Unpause => calldata "unpause()" []
  end.
Definition data_fits (d : list Z) : Prop := List.Forall is_byte d /\ size d < 2 ^ 255.
Definition request_fits (r : request) : Prop :=
  match r with
  | Burn id => is_u256 id
  | Mint t id | Approve t id => is_address t /\ is_u256 id
  | SafeMint t id d => is_address t /\ is_u256 id /\ data_fits d
  | TransferFrom f t id | SafeTransferFrom f t id => is_address f /\ is_address t /\ is_u256 id
  | SafeTransferFromData f t id d => is_address f /\ is_address t /\ is_u256 id /\ data_fits d
  | SetApprovalForAll p _ => is_address p
  | Pause | Unpause => True
  end.

(** The verdict on a request: a new register, a reason of the contract, or the words of the
    receiver. *)
Inductive refusal := Because (r : reason) | Quoting (d : list Z).
Inductive verdict := Granted (b : register) | Denied (why : refusal).
Fixpoint judge (l : list (bool * refusal)) (b : register) : verdict :=
  match l with
  | [] => Granted b
  | (bad, r) :: l' => if bad then Denied r else judge l' b
  end.
Definition running (b : register) : list (bool * refusal) := [(r_paused b, Because EnforcedPause)].
Definition existing (b : register) (id : Z) : list (bool * refusal) :=
  [(owner_in (r_tokens b) id =? 0, Because (ERC721NonexistentToken id))].
(** The owner, an operator of the owner, or whom the token is approved for. *)
Definition entitled (b : register) (c id : Z) : list (bool * refusal) :=
  let o := owner_in (r_tokens b) id in
  [(negb ((c =? o) || r_operator b o c || (c =? r_approved b id)), Because (ERC721InsufficientApproval c id))].
Definition moving (b : register) (c f t id : Z) : list (bool * refusal) :=
  running b ++ existing b id ++ [(t =? 0, Because (ERC721InvalidReceiver 0))] ++ entitled b c id ++
  [(negb (owner_in (r_tokens b) id =? f), Because (ERC721IncorrectOwner f id (owner_in (r_tokens b) id)))].
Definition minting (b : register) (t id : Z) : list (bool * refusal) :=
  running b ++ [(t =? 0, Because (ERC721InvalidReceiver 0));
                (negb (owner_in (r_tokens b) id =? 0), Because (ERC721InvalidSender 0))].
(** A receiver that is a contract is asked, as ERC-721 says, and must answer with the selector
    of what it was asked: 32 bytes, nothing else. *)
Definition question (c from id : Z) (d : list Z) : list Z :=
  calldata "onERC721Received(address,address,uint256,bytes)" [Word c; Word from; Word id; Octets d].
Definition consent : list Z := word (0x150b7a02 * 2 ^ 224).
Definition asking (w : world) (c from to id : Z) (d : list Z) : list (bool * refusal) :=
  if deployed w to then
    match replies w to (question c from id d) with
    | Returned out => [(if list_eq_dec Z.eq_dec out consent then false else true, Because (ERC721InvalidReceiver to))]
    | Reverted [] => [(true, Because (ERC721InvalidReceiver to))]
    | Reverted out => [(true, Quoting out)]
    end
  else [].
Definition ideal (w : world) (c : Z) (r : request) (b : register) : verdict :=
  match r with
  | Burn id => judge (running b ++ existing b id ++ entitled b c id) (destroyed b id)
  | Mint t id => judge (minting b t id) (given b id t)
  | SafeMint t id d => judge (minting b t id ++ asking w c 0 t id d) (given b id t)
  | TransferFrom f t id => judge (moving b c f t id) (given b id t)
  | SafeTransferFrom f t id => judge (moving b c f t id ++ asking w c f t id []) (given b id t)
  | SafeTransferFromData f t id d => judge (moving b c f t id ++ asking w c f t id d) (given b id t)
  | Approve t id =>
      let o := owner_in (r_tokens b) id in
      judge (existing b id ++ [(negb ((o =? c) || r_operator b o c), Because (ERC721InvalidApprover c))]) (approved_for b id t)
  | SetApprovalForAll p v => judge [(p =? 0, Because (ERC721InvalidOperator 0))] (operated_by b c p v)
  | Pause => judge (running b) (paused_now b true)
  | Unpause => judge [(negb (r_paused b), Because ExpectedPause)] (paused_now b false)
  end.
(** The ideal register after a series of requests, each in its own world. *)
Definition ideal_step (b : register) (x : world * Z * request) : register :=
  match ideal (fst (fst x)) (snd (fst x)) (snd x) b with Granted b' => b' | Denied _ => b end.
Definition ideal_run (l : list (world * Z * request)) (b : register) : register := fold_left ideal_step l b.
(** What is sent for it. *)
Definition sends (l : list (world * Z * request)) : list (world * (Z * Z * list Z)) :=
  map (fun x => (fst (fst x), (snd (fst x), 0, request_data (snd x)))) l.
Definition new_register : register := mkReg [] (fun _ => 0) (fun _ _ => false) false.

(** Every token once, with a number and an owner; fewer than [2^256] tokens. *)
Definition register_fits (b : register) : Prop :=
  NoDup (map fst (r_tokens b)) /\
  List.Forall (fun p => is_u256 (fst p) /\ is_address (snd p) /\ snd p <> 0) (r_tokens b) /\
  Z.of_nat (length (r_tokens b)) < two256 /\ (forall id, is_u256 (r_approved b id)).

(** * What the answers say *)
Section seen.
  Context {S : Type} (call : world -> Z -> Z -> list Z -> S -> answer * S).
  (** Anybody may ask in any world, and asking changes nothing. *)
  Definition tells (s : S) (sig : string) (args : list val) (v : Z) : Prop :=
    forall w c, call w c 0 (calldata sig args) s = (Returned (word v), s).
  Definition objects (s : S) (sig : string) (args : list val) (why : reason) : Prop :=
    forall w c, exists d, call w c 0 (calldata sig args) s = (Reverted d, s) /\ decode_reason d = Some why.
  Definition shows (s : S) (b : register) : Prop :=
    (forall id, is_u256 id ->
       if owner_in (r_tokens b) id =? 0 then
         objects s "ownerOf(uint256)" [Word id] (ERC721NonexistentToken id) /\
         objects s "getApproved(uint256)" [Word id] (ERC721NonexistentToken id)
       else
         tells s "ownerOf(uint256)" [Word id] (owner_in (r_tokens b) id) /\
         tells s "getApproved(uint256)" [Word id] (r_approved b id)) /\
    (forall a, is_address a -> a <> 0 -> tells s "balanceOf(address)" [Word a] (holding (r_tokens b) a)) /\
    objects s "balanceOf(address)" [Word 0] (ERC721InvalidOwner 0) /\
    (forall o p, is_address o -> is_address p ->
       tells s "isApprovedForAll(address,address)" [Word o; Word p] (if r_operator b o p then 1 else 0)) /\
    tells s "totalSupply()" [] (Z.of_nat (length (r_tokens b))) /\
    (exists l, Permutation l (map fst (r_tokens b)) /\
       forall i, is_u256 i ->
         match nth_error l (Z.to_nat i) with
         | Some id => tells s "tokenByIndex(uint256)" [Word i] id
         | None => objects s "tokenByIndex(uint256)" [Word i] (ERC721OutOfBoundsIndex 0 i)
         end) /\
    tells s "paused()" [] (if r_paused b then 1 else 0).
  (** The answer to a request follows the verdict on it. *)
  Definition follows (w : world) (s : S) (b : register) (c : Z) (r : request) : Prop :=
    match ideal w c r b with
    | Granted b' => exists s', call w c 0 (request_data r) s = (Returned [], s') /\ shows s' b' /\ register_fits b'
    | Denied (Because why) => exists d, call w c 0 (request_data r) s = (Reverted d, s) /\ decode_reason d = Some why
    | Denied (Quoting d) => call w c 0 (request_data r) s = (Reverted d, s)
    end.
End seen.

(** * The public functions of examples/erc721 *)
Definition erc721_interface : list (string * list abi_type) :=
  [("balanceOf(address)", [Address]); ("ownerOf(uint256)", [U256]); ("getApproved(uint256)", [U256]);
   ("isApprovedForAll(address,address)", [Address; Address]);
   ("approve(address,uint256)", [Address; U256]); ("setApprovalForAll(address,bool)", [Address; bool_]);
   ("transferFrom(address,address,uint256)", [Address; Address; U256]);
   ("safeTransferFrom(address,address,uint256)", [Address; Address; U256]);
   ("safeTransferFrom(address,address,uint256,bytes)", [Address; Address; U256; Bytes]);
   ("mint(address,uint256)", [Address; U256]); ("safeMint(address,uint256,bytes)", [Address; U256; Bytes]);
   ("burn(uint256)", [U256]);
   ("totalSupply()", []); ("tokenByIndex(uint256)", [U256]); ("tokenOfOwnerByIndex(address,uint256)", [Address; U256]);
   ("paused()", []); ("pause()", []); ("unpause()", []); ("supportsInterface(bytes4)", [FixedBytes4])].
Definition proper (value : Z) (input : list Z) : Prop :=
  value = 0 /\ exists sig ts args, In (sig, ts) erc721_interface /\ List.Forall2 has_type ts args /\ input = calldata sig args.
(** Callers are addresses, none of them the zero address; calldata are bytes, and fewer than
    [2^255] of them. *)
Definition caller_ok (c : Z) : Prop := is_address c /\ c <> 0.
Definition sane (h : list (world * (Z * Z * list Z))) : Prop :=
  List.Forall (fun x => let '(_, (c, _, d)) := x in caller_ok c /\ data_fits d) h.
(** No transfer from somebody to themselves. *)
Definition no_self_transfers (h : list (world * (Z * Z * list Z))) : Prop :=
  List.Forall (fun x => forall a id d, snd (snd x) <> request_data (TransferFrom a a id) /\
    snd (snd x) <> request_data (SafeTransferFrom a a id) /\ snd (snd x) <> request_data (SafeTransferFromData a a id d)) h.
Definition tokens_of (b : register) (a : Z) : list Z := map fst (filter (fun p => snd p =? a) (r_tokens b)).
