(** A collection of many tokens in many copies as its users know it: what they send, what they
    get back, and an ideal book that predicts it. Nothing here refers to the state of the
    contract. *)
From Verif.Base Require Import Prelude Bytes.
From Coq Require Import String List.
From Verif.Model Require Import Introspection.
From Verif.Model Require SolAbi Entry EntryErc721.
From Verif.Spec Require Import Router_spec SolAbi_spec.
From Verif.Spec Require Entry_spec.
Import SolAbi Entry.
Import EntryErc721 (world, mkWorld, deployed, replies).
Import Entry_spec (calldata, is_address, has_type).
#[global] Open Scope Z_scope.
Local Open Scope string_scope.
Local Open Scope list_scope.
Local Open Scope Z_scope.

(** * An ideal book: how many copies of which token somebody has, operators, the pause *)
Record mbook := mkBook {
  m_balance : Z -> Z -> Z;
  m_operator : Z -> Z -> bool;
  m_paused : bool
}.
Definition holds (b : mbook) (a id v : Z) : mbook :=
  mkBook (fun x y => if (x =? a) && (y =? id) then v else m_balance b x y) (m_operator b) (m_paused b).
Definition operates (b : mbook) (o p : Z) (v : bool) : mbook :=
  mkBook (m_balance b) (fun x y => if (x =? o) && (y =? p) then v else m_operator b x y) (m_paused b).
Definition stopped (b : mbook) (v : bool) : mbook := mkBook (m_balance b) (m_operator b) v.
Definition new_book : mbook := mkBook (fun _ _ => 0) (fun _ _ => false) false.

Inductive request :=
| Mint (to id value : Z) (data : list Z) | MintBatch (to : Z) (ids values data : list Z)
| Burn (from id value : Z) | BurnBatch (from : Z) (ids values : list Z)
| Transfer (from to id value : Z) (data : list Z) | TransferBatch (from to : Z) (ids values data : list Z)
| SetApprovalForAll (operator : Z) (v : bool) | Pause | Unpause.
(** What a user sends for it; nothing is returned on success. *)
Definition request_data (r : request) : list Z :=
  match r with
  | Mint t id v d => calldata "mint(address,uint256,uint256,bytes)" [Word t; Word id; Word v; Octets d]
  | MintBatch t ids vs d => calldata "mintBatch(address,uint256[],uint256[],bytes)" [Word t; Words ids; Words vs; Octets d]
  | Burn f id v => calldata "burn(address,uint256,uint256)" [Word f; Word id; Word v]
  | BurnBatch f ids vs => calldata "burnBatch(address,uint256[],uint256[])" [Word f; Words ids; Words vs]
  | Transfer f t id v d =>
      calldata "safeTransferFrom(address,address,uint256,uint256,bytes)" [Word f; Word t; Word id; Word v; Octets d]
  | TransferBatch f t ids vs d =>
      calldata "safeBatchTransferFrom(address,address,uint256[],uint256[],bytes)" [Word f; Word t; Words ids; Words vs; Octets d]
  | SetApprovalForAll p v => calldata "setApprovalForAll(address,bool)" [Word p; Word (if v then 1 else 0)]
  | Pause => calldata "pause()" []
  | Unpause => calldata "unpause()" []
  end.
Definition numbers_fit (l : list Z) : Prop := List.Forall is_u256 l.
Definition bytes_fit (d : list Z) : Prop := List.Forall is_byte d.
Definition request_fits (r : request) : Prop :=
  size (request_data r) < two256 /\
  match r with
  | Mint t id v d => is_address t /\ is_u256 id /\ is_u256 v /\ bytes_fit d
  | MintBatch t ids vs d => is_address t /\ numbers_fit ids /\ numbers_fit vs /\ bytes_fit d
  | Burn f id v => is_address f /\ is_u256 id /\ is_u256 v
  | BurnBatch f ids vs => is_address f /\ numbers_fit ids /\ numbers_fit vs
  | Transfer f t id v d => is_address f /\ is_address t /\ is_u256 id /\ is_u256 v /\ bytes_fit d
  | TransferBatch f t ids vs d => is_address f /\ is_address t /\ numbers_fit ids /\ numbers_fit vs /\ bytes_fit d
  | SetApprovalForAll p _ => is_address p
  | Pause | Unpause => True
  end.

(** The verdict on a request: a new book, a reason of the contract, the words of the receiver,
    or a failure without a word (a balance would pass 2^256). *)
Inductive refusal := Because (r : reason) | Quoting (d : list Z) | Silent.
Inductive verdict := Granted (b : mbook) | Denied (why : refusal).
Definition reply_to (v : verdict) (next : mbook -> verdict) : verdict :=
  match v with Granted b => next b | Denied why => Denied why end.
Fixpoint checks (l : list (bool * refusal)) (b : mbook) : verdict :=
  match l with
  | [] => Granted b
  | (bad, r) :: l' => if bad then Denied r else checks l' b
  end.
Definition running (b : mbook) : list (bool * refusal) := [(m_paused b, Because EnforcedPause)].
(** Holder or operator. *)
Definition entitled (b : mbook) (c f : Z) : list (bool * refusal) :=
  [(negb (c =? f) && negb (m_operator b f c), Because (ERC1155MissingApprovalForAll c f))].
Definition somebody (t : Z) (why : reason) : list (bool * refusal) := [(t =? 0, Because why)].
Definition paired (ids vs : list Z) : list (bool * refusal) :=
  [(negb (length ids =? length vs)%nat, Because (ERC1155InvalidArrayLength (Z.of_nat (length ids)) (Z.of_nat (length vs))))].
(** Taking from [f], giving to [t], one after the other. *)
Definition taken (f id v : Z) (b : mbook) : verdict :=
  if m_balance b f id <? v then Denied (Because (ERC1155InsufficientBalance f (m_balance b f id) v id))
  else Granted (holds b f id (m_balance b f id - v)).
Definition given (t id v : Z) (b : mbook) : verdict :=
  if two256 <=? m_balance b t id + v then Denied Silent
  else Granted (holds b t id (m_balance b t id + v)).
Fixpoint each (act : Z -> Z -> mbook -> verdict) (ids vs : list Z) (b : mbook) : verdict :=
  match ids, vs with
  | id :: ids', v :: vs' => reply_to (act id v b) (each act ids' vs')
  | _, _ => Granted b
  end.
(** A receiver that is a contract is asked, as ERC-1155 says, and must answer with the selector
    of what it was asked: 32 bytes, nothing else. *)
Definition question (c from : Z) (ids vs d : list Z) : list Z * list Z :=
  match ids, vs with
  | [id], [v] => (calldata "onERC1155Received(address,address,uint256,uint256,bytes)" [Word c; Word from; Word id; Word v; Octets d],
                  word (0xf23a6e61 * 2 ^ 224))
  | _, _ => (calldata "onERC1155BatchReceived(address,address,uint256[],uint256[],bytes)" [Word c; Word from; Words ids; Words vs; Octets d],
             word (0xbc197c81 * 2 ^ 224))
  end.
Definition asking (w : world) (c from to : Z) (ids vs d : list Z) (b : mbook) : verdict :=
  if deployed w to then
    let (asked, consent) := question c from ids vs d in
    match replies w to asked with
    | Returned out => if list_eq_dec Z.eq_dec out consent then Granted b else Denied (Because (ERC1155InvalidReceiver to))
    | Reverted [] => Denied (Because (ERC1155InvalidReceiver to))
    | Reverted out => Denied (Quoting out)
    end
  else Granted b.
Definition minting (w : world) (c t : Z) (ids vs d : list Z) (b : mbook) : verdict :=
  reply_to (checks (running b ++ somebody t (ERC1155InvalidReceiver 0) ++ paired ids vs) b) (fun b =>
  reply_to (each (given t) ids vs b) (asking w c 0 t ids vs d)).
Definition burning (c f : Z) (ids vs : list Z) (b : mbook) : verdict :=
  reply_to (checks (running b ++ entitled b c f ++ somebody f (ERC1155InvalidSender 0) ++ paired ids vs) b)
    (each (taken f) ids vs).
Definition moving (w : world) (c f t : Z) (ids vs d : list Z) (b : mbook) : verdict :=
  reply_to (checks (running b ++ entitled b c f ++ somebody t (ERC1155InvalidReceiver 0) ++
                    somebody f (ERC1155InvalidSender 0) ++ paired ids vs) b) (fun b =>
  reply_to (each (fun id v b => reply_to (taken f id v b) (given t id v)) ids vs b) (asking w c f t ids vs d)).
Definition ideal (w : world) (c : Z) (r : request) (b : mbook) : verdict :=
  match r with
  | Mint t id v d => minting w c t [id] [v] d b
  | MintBatch t ids vs d => minting w c t ids vs d b
  | Burn f id v => burning c f [id] [v] b
  | BurnBatch f ids vs => burning c f ids vs b
  | Transfer f t id v d => moving w c f t [id] [v] d b
  | TransferBatch f t ids vs d => moving w c f t ids vs d b
  | SetApprovalForAll p v => checks (somebody p (ERC1155InvalidOperator 0)) (operates b c p v)
  | Pause => checks (running b) (stopped b true)
  | Unpause => checks [(negb (m_paused b), Because ExpectedPause)] (stopped b false)
  end.
(** How many copies of [id] a list moves. *)
Fixpoint amount (ids vs : list Z) (id : Z) : Z :=
  match ids, vs with
  | i :: ids', v :: vs' => (if i =? id then v else 0) + amount ids' vs' id
  | _, _ => 0
  end.
(** Balances moved by [g], everything else as before. *)
Definition shifted (g : Z -> Z -> Z) (b b' : mbook) : Prop :=
  (forall a id, m_balance b' a id = m_balance b a id + g a id) /\ m_operator b' = m_operator b /\ m_paused b' = m_paused b.
(** The ideal book after a series of requests, each in its own world. *)
Definition ideal_step (b : mbook) (x : world * Z * request) : mbook :=
  match ideal (fst (fst x)) (snd (fst x)) (snd x) b with Granted b' => b' | Denied _ => b end.
Definition ideal_run (l : list (world * Z * request)) (b : mbook) : mbook := fold_left ideal_step l b.
Definition sends (l : list (world * Z * request)) : list (world * (Z * Z * list Z)) :=
  map (fun x => (fst (fst x), (snd (fst x), 0, request_data (snd x)))) l.
Definition book_fits (b : mbook) : Prop := forall a id, is_u256 (m_balance b a id).

(** * What the answers say *)
Section seen.
  Context {S : Type} (call : world -> Z -> Z -> list Z -> S -> answer * S).
  (** Anybody may ask in any world, and asking changes nothing. *)
  Definition tells (s : S) (sig : string) (args : list val) (v : Z) : Prop :=
    forall w c, call w c 0 (calldata sig args) s = (Returned (word v), s).
  Definition shows (s : S) (b : mbook) : Prop :=
    (forall a id, is_address a -> is_u256 id -> tells s "balanceOf(address,uint256)" [Word a; Word id] (m_balance b a id)) /\
    (forall o p, is_address o -> is_address p ->
       tells s "isApprovedForAll(address,address)" [Word o; Word p] (if m_operator b o p then 1 else 0)) /\
    tells s "paused()" [] (if m_paused b then 1 else 0).
  (** The answer to a request follows the verdict on it. *)
  Definition follows (w : world) (s : S) (b : mbook) (c : Z) (r : request) : Prop :=
    match ideal w c r b with
    | Granted b' => exists s', call w c 0 (request_data r) s = (Returned [], s') /\ shows s' b' /\ book_fits b'
    | Denied (Because why) => exists d, call w c 0 (request_data r) s = (Reverted d, s) /\ decode_reason d = Some why
    | Denied (Quoting d) => call w c 0 (request_data r) s = (Reverted d, s)
    | Denied Silent => call w c 0 (request_data r) s = (Reverted [], s)
    end.
End seen.

(** * The public functions of examples/erc1155 *)
Definition erc1155_interface : list (string * list abi_type) :=
  [("balanceOf(address,uint256)", [Address; U256]); ("balanceOfBatch(address[],uint256[])", [Vec Address; Vec U256]);
   ("setApprovalForAll(address,bool)", [Address; bool_]); ("isApprovedForAll(address,address)", [Address; Address]);
   ("safeTransferFrom(address,address,uint256,uint256,bytes)", [Address; Address; U256; U256; Bytes]);
   ("safeBatchTransferFrom(address,address,uint256[],uint256[],bytes)", [Address; Address; Vec U256; Vec U256; Bytes]);
   ("mint(address,uint256,uint256,bytes)", [Address; U256; U256; Bytes]);
   ("mintBatch(address,uint256[],uint256[],bytes)", [Address; Vec U256; Vec U256; Bytes]);
   ("burn(address,uint256,uint256)", [Address; U256; U256]); ("burnBatch(address,uint256[],uint256[])", [Address; Vec U256; Vec U256]);
   ("paused()", []); ("pause()", []); ("unpause()", []); ("supportsInterface(bytes4)", [FixedBytes4])].
Definition proper (value : Z) (input : list Z) : Prop :=
  value = 0 /\ exists sig ts args, In (sig, ts) erc1155_interface /\ List.Forall2 has_type ts args /\ input = calldata sig args.
(** Callers are addresses, none of them the zero address; calldata are bytes, fewer than [2^256]. *)
Definition caller_ok (c : Z) : Prop := is_address c /\ c <> 0.
Definition data_fits (d : list Z) : Prop := List.Forall is_byte d /\ size d < two256.
Definition sane (h : list (world * (Z * Z * list Z))) : Prop :=
  List.Forall (fun x => let '(_, (c, _, d)) := x in caller_ok c /\ data_fits d) h.
(** Nobody calls in this name. *)
Definition asleep (a : Z) (h : list (world * (Z * Z * list Z))) : Prop := List.Forall (fun x => fst (fst (snd x)) <> a) h.
(** Nobody ends the pause. *)
Definition no_unpause (h : list (world * (Z * Z * list Z))) : Prop := List.Forall (fun x => snd (snd x) <> request_data Unpause) h.
