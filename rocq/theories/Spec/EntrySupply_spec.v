(** A collection that also counts its copies (examples/erc1155-supply) as its users know it, on
    top of Spec/EntryMulti_spec.v: requests, refusals, balances and questions to receivers are
    the same, there is no pause, anybody may burn, and there are supplies. *)
From Verif.Base Require Import Prelude Bytes.
From Coq Require Import String List.
From Verif.Model Require Import Introspection.
From Verif.Model Require SolAbi Entry EntryErc721.
From Verif.Spec Require Import Router_spec SolAbi_spec.
From Verif.Spec Require Entry_spec EntryMulti_spec.
Import SolAbi Entry.
Import EntryErc721 (world, mkWorld, deployed, replies).
Import Entry_spec (calldata, is_address, has_type).
Import EntryMulti_spec.
#[global] Open Scope Z_scope.
Local Open Scope string_scope.
Local Open Scope list_scope.
Local Open Scope Z_scope.

(** * An ideal book with supplies *)
Record sbook := mkSbook {
  s_tokens : mbook;
  s_supply : Z -> Z;
  s_total : Z
}.
Definition new_sbook : sbook := mkSbook new_book (fun _ => 0) 0.
Inductive sverdict := Yes (b : sbook) | No (why : refusal).
(** The requests without the pause. *)
Definition available (r : request) : Prop := r <> Pause /\ r <> Unpause.
Definition asks (r : request) : Prop := request_fits r /\ available r.

Definition sum (l : list Z) : Z := fold_right Z.add 0 l.
(** The supply of a token, or the count of everything, would pass 2^256; the latter takes the
    values of a list together modulo 2^256 (property C50). *)
Definition too_many (ids vs : list Z) (b : sbook) : bool :=
  existsb (fun id => two256 <=? s_supply b id + amount ids vs id) ids || (two256 <=? s_total b + sum vs mod two256).
(** Somebody gets what the lists say, out of nothing. *)
Definition minting (w : world) (c t : Z) (ids vs d : list Z) (b : sbook) : sverdict :=
  match reply_to (checks (somebody t (ERC1155InvalidReceiver 0) ++ paired ids vs) (s_tokens b)) (each (given t) ids vs) with
  | Denied why => No why
  | Granted m =>
      if too_many ids vs b then No Silent
      else match asking w c 0 t ids vs d m with
           | Denied why => No why
           | Granted m => Yes (mkSbook m (fun id => s_supply b id + amount ids vs id) (s_total b + sum vs mod two256))
           end
  end.
(** Somebody loses what the lists say, whoever asks for it. *)
Definition burning (f : Z) (ids vs : list Z) (b : sbook) : sverdict :=
  match reply_to (checks (somebody f (ERC1155InvalidSender 0) ++ paired ids vs) (s_tokens b)) (each (taken f) ids vs) with
  | Denied why => No why
  | Granted m => Yes (mkSbook m (fun id => s_supply b id - amount ids vs id) ((s_total b - sum vs) mod two256))
  end.
(** Everything else is as in the plain collection. *)
Definition ideal (w : world) (c : Z) (r : request) (b : sbook) : sverdict :=
  match r with
  | Mint t id v d => minting w c t [id] [v] d b
  | MintBatch t ids vs d => minting w c t ids vs d b
  | Burn f id v => burning f [id] [v] b
  | BurnBatch f ids vs => burning f ids vs b
  | _ => match EntryMulti_spec.ideal w c r (s_tokens b) with
         | Granted m => Yes (mkSbook m (s_supply b) (s_total b))
         | Denied why => No why
         end
  end.
Definition ideal_step (b : sbook) (x : world * Z * request) : sbook :=
  match ideal (fst (fst x)) (snd (fst x)) (snd x) b with Yes b' => b' | No _ => b end.
Definition ideal_run (l : list (world * Z * request)) (b : sbook) : sbook := fold_left ideal_step l b.
Definition sbook_fits (b : sbook) : Prop :=
  book_fits (s_tokens b) /\ (forall id, is_u256 (s_supply b id)) /\ is_u256 (s_total b) /\ m_paused (s_tokens b) = false.

(** * What the answers say *)
Section seen.
  Context {S : Type} (call : world -> Z -> Z -> list Z -> S -> answer * S).
  Definition shows (s : S) (b : sbook) : Prop :=
    (forall a id, is_address a -> is_u256 id ->
       tells call s "balanceOf(address,uint256)" [Word a; Word id] (m_balance (s_tokens b) a id)) /\
    (forall o p, is_address o -> is_address p ->
       tells call s "isApprovedForAll(address,address)" [Word o; Word p] (if m_operator (s_tokens b) o p then 1 else 0)) /\
    (forall id, is_u256 id -> tells call s "totalSupply(uint256)" [Word id] (s_supply b id)) /\
    (forall id, is_u256 id -> tells call s "exists(uint256)" [Word id] (if 0 <? s_supply b id then 1 else 0)) /\
    tells call s "totalSupply()" [] (s_total b).
  Definition follows (w : world) (s : S) (b : sbook) (c : Z) (r : request) : Prop :=
    match ideal w c r b with
    | Yes b' => exists s', call w c 0 (request_data r) s = (Returned [], s') /\ shows s' b' /\ sbook_fits b'
    | No (Because why) => exists d, call w c 0 (request_data r) s = (Reverted d, s) /\ decode_reason d = Some why
    | No (Quoting d) => call w c 0 (request_data r) s = (Reverted d, s)
    | No Silent => call w c 0 (request_data r) s = (Reverted [], s)
    end.
  (** The supplies shown are the sums of what is shown: of the balances of a token over everybody
      who has some, and of the supplies over all tokens there are, modulo 2^256. *)
  Definition adds_up (b : sbook) : Prop :=
    (forall id, is_u256 id -> exists holders, List.NoDup holders /\
       (forall a, is_address a -> m_balance (s_tokens b) a id <> 0 -> In a holders) /\
       List.Forall is_address holders /\
       s_supply b id = sum (map (fun a => m_balance (s_tokens b) a id) holders)) /\
    (exists tokens, List.NoDup tokens /\
       (forall id, is_u256 id -> s_supply b id <> 0 -> In id tokens) /\
       List.Forall is_u256 tokens /\
       s_total b = sum (map (s_supply b) tokens) mod two256).
End seen.

(** * The public functions of examples/erc1155-supply *)
Definition supply_interface : list (string * list abi_type) :=
  [("balanceOf(address,uint256)", [Address; U256]); ("balanceOfBatch(address[],uint256[])", [Vec Address; Vec U256]);
   ("setApprovalForAll(address,bool)", [Address; bool_]); ("isApprovedForAll(address,address)", [Address; Address]);
   ("safeTransferFrom(address,address,uint256,uint256,bytes)", [Address; Address; U256; U256; Bytes]);
   ("safeBatchTransferFrom(address,address,uint256[],uint256[],bytes)", [Address; Address; Vec U256; Vec U256; Bytes]);
   ("mint(address,uint256,uint256,bytes)", [Address; U256; U256; Bytes]);
   ("mintBatch(address,uint256[],uint256[],bytes)", [Address; Vec U256; Vec U256; Bytes]);
   ("burn(address,uint256,uint256)", [Address; U256; U256]); ("burnBatch(address,uint256[],uint256[])", [Address; Vec U256; Vec U256]);
   ("totalSupply(uint256)", [U256]); ("totalSupply()", []); ("exists(uint256)", [U256]); ("supportsInterface(bytes4)", [FixedBytes4])].
Definition proper (value : Z) (input : list Z) : Prop :=
  value = 0 /\ exists sig ts args, In (sig, ts) supply_interface /\ List.Forall2 has_type ts args /\ input = calldata sig args.
