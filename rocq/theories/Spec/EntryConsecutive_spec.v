(** A collection handed out in batches at deployment (examples/erc721-consecutive) as its users
    know it, on top of Spec/EntryNft_spec.v and the plain register of Spec/EntryMeta_spec.v:
    anybody mints tokens nobody has, and anybody burns tokens. *)
From Verif.Base Require Import Prelude Bytes.
From Coq Require Import String List.
From Verif.Model Require Import Introspection.
From Verif.Model Require SolAbi Entry EntryErc721.
From Verif.Spec Require Import Router_spec SolAbi_spec.
From Verif.Spec Require Entry_spec EntryNft_spec EntryMeta_spec.
Import SolAbi Entry.
Import EntryErc721 (world, mkWorld, deployed, replies).
Import Entry_spec (calldata, is_address, has_type).
Import EntryNft_spec.
Import EntryMeta_spec (available, moving, minting).
#[global] Open Scope Z_scope.
Local Open Scope string_scope.
Local Open Scope list_scope.
Local Open Scope Z_scope.

(** * The register at deployment: everybody on the list gets the next [n] numbers *)
Fixpoint handed_out (next : Z) (l : list (Z * Z)) : list (Z * Z) :=
  match l with
  | [] => []
  | (to, n) :: l' => map (fun i => (next + Z.of_nat i, to)) (seq 0 (Z.to_nat n)) ++ handed_out (next + n) l'
  end.
Definition deployed_register (first : Z) (receivers amounts : list Z) : register :=
  mkReg (handed_out first (combine receivers amounts)) (fun _ => 0) (fun _ _ => false) false.
(** The arguments of the constructor, of their Solidity types. *)
Definition arguments_fit (first : Z) (receivers amounts : list Z) : Prop :=
  0 <= first < two96 /\ List.Forall is_address receivers /\ List.Forall (fun n => 0 <= n < two96) amounts /\
  Z.of_nat (length receivers) < two64.

(** * Requests *)
Definition asks (r : request) : Prop := request_fits r /\ available r.
Definition ideal (w : world) (c : Z) (r : request) (b : register) : verdict :=
  match r with
  | Burn id => judge (existing b id) (destroyed b id)
  | _ => EntryMeta_spec.plain w c r b
  end.
Definition ideal_step (b : register) (x : world * Z * request) : register :=
  match ideal (fst (fst x)) (snd (fst x)) (snd x) b with Granted b' => b' | Denied _ => b end.
Definition ideal_run (l : list (world * Z * request)) (b : register) : register := fold_left ideal_step l b.
(** The requests among the calls of a history; everything else does not count. *)
Inductive requests_of : list (world * (Z * Z * list Z)) -> list (world * Z * request) -> Prop :=
| no_calls : requests_of [] []
| a_request w c r h l : asks r -> requests_of h l -> requests_of ((w, (c, 0, request_data r)) :: h) ((w, c, r) :: l)
| another_call w c v d h l : (forall r, asks r -> ~ (v = 0 /\ d = request_data r)) ->
    requests_of h l -> requests_of ((w, (c, v, d)) :: h) l.

(** * What the answers say *)
Section seen.
  Context {S : Type} (call : world -> Z -> Z -> list Z -> S -> answer * S).
  Definition shows (s : S) (b : register) : Prop :=
    (forall id, is_u256 id ->
       if owner_in (r_tokens b) id =? 0 then
         objects call s "ownerOf(uint256)" [Word id] (ERC721NonexistentToken id) /\
         objects call s "getApproved(uint256)" [Word id] (ERC721NonexistentToken id)
       else
         tells call s "ownerOf(uint256)" [Word id] (owner_in (r_tokens b) id) /\
         tells call s "getApproved(uint256)" [Word id] (r_approved b id)) /\
    (forall a, is_address a -> a <> 0 -> tells call s "balanceOf(address)" [Word a] (holding (r_tokens b) a)) /\
    objects call s "balanceOf(address)" [Word 0] (ERC721InvalidOwner 0) /\
    (forall o p, is_address o -> is_address p ->
       tells call s "isApprovedForAll(address,address)" [Word o; Word p] (if r_operator b o p then 1 else 0)).
  Definition follows (w : world) (s : S) (b : register) (c : Z) (r : request) : Prop :=
    match ideal w c r b with
    | Granted b' => exists s', call w c 0 (request_data r) s = (Returned [], s') /\ shows s' b' /\ register_fits b'
    | Denied (Because why) => exists d, call w c 0 (request_data r) s = (Reverted d, s) /\ decode_reason d = Some why
    | Denied (Quoting d) => call w c 0 (request_data r) s = (Reverted d, s)
    end.
End seen.

(** * The public functions of examples/erc721-consecutive *)
Definition consecutive_interface : list (string * list abi_type) :=
  [("balanceOf(address)", [Address]); ("ownerOf(uint256)", [U256]); ("getApproved(uint256)", [U256]);
   ("isApprovedForAll(address,address)", [Address; Address]);
   ("approve(address,uint256)", [Address; U256]); ("setApprovalForAll(address,bool)", [Address; bool_]);
   ("transferFrom(address,address,uint256)", [Address; Address; U256]);
   ("safeTransferFrom(address,address,uint256)", [Address; Address; U256]);
   ("safeTransferFrom(address,address,uint256,bytes)", [Address; Address; U256; Bytes]);
   ("mint(address,uint256)", [Address; U256]); ("burn(uint256)", [U256]); ("supportsInterface(bytes4)", [FixedBytes4])].
Definition proper (value : Z) (input : list Z) : Prop :=
  value = 0 /\ exists sig ts args, In (sig, ts) consecutive_interface /\ List.Forall2 has_type ts args /\ input = calldata sig args.
