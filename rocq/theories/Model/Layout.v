(** Where a Stylus contract keeps its fields: the storage layout that the SDK's #[storage]
    attribute and its storage types compute, and the #[storage] structs of the library and of the
    examples. The SDK itself is not in the repository: this follows its documentation (storage is
    laid out as Solidity lays it out), the attribute's packing loop and StorageMap/StorageVec. *)
From Verif.Base Require Import Prelude Bytes.
From Coq Require Import String List.
#[global] Open Scope Z_scope.
#[global] Open Scope list_scope.

(** Value types and field types. *)
Inductive vty := Uint (bits : Z) | Address | Bool | Bytes32.
Inductive ty :=
| Val (v : vty)                     (* StorageUint<..>, StorageAddress, StorageBool, StorageFixedBytes<32> *)
| Map (k : vty) (t : ty)            (* StorageMap<k, t> *)
| Vec (t : ty)                      (* StorageVec<t> *)
| Str                               (* StorageString *)
| Struct (fs : list (string * ty)). (* a #[storage] struct *)
Definition fields := list (string * ty).

(** StorageType::SLOT_BYTES *)
Definition vbytes (v : vty) : Z :=
  match v with Uint bits => bits / 8 | Address => 20 | Bool => 1 | Bytes32 => 32 end.
Definition slot_bytes (t : ty) : Z := match t with Val v => vbytes v | _ => 32 end.

(** One turn of the packing loop: the field goes to [position]; [after] is the loop's state behind
    it. [slot] counts slots from the struct's first, [space] the bytes still free in [slot]; a value
    is put at the right end of the free bytes, so its offset from the left is what stays free. *)
Definition make_room (bytes slot space : Z) : Z * Z := if space <? bytes then (slot + 1, 32) else (slot, space).
Definition position (bytes slot space : Z) : Z * Z :=
  let '(slot, space) := make_room bytes slot space in (slot, space - bytes).
Definition after (bytes words slot space : Z) : Z * Z :=
  let '(slot, space) := position bytes slot space in
  if 0 <? words then (slot + words, 32) else (slot, space).

(** StorageType::REQUIRED_SLOTS: of a struct, the slots its fields take, at least one; 0 for
    everything else. With [partial] false, a slot that is only partly used when a struct follows is
    not counted; no layout in the repository depends on which of the two the SDK does. *)
Definition after_size (partial : bool) (bytes words slot space : Z) : Z * Z :=
  if partial then after bytes words slot space
  else if 0 <? words then (slot + words, 32) else after bytes words slot space.
Definition slots_used (st : Z * Z) : Z :=
  let '(slot, space) := st in Z.max 1 (slot + (if space =? 32 then 0 else 1)).
Fixpoint required_ (partial : bool) (t : ty) : Z :=
  match t with
  | Struct fs =>
      slots_used
        ((fix loop (fs : fields) (st : Z * Z) : Z * Z :=
            match fs with
            | [] => st
            | (_, t) :: fs' => loop fs' (after_size partial (slot_bytes t) (required_ partial t) (fst st) (snd st))
            end) fs (0, 32))
  | _ => 0
  end.
Definition required := required_ true.

(** The fields of a struct with their slot (from the struct's first) and offset. *)
Fixpoint placements_ (partial : bool) (fs : fields) (st : Z * Z) : list (string * (ty * Z * Z)) :=
  match fs with
  | [] => []
  | (name, t) :: fs' =>
      let '(slot, off) := position (slot_bytes t) (fst st) (snd st) in
      (name, (t, slot, off))
      :: placements_ partial fs' (after (slot_bytes t) (required_ partial t) (fst st) (snd st))
  end.
Definition placements := placements_ true.
Fixpoint lookup {A} (name : string) (l : list (string * A)) : option A :=
  match l with
  | [] => None
  | (n, x) :: l' => if String.eqb n name then Some x else lookup name l'
  end.

(** Following field names from a component of type [t] at [slot], [off]. *)
Fixpoint descend (t : ty) (slot off : Z) (names : list string) : option (ty * Z * Z) :=
  match names with
  | [] => Some (t, slot, off)
  | f :: names' =>
      match t with
      | Struct fs =>
          match lookup f (placements fs (0, 32)) with
          | Some (t', d, o) => descend t' (slot + d) o names'
          | None => None
          end
      | _ => None
      end
  end.

(** A place in storage: fields of the contract, then keys and indices, each followed by fields.
    [erc20.balances[a]] is [Then (Root ["erc20"; "balances"]) (Key a) []]. *)
Inductive step := Key (k : Z) | Idx (i : Z).
Inductive place := Root (names : list string) | Then (p : place) (s : step) (names : list string).

(** StorageVec::index_slot: elements per slot, slots per element. *)
Definition density (t : ty) : Z := 32 / slot_bytes t.
Definition words (t : ty) : Z := Z.max (required t) 1.

Record location := Loc { l_type : ty; l_base : Z; l_slot : Z; l_off : Z }.
(** A location is in slot [l_base + l_slot]; [l_base] is 0 or a hash. *)
Definition slot_of (l : location) : Z := (l_base l + l_slot l) mod two256.
Definition at_base (b : Z) (x : option (ty * Z * Z)) : option location :=
  match x with Some (t, s, o) => Some (Loc t b s o) | None => None end.

Section Hash.
Context (hash : list Z -> Z).
(** StorageMap::getter (StorageKey::to_slot: the key's word and the map's slot are hashed),
    StorageVec::getter, and StorageString's data beyond 31 bytes. *)
Definition take (l : location) (s : step) (names : list string) : option location :=
  match l_type l, s with
  | Map _ v, Key k => at_base (hash (word k ++ word (slot_of l))) (descend v 0 (32 - slot_bytes v) names)
  | Vec v, Idx i =>
      at_base (hash (word (slot_of l)))
              (descend v (words v * i / density v) (32 - slot_bytes v * (1 + i mod density v)) names)
  | Str, Idx i => at_base (hash (word (slot_of l))) (descend (Val Bytes32) i 0 names)
  | _, _ => None
  end.
Fixpoint resolve (contract : ty) (p : place) : option location :=
  match p with
  | Root names => at_base 0 (descend contract 0 0 names)
  | Then p s names => match resolve contract p with Some l => take l s names | None => None end
  end.
End Hash.

(** Reading and writing a value at slot, offset from the left: StorageUint::get/set and friends
    load the slot's word and cut out, or replace, [width] bytes. *)
Definition words_of := Z -> Z.
Definition load (width slot off : Z) (m : words_of) : Z := m slot / 2 ^ (8 * (32 - off - width)) mod 2 ^ (8 * width).
Definition store (width slot off v : Z) (m : words_of) : words_of :=
  fun s => if s =? slot
           then m s - load width slot off m * 2 ^ (8 * (32 - off - width)) + v * 2 ^ (8 * (32 - off - width))
           else m s.

(** ** The #[storage] structs *)
Module Structs.
Open Scope string_scope.
Open Scope list_scope.
(** contracts/src/access/control.rs:124-130 *)
Definition RoleData := Struct [("has_role", Map Address (Val Bool)); ("admin_role", Val Bytes32)].
(** contracts/src/access/control.rs:133-137 *)
Definition AccessControl := Struct [("roles", Map Bytes32 (RoleData))].
(** contracts/src/access/ownable.rs:68-72 *)
Definition Ownable := Struct [("owner", Val Address)].
(** contracts/src/access/ownable_two_step.rs:51-59 *)
Definition Ownable2Step := Struct [("ownable", Ownable); ("pending_owner", Val Address)].
(** contracts/src/token/erc20/utils/safe_erc20.rs:93-94 *)
Definition SafeErc20 := Struct [].
(** contracts/src/finance/vesting_wallet.rs:109-125 *)
Definition VestingWallet :=
  Struct [("ownable", Ownable); ("released", Val (Uint 256)); ("erc20_released", Map Address (Val (Uint
    256))); ("start", Val (Uint 64)); ("duration", Val (Uint 64)); ("safe_erc20", SafeErc20)].
(** contracts/src/token/common/erc2981.rs:106-113 *)
Definition RoyaltyInfo := Struct [("receiver", Val Address); ("royalty_fraction", Val (Uint 96))].
(** contracts/src/token/common/erc2981.rs:116-125 *)
Definition Erc2981 :=
  Struct [("default_royalty_info", RoyaltyInfo); ("token_royalty_info", Map (Uint 256) (RoyaltyInfo));
    ("fee_denominator", Val (Uint 96))].
(** contracts/src/token/erc1155/extensions/metadata_uri.rs:34-39 *)
Definition Erc1155MetadataUri := Struct [("uri", Str)].
(** contracts/src/token/erc1155/mod.rs:200-207 *)
Definition Erc1155 :=
  Struct [("balances", Map (Uint 256) (Map Address (Val (Uint 256)))); ("operator_approvals", Map Address
    (Map Address (Val Bool)))].
(** contracts/src/token/erc1155/extensions/supply.rs:35-43 *)
Definition Erc1155Supply :=
  Struct [("erc1155", Erc1155); ("total_supply", Map (Uint 256) (Val (Uint 256))); ("total_supply_all",
    Val (Uint 256))].
(** contracts/src/token/erc1155/extensions/uri_storage.rs:16-22 *)
Definition Erc1155UriStorage := Struct [("base_uri", Str); ("token_uris", Map (Uint 256) (Str))].
(** contracts/src/token/erc20/extensions/capped.rs:51-55 *)
Definition Capped := Struct [("cap", Val (Uint 256))].
(** contracts/src/token/erc20/extensions/erc4626.rs:139-149 *)
Definition Erc4626 :=
  Struct [("asset", Val Address); ("underlying_decimals", Val (Uint 8)); ("decimals_offset", Val (Uint
    8)); ("safe_erc20", SafeErc20)].
(** contracts/src/token/erc20/extensions/flash_mint.rs:128-134 *)
Definition Erc20FlashMint :=
  Struct [("flash_fee_value", Val (Uint 256)); ("flash_fee_receiver_address", Val Address)].
(** contracts/src/utils/metadata.rs:7-13 *)
Definition Metadata := Struct [("name", Str); ("symbol", Str)].
(** contracts/src/token/erc20/extensions/metadata.rs:17-21 *)
Definition Erc20Metadata := Struct [("metadata", Metadata)].
(** examples/erc20-permit/src/lib.rs:27-28 *)
Definition Eip712 := Struct [].
(** contracts/src/token/erc20/extensions/permit.rs:78-82 *)
Definition Erc20Permit := Struct [("eip712", Eip712)].
(** contracts/src/token/erc20/extensions/wrapper.rs:88-96 *)
Definition Erc20Wrapper :=
  Struct [("underlying", Val Address); ("underlying_decimals", Val (Uint 8)); ("safe_erc20", SafeErc20)].
(** contracts/src/token/erc20/mod.rs:130-139 *)
Definition Erc20 :=
  Struct [("balances", Map Address (Val (Uint 256))); ("allowances", Map Address (Map Address (Val (Uint
    256)))); ("total_supply", Val (Uint 256))].
(** contracts/src/token/erc721/mod.rs:187-198 *)
Definition Erc721 :=
  Struct [("owners", Map (Uint 256) (Val Address)); ("balances", Map Address (Val (Uint 256)));
    ("token_approvals", Map (Uint 256) (Val Address)); ("operator_approvals", Map Address (Map Address
    (Val Bool)))].
(** contracts/src/utils/structs/checkpoints/mod.rs:60-66 *)
Definition Checkpoint := Struct [("key", Val (Uint 96)); ("value", Val (Uint 160))].
(** contracts/src/utils/structs/checkpoints/mod.rs:53-57 *)
Definition Trace := Struct [("checkpoints", Vec (Checkpoint))].
(** contracts/src/utils/structs/bitmap.rs:27-31 *)
Definition BitMap := Struct [("data", Map (Uint 256) (Val (Uint 256)))].
(** contracts/src/token/erc721/extensions/consecutive.rs:132-147 *)
Definition Erc721Consecutive :=
  Struct [("erc721", Erc721); ("sequential_ownership", Trace); ("sequential_burn", BitMap);
    ("first_consecutive_id", Val (Uint 96)); ("max_batch_size", Val (Uint 96))].
(** contracts/src/token/erc721/extensions/enumerable.rs:70-80 *)
Definition Erc721Enumerable :=
  Struct [("owned_tokens", Map Address (Map (Uint 256) (Val (Uint 256)))); ("owned_tokens_index", Map
    (Uint 256) (Val (Uint 256))); ("all_tokens", Vec (Val (Uint 256))); ("all_tokens_index", Map (Uint
    256) (Val (Uint 256)))].
(** contracts/src/token/erc721/extensions/metadata.rs:21-27 *)
Definition Erc721Metadata := Struct [("metadata", Metadata); ("base_uri", Str)].
(** contracts/src/token/erc721/extensions/uri_storage.rs:39-43 *)
Definition Erc721UriStorage := Struct [("token_uris", Map (Uint 256) (Str))].
(** contracts/src/token/erc721/extensions/wrapper.rs:71-75 *)
Definition Erc721Wrapper := Struct [("underlying", Val Address)].
(** contracts/src/utils/nonces.rs:45-49 *)
Definition Nonces := Struct [("nonces", Map Address (Val (Uint 256)))].
(** contracts/src/utils/pausable.rs:73-77 *)
Definition Pausable := Struct [("paused", Val Bool)].
(** examples/access-control/src/lib.rs:20-26 *)
Definition AccessControlExample := Struct [("erc20", Erc20); ("access", AccessControl)].
(** examples/ecdsa/src/lib.rs:11-12 *)
Definition ECDSAExample := Struct [].
(** examples/erc1155-metadata-uri/src/lib.rs:15-21 *)
Definition Erc1155MetadataUriExample :=
  Struct [("erc1155", Erc1155); ("metadata_uri", Erc1155MetadataUri); ("uri_storage", Erc1155UriStorage)].
(** examples/erc1155-supply/src/lib.rs:18-22 *)
Definition Erc1155SupplyExample := Struct [("erc1155_supply", Erc1155Supply)].
(** examples/erc1155/src/lib.rs:20-26 *)
Definition Erc1155Example := Struct [("erc1155", Erc1155); ("pausable", Pausable)].
(** examples/erc20-flash-mint/src/lib.rs:21-27 *)
Definition Erc20FlashMintExample := Struct [("erc20", Erc20); ("flash_mint", Erc20FlashMint)].
(** examples/erc20-permit/src/lib.rs:17-25 *)
Definition Erc20PermitExample := Struct [("erc20", Erc20); ("nonces", Nonces); ("erc20_permit", Erc20Permit)].
(** examples/erc20-wrapper/src/lib.rs:14-20 *)
Definition Erc20WrapperExample := Struct [("erc20", Erc20); ("erc20_wrapper", Erc20Wrapper)].
(** examples/erc20/src/lib.rs:27-37 *)
Definition Erc20Example :=
  Struct [("erc20", Erc20); ("metadata", Erc20Metadata); ("capped", Capped); ("pausable", Pausable)].
(** examples/erc4626/src/lib.rs:21-29 *)
Definition Erc4626Example := Struct [("erc20", Erc20); ("metadata", Erc20Metadata); ("erc4626", Erc4626)].
(** examples/erc721-consecutive/src/lib.rs:15-19 *)
Definition Erc721ConsecutiveExample := Struct [("erc721_consecutive", Erc721Consecutive)].
(** examples/erc721-metadata/src/lib.rs:21-28 *)
Definition Erc721MetadataExample :=
  Struct [("erc721", Erc721); ("metadata", Erc721Metadata); ("uri_storage", Erc721UriStorage)].
(** examples/erc721-wrapper/src/lib.rs:14-20 *)
Definition Erc721WrapperExample := Struct [("erc721", Erc721); ("erc721_wrapper", Erc721Wrapper)].
(** examples/erc721/src/lib.rs:27-35 *)
Definition Erc721Example :=
  Struct [("erc721", Erc721); ("enumerable", Erc721Enumerable); ("pausable", Pausable)].
(** examples/merkle-proofs/src/lib.rs:52-53 *)
Definition VerifierContract := Struct [].
(** examples/ownable-two-step/src/lib.rs:20-26 *)
Definition Ownable2StepExample := Struct [("erc20", Erc20); ("ownable", Ownable2Step)].
(** examples/ownable/src/lib.rs:20-26 *)
Definition OwnableExample := Struct [("erc20", Erc20); ("ownable", Ownable)].
(** examples/poseidon/src/lib.rs:15-16 *)
Definition PoseidonExample := Struct [].
(** examples/safe-erc20/src/lib.rs:8-12 *)
Definition SafeErc20Example := Struct [("safe_erc20", SafeErc20)].
(** examples/vesting-wallet/src/lib.rs:8-12 *)
Definition VestingWalletExample := Struct [("vesting_wallet", VestingWallet)].
Definition examples : list (string * ty) :=
  [("access-control", AccessControlExample);
   ("ecdsa", ECDSAExample);
   ("erc1155-metadata-uri", Erc1155MetadataUriExample);
   ("erc1155-supply", Erc1155SupplyExample);
   ("erc1155", Erc1155Example);
   ("erc20-flash-mint", Erc20FlashMintExample);
   ("erc20-permit", Erc20PermitExample);
   ("erc20-wrapper", Erc20WrapperExample);
   ("erc20", Erc20Example);
   ("erc4626", Erc4626Example);
   ("erc721-consecutive", Erc721ConsecutiveExample);
   ("erc721-metadata", Erc721MetadataExample);
   ("erc721-wrapper", Erc721WrapperExample);
   ("erc721", Erc721Example);
   ("merkle-proofs", VerifierContract);
   ("ownable-two-step", Ownable2StepExample);
   ("ownable", OwnableExample);
   ("poseidon", PoseidonExample);
   ("safe-erc20", SafeErc20Example);
   ("vesting-wallet", VestingWalletExample)].
End Structs.
