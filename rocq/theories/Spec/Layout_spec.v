(** Specification of storage layout: Solidity's documented rules, what it is for two places to
    share bytes, near-collisions of the hash, and the declarations of the constructors. *)
From Verif.Base Require Import Prelude Bytes.
From Verif.Model Require Import Layout.
From Coq Require Import String List.
#[global] Open Scope Z_scope.
#[global] Open Scope list_scope.

(** ** Solidity's layout of state variables (docs, "Layout of State Variables in Storage")

    The first item in a slot is stored lower-order aligned. Value types use only as many bytes as
    they need. A value that does not fit the rest of a slot goes to the next slot. Structs, arrays,
    mappings and strings start a new slot, and so does what follows them. [lo] is the offset of an
    item from the low-order end; [used] the bytes of [slot] already taken. *)
Definition is_value (t : ty) : bool := match t with Val _ => true | _ => false end.
Definition sol_start (t : ty) (slot used : Z) : Z * Z :=
  if is_value t then if used + slot_bytes t <=? 32 then (slot, used) else (slot + 1, 0)
  else if used =? 0 then (slot, 0) else (slot + 1, 0).
Definition sol_end (t : ty) (size slot lo : Z) : Z * Z :=
  if is_value t then (slot, lo + slot_bytes t) else (slot + size, 0).
(** Whole slots taken by a struct (an array, mapping or string takes one here). *)
Fixpoint sol_size (t : ty) : Z :=
  match t with
  | Struct fs =>
      let '(slot, used) :=
        (fix loop (fs : fields) (st : Z * Z) : Z * Z :=
           match fs with
           | [] => st
           | (_, t) :: fs' =>
               let p := sol_start t (fst st) (snd st) in loop fs' (sol_end t (sol_size t) (fst p) (snd p))
           end) fs (0, 0) in
      if used =? 0 then slot else slot + 1
  | _ => 1
  end.
(** The members with slot and [lo]. *)
Fixpoint sol_members (fs : fields) (st : Z * Z) : list (string * (ty * Z * Z)) :=
  match fs with
  | [] => []
  | (name, t) :: fs' =>
      let p := sol_start t (fst st) (snd st) in
      (name, (t, fst p, snd p)) :: sol_members fs' (sol_end t (sol_size t) (fst p) (snd p))
  end.

Fixpoint sol_descend (t : ty) (slot lo : Z) (names : list string) : option (ty * Z * Z) :=
  match names with
  | [] => Some (t, slot, lo)
  | f :: names' =>
      match t with
      | Struct fs =>
          match lookup f (sol_members fs (0, 0)) with
          | Some (t', d, lo') => sol_descend t' (slot + d) lo' names'
          | None => None
          end
      | _ => None
      end
  end.
(** Element [i] of an array: several values share a slot if they fit, anything else starts a slot. *)
Definition sol_element (t : ty) (i : Z) : Z * Z :=
  if is_value t then (i / (32 / slot_bytes t), slot_bytes t * (i mod (32 / slot_bytes t)))
  else (i * sol_size t, 0).
(** Docs, "Mappings and Dynamic Arrays": with [p] the slot, the value of key [k] is at
    keccak256(h(k) . p), array and string data start at keccak256(p). Result: type, slot, [lo]. *)
Section Sol_places.
Context (hash : list Z -> Z).
Definition from_slot (b : Z) (x : option (ty * Z * Z)) : option (ty * Z * Z) :=
  match x with Some (t, s, lo) => Some (t, (b + s) mod two256, lo) | None => None end.
Fixpoint sol_resolve (contract : ty) (p : place) : option (ty * Z * Z) :=
  match p with
  | Root names => from_slot 0 (sol_descend contract 0 0 names)
  | Then p s names =>
      match sol_resolve contract p with
      | Some (Map _ v, slot, _) =>
          match s with
          | Key k => from_slot (hash (word k ++ word slot)) (sol_descend v 0 0 names)
          | Idx _ => None
          end
      | Some (Vec v, slot, _) =>
          match s with
          | Idx i => let '(d, lo) := sol_element v i in from_slot (hash (word slot)) (sol_descend v d lo names)
          | Key _ => None
          end
      | Some (Str, slot, _) =>
          match s with
          | Idx i => from_slot (hash (word slot)) (sol_descend (Val Bytes32) i 0 names)
          | Key _ => None
          end
      | _ => None
      end
  end.
End Sol_places.

(** A location of the Stylus contract, read as Solidity counts. *)
Definition from_right (l : location) : ty * Z * Z := (l_type l, slot_of l, 32 - l_off l - slot_bytes (l_type l)).

(** ** Well-formed types: values take 1 to 32 bytes, the fields of a struct have different names.
    Solidity has no struct without members: [inhabited]. *)
Fixpoint wf (t : ty) : Prop :=
  match t with
  | Val v => 1 <= vbytes v <= 32
  | Map _ t => wf t
  | Vec t => wf t
  | Str => True
  | Struct fs =>
      NoDup (map fst fs) /\
      (fix all (fs : fields) : Prop := match fs with [] => True | (_, t) :: fs' => wf t /\ all fs' end) fs
  end.
Fixpoint inhabited (t : ty) : Prop :=
  match t with
  | Map _ t => inhabited t
  | Vec t => inhabited t
  | Struct fs =>
      fs <> [] /\
      (fix all (fs : fields) : Prop := match fs with [] => True | (_, t) :: fs' => inhabited t /\ all fs' end) fs
  | _ => True
  end.

(** ** Sharing bytes *)
(** A cell is a place that holds something itself: a value, the length of an array, the head of a
    string, the (unused) slot of a mapping; a struct is only its fields. *)
Definition is_cell (t : ty) : Prop := match t with Struct _ => False | _ => True end.
(** Bytes [off, off + width) of the slot, counted from the left. *)
Definition share_bytes (l m : location) : Prop :=
  slot_of l = slot_of m /\
  l_off l < l_off m + slot_bytes (l_type m) /\ l_off m < l_off l + slot_bytes (l_type l).

(** ** The hashes on the way to a place, and how far from a hash (or from 0) one goes *)
Section Hash.
Context (hash : list Z -> Z).
Fixpoint hashed (contract : ty) (p : place) : list (list Z) :=
  match p with
  | Root _ => []
  | Then p s _ =>
      match resolve hash contract p with
      | Some l => match s with Key k => word k ++ word (slot_of l) | Idx _ => word (slot_of l) end :: hashed contract p
      | None => []
      end
  end.
Fixpoint offsets (contract : ty) (p : place) : list Z :=
  match resolve hash contract p with Some l => [l_slot l] | None => [] end
  ++ match p with Root _ => [] | Then p _ _ => offsets contract p end.
(** Keys are words, indices not negative. *)
Fixpoint proper (p : place) : Prop :=
  match p with
  | Root _ => True
  | Then p s _ => match s with Key k => is_u256 k | Idx i => 0 <= i end /\ proper p
  end.
Definition within (K : Z) (contract : ty) (p : place) : Prop := Forall (fun d => d < K) (offsets contract p).
(** Two words closer than [K], around the end of the address space too. *)
Definition near (K x y : Z) : Prop := exists d, - K < d < K /\ (x - y) mod two256 = d mod two256.
(** Among the hashed strings, two different ones with hashes closer than [K], or one hashed to
    within [K] of slot 0. *)
Definition collision (K : Z) (l : list (list Z)) : Prop :=
  exists x, In x l /\ (near K (hash x) 0 \/ exists y, In y l /\ x <> y /\ near K (hash x) (hash y)).
End Hash.

(** ** Storage as the contract sees it: a sequence of writes to places, the raw words after it, and
    the value last written to a place. *)
Section Writes.
Context (hash : list Z -> Z) (contract : ty).
Definition read (p : place) (m : words_of) : option Z :=
  match resolve hash contract p with
  | Some l => Some (load (slot_bytes (l_type l)) (slot_of l) (l_off l) m)
  | None => None
  end.
Definition write (p : place) (v : Z) (m : words_of) : words_of :=
  match resolve hash contract p with
  | Some l => store (slot_bytes (l_type l)) (slot_of l) (l_off l) v m
  | None => m
  end.
Definition run_writes (ws : list (place * Z)) (m : words_of) : words_of :=
  fold_left (fun m w => write (fst w) (snd w) m) ws m.
(** A write to a cell, of a value that fits. *)
Definition fits (w : place * Z) : Prop :=
  exists l, resolve hash contract (fst w) = Some l /\ is_cell (l_type l) /\
    0 <= snd w < 2 ^ (8 * slot_bytes (l_type l)).
(** [last_written p ws v]: [v] is the last value written to [p]; [never p ws]: there is none. *)
Definition never (p : place) (ws : list (place * Z)) : Prop := forall v, ~ In (p, v) ws.
Definition last_written (p : place) (ws : list (place * Z)) (v : Z) : Prop :=
  exists before after, ws = before ++ (p, v) :: after /\ never p after.
End Writes.

(** ** The constructors' declarations (examples/*/src/constructor.sol): flat lists of state
    variables, in order. *)
Module Sol.
Open Scope string_scope.
Open Scope list_scope.
Definition u256 := Val (Uint 256).
Definition erc20_vars : fields :=
  [("_balances", Map Address u256); ("_allowances", Map Address (Map Address u256)); ("_totalSupply", u256)].
Definition erc721_vars : fields :=
  [("_owners", Map (Uint 256) (Val Address)); ("_balances", Map Address u256);
   ("_tokenApprovals", Map (Uint 256) (Val Address));
   ("_operatorApprovals", Map Address (Map Address (Val Bool)))].
Definition erc1155_vars : fields :=
  [("_balances", Map Address (Map (Uint 256) u256)); ("_operatorApprovals", Map Address (Map Address (Val Bool)))].
Definition declarations : list (string * fields) :=
  [("access-control", erc20_vars ++
      [("_roles", Map Bytes32 (Struct [("hasRole", Map Address (Val Bool)); ("adminRole", Val Bytes32)]))]);
   ("erc1155-metadata-uri", erc1155_vars ++
      [("_uri", Str); ("_baseUri", Str); ("_tokenUris", Map (Uint 256) Str)]);
   ("erc1155", erc1155_vars ++ [("_paused", Val Bool)]);
   ("erc20-flash-mint", erc20_vars ++ [("_flashFeeAmount", u256); ("_flashFeeReceiverAddress", Val Address)]);
   ("erc20-permit", erc20_vars ++ [("_nonces", Map Address u256)]);
   ("erc20-wrapper", erc20_vars ++ [("_underlying", Val Address); ("_decimals", Val (Uint 8))]);
   ("erc20", erc20_vars ++ [("_name", Str); ("_symbol", Str); ("_cap", u256); ("_paused", Val Bool);
                            ("_nonces", Map Address u256)]);
   ("erc4626", erc20_vars ++ [("_name", Str); ("_symbol", Str); ("_asset", Val Address);
                              ("_underlyingDecimals", Val (Uint 8)); ("_decimalsOffset", Val (Uint 8))]);
   ("erc721-consecutive", erc721_vars ++
      [("_checkpoints", Vec (Struct [("_key", Val (Uint 96)); ("_value", Val (Uint 160))]));
       ("_data", Map (Uint 256) u256); ("_firstConsecutiveId", Val (Uint 96)); ("_maxBatchSize", Val (Uint 96))]);
   ("erc721-metadata", erc721_vars ++
      [("_name", Str); ("_symbol", Str); ("_baseUri", Str); ("_tokenUris", Map (Uint 256) Str)]);
   ("erc721-wrapper", erc721_vars ++ [("_underlyingToken", Val Address)]);
   ("erc721", erc721_vars ++
      [("_ownedTokens", Map Address (Map (Uint 256) u256)); ("_ownedTokensIndex", Map (Uint 256) u256);
       ("_allTokens", Vec u256); ("_allTokensIndex", Map (Uint 256) u256); ("_paused", Val Bool)]);
   ("ownable-two-step", erc20_vars ++ [("_owner", Val Address); ("_pendingOwner", Val Address)]);
   ("ownable", erc20_vars ++ [("_owner", Val Address)]);
   ("vesting-wallet", [("_owner", Val Address); ("_released", u256); ("_erc20Released", Map Address u256);
                       ("_start", Val (Uint 64)); ("_duration", Val (Uint 64))])].

(** Variables that a constructor reads or writes, and the Rust field meant by each. *)
Definition written : list (string * list (string * list string)) :=
  [("access-control", [("_roles", ["access"; "roles"])]);
   ("erc1155-metadata-uri", [("_uri", ["metadata_uri"; "uri"])]);
   ("erc1155", [("_paused", ["pausable"; "paused"])]);
   ("erc20-flash-mint", [("_flashFeeReceiverAddress", ["flash_mint"; "flash_fee_receiver_address"]);
                         ("_flashFeeAmount", ["flash_mint"; "flash_fee_value"])]);
   ("erc20-permit", []);
   ("erc20-wrapper", [("_underlying", ["erc20_wrapper"; "underlying"]);
                      ("_decimals", ["erc20_wrapper"; "underlying_decimals"])]);
   ("erc20", [("_name", ["metadata"; "metadata"; "name"]); ("_symbol", ["metadata"; "metadata"; "symbol"]);
              ("_cap", ["capped"; "cap"]); ("_paused", ["pausable"; "paused"])]);
   ("erc4626", [("_name", ["metadata"; "metadata"; "name"]); ("_symbol", ["metadata"; "metadata"; "symbol"]);
                ("_asset", ["erc4626"; "asset"]); ("_decimalsOffset", ["erc4626"; "decimals_offset"]);
                ("_underlyingDecimals", ["erc4626"; "underlying_decimals"])]);
   ("erc721-consecutive",
      [("_firstConsecutiveId", ["erc721_consecutive"; "first_consecutive_id"]);
       ("_maxBatchSize", ["erc721_consecutive"; "max_batch_size"]);
       ("_checkpoints", ["erc721_consecutive"; "sequential_ownership"; "checkpoints"]);
       ("_balances", ["erc721_consecutive"; "erc721"; "balances"])]);
   ("erc721-metadata", [("_name", ["metadata"; "metadata"; "name"]); ("_symbol", ["metadata"; "metadata"; "symbol"]);
                        ("_baseUri", ["metadata"; "base_uri"])]);
   ("erc721-wrapper", [("_underlyingToken", ["erc721_wrapper"; "underlying"])]);
   ("erc721", [("_paused", ["pausable"; "paused"])]);
   ("ownable-two-step", [("_owner", ["ownable"; "ownable"; "owner"])]);
   ("ownable", [("_owner", ["ownable"; "owner"])]);
   ("vesting-wallet", [("_owner", ["vesting_wallet"; "ownable"; "owner"]); ("_start", ["vesting_wallet"; "start"]);
                       ("_duration", ["vesting_wallet"; "duration"])])].
End Sol.

(** Same type, with the members of structs compared in order and their names ignored. *)
Definition same_vty (v w : vty) : bool :=
  match v, w with
  | Uint a, Uint b => a =? b
  | Address, Address | Bool, Bool | Bytes32, Bytes32 => true
  | _, _ => false
  end.
Fixpoint same_type (t u : ty) {struct t} : bool :=
  match t, u with
  | Val v, Val w => same_vty v w
  | Map k t, Map k' u => same_vty k k' && same_type t u
  | Vec t, Vec u => same_type t u
  | Str, Str => true
  | Struct fs, Struct gs =>
      (fix go (fs gs : fields) {struct fs} : bool :=
         match fs, gs with
         | [], [] => true
         | (_, t) :: fs', (_, u) :: gs' => same_type t u && go fs' gs'
         | _, _ => false
         end) fs gs
  | _, _ => false
  end.

(** All cells that are reached by field names alone, with their names; [n] bounds the nesting. *)
Fixpoint cells (partial : bool) (n : nat) (t : ty) (slot off : Z) : list (list string * (ty * Z * Z)) :=
  match n, t with
  | S n', Struct fs =>
      flat_map (fun '(f, (u, d, o)) => map (fun '(names, x) => (f :: names, x)) (cells partial n' u (slot + d) o))
               (placements_ partial fs (0, 32))
  | _, Struct _ => []
  | _, _ => [([], (t, slot, off))]
  end.
