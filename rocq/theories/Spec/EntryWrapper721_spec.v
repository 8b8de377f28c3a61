(** Wrapping tokens of a collection (examples/erc721-wrapper) as its users know it: what the
    getters say before and after, and what the other contracts answer. *)
From Verif.Base Require Import Prelude Bytes.
From Coq Require Import String List.
From Verif.Model Require Import Introspection.
From Verif.Model Require SolAbi Entry EntryErc721.
From Verif.Spec Require Import Router_spec SolAbi_spec.
From Verif.Spec Require Entry_spec EntryNft_spec.
Import SolAbi Entry.
Import EntryErc721 (world, mkWorld, deployed, replies).
Import Entry_spec (calldata, is_address, has_type).
Import EntryNft_spec (question, consent).
#[global] Open Scope Z_scope.
Local Open Scope string_scope.
Local Open Scope list_scope.
Local Open Scope Z_scope.

Definition deposit_data (account : Z) (ids : list Z) : list Z := calldata "depositFor(address,uint256[])" [Word account; Words ids].
Definition withdraw_data (account : Z) (ids : list Z) : list Z := calldata "withdrawTo(address,uint256[])" [Word account; Words ids].
Definition batch_fits (account : Z) (ids : list Z) : Prop := is_address account /\ List.Forall is_u256 ids /\ size ids < 2 ^ 200.

(** What the getters say. *)
Section seen.
  Context {S : Type} (call : (nat -> world) -> Z -> Z -> list Z -> S -> answer * S).
  Definition tells (s : S) (sig : string) (args : list val) (v : Z) : Prop :=
    forall w c, call w c 0 (calldata sig args) s = (Returned (word v), s).
  Definition owned (s : S) (id o : Z) : Prop := tells s "ownerOf(uint256)" [Word id] o.
  Definition free (s : S) (id : Z) : Prop :=
    forall w c, exists d, call w c 0 (calldata "ownerOf(uint256)" [Word id]) s = (Reverted d, s) /\ decode_reason d = Some (ERC721NonexistentToken id).
  (** The owner, an operator or the approved account. *)
  Definition entitled (s : S) (c id : Z) : Prop :=
    exists o, is_address o /\ owned s id o /\
      (o = c \/ tells s "isApprovedForAll(address,address)" [Word o; Word c] 1 \/ tells s "getApproved(uint256)" [Word id] c).
End seen.

(** What other contracts answer. *)
Definition answered (w : world) (a : Z) (input : list Z) : answer := if deployed w a then replies w a input else Returned [].
Definition done (lenient : bool) (a : answer) : Prop :=
  match a with Returned [] => True | Returned _ => lenient = true | Reverted _ => False end.
Definition receives (w : world) (c to id : Z) : Prop := deployed w to = true -> replies w to (question c 0 id []) = Returned consent.
(** As in a transfer with data. *)
Definition takes (w : world) (c from to id : Z) (d : list Z) : Prop := deployed w to = true -> replies w to (question c from id d) = Returned consent.
(** For the n-th token of a deposit, and of a withdrawal. *)
Definition handed_over (lenient : bool) (w : nat -> world) (me tok c account : Z) (n : nat) (id : Z) : Prop :=
  done lenient (answered (w (2 * n)%nat) tok (calldata "transferFrom(address,address,uint256)" [Word c; Word me; Word id])) /\
  receives (w (S (2 * n))) c account id.
Definition handed_back (lenient : bool) (w : nat -> world) (me tok account : Z) (n : nat) (id : Z) : Prop :=
  done lenient (answered (w n) tok (calldata "safeTransferFrom(address,address,uint256,bytes)" [Word me; Word account; Word id; Octets []])).

(** A call goes through exactly if [P], then [Q] holds afterwards; otherwise nothing happens. *)
Definition outcome_is {S : Type} (s : S) (r : answer * S) (P : Prop) (Q : S -> Prop) : Prop :=
  (fst r = Returned [] <-> P) /\ (fst r = Returned [] -> Q (snd r)) /\ (fst r = Returned [] \/ exists d, r = (Reverted d, s)).

(** How a batch fails when the collection refuses a token and gives the data [d], if any. *)
Definition complaint (tok : Z) (d : list Z) : list Z := match d with [] => calldata "Erc721FailedOperation(address)" [Word tok] | _ => d end.

Definition wrapper721_interface : list (string * list abi_type) :=
  [("balanceOf(address)", [Address]); ("ownerOf(uint256)", [U256]); ("getApproved(uint256)", [U256]);
   ("isApprovedForAll(address,address)", [Address; Address]);
   ("approve(address,uint256)", [Address; U256]); ("setApprovalForAll(address,bool)", [Address; bool_]);
   ("transferFrom(address,address,uint256)", [Address; Address; U256]);
   ("safeTransferFrom(address,address,uint256)", [Address; Address; U256]);
   ("safeTransferFrom(address,address,uint256,bytes)", [Address; Address; U256; Bytes]);
   ("underlying()", []); ("depositFor(address,uint256[])", [Address; Vec U256]); ("withdrawTo(address,uint256[])", [Address; Vec U256]);
   ("onErc721Received(address,address,uint256,bytes)", [Address; Address; U256; Bytes])].
Definition proper (value : Z) (input : list Z) : Prop :=
  value = 0 /\ exists sig ts args, In (sig, ts) wrapper721_interface /\ List.Forall2 has_type ts args /\ input = calldata sig args.

(** Any transactions whatever, each with the worlds its calls meet. *)
Definition history : Type := list ((nat -> world) * (Z * Z * list Z)).
Definition sane (h : history) : Prop :=
  List.Forall (fun x => let '(c, _, input) := snd x in is_address c /\ c <> 0 /\ List.Forall is_byte input /\ size input < two256) h.
Definition after {S : Type} (call : (nat -> world) -> Z -> Z -> list Z -> S -> answer * S) (h : history) (s : S) : S :=
  fold_left (fun s x => let '(c, v, input) := snd x in snd (call (fst x) c v input s)) h s.
