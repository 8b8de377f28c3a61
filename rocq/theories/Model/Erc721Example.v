(** Model of the shipped composition of ERC-721 with Enumerable and Pausable,
    examples/erc721/src/lib.rs.

    The example is built without the [reentrant] feature (its Cargo.toml), so the SDK
    refuses calls back into it: a receiver can only answer. *)
From Verif.Base Require Import Prelude Maps.
From Verif.Model Require Erc721 Enumerable Pausable.
#[global] Open Scope Z_scope.

(** lib.rs:19-24 *)
Inductive error :=
| EnumerableError (e : Enumerable.error)
| Erc721Error (e : Erc721.error)
| PausableError (e : Pausable.error).
(** lib.rs:26-35 *)
Record state := mk { erc721 : Erc721.state; enumerable : Enumerable.state; pausable : Pausable.state }.
Definition init : state := mk Erc721.init Enumerable.init Pausable.init.

Definition MX := M state error.
Definition on_erc721 {A} (m : M Erc721.state Erc721.error A) : MX A :=
  map_err Erc721Error (zoom erc721 (fun t s => mk t (enumerable s) (pausable s)) m).
(** The extension's hooks return ERC-721 errors. *)
Definition on_enum {A} (m : Erc721.state -> M Enumerable.state Erc721.error A) : MX A :=
  fun s => map_err Erc721Error
    (zoom enumerable (fun t s => mk (erc721 s) t (pausable s)) (m (erc721 s))) s.
Definition on_pausable {A} (m : M Pausable.state Pausable.error A) : MX A :=
  map_err PausableError (zoom pausable (fun t s => mk (erc721 s) (enumerable s) t) m).

Section example.
  (** [Address::has_code], and what the receiver of a safe call answers. *)
  Context (has_code : Z -> bool).
  Definition answers (fin : Erc721.reply) : Erc721.handler := fun _ _ _ _ _ s => (fin, s).

  (** lib.rs:40-57 *)
  Definition burn (caller token_id : Z) : MX unit :=
    on_pausable Pausable.when_not_paused ;;;
    owner <~ on_erc721 (Erc721.owner_of token_id) ;;
    on_erc721 (Erc721.burn caller token_id) ;;;
    on_enum (Enumerable._remove_token_from_owner_enumeration owner token_id) ;;;
    on_enum (fun _ => Enumerable._remove_token_from_all_tokens_enumeration token_id).
  (** lib.rs:59-73 *)
  Definition mint (to token_id : Z) : MX unit :=
    on_pausable Pausable.when_not_paused ;;;
    on_erc721 (Erc721._mint to token_id) ;;;
    on_enum (fun _ => Enumerable._add_token_to_all_tokens_enumeration token_id) ;;;
    on_enum (Enumerable._add_token_to_owner_enumeration to token_id).
  (** lib.rs:75-94 *)
  Definition safe_mint (caller to token_id : Z) (data : list Z) (fin : Erc721.reply) : MX unit :=
    on_pausable Pausable.when_not_paused ;;;
    on_erc721 (Erc721._safe_mint has_code (answers fin) caller to token_id data) ;;;
    on_enum (fun _ => Enumerable._add_token_to_all_tokens_enumeration token_id) ;;;
    on_enum (Enumerable._add_token_to_owner_enumeration to token_id).
  (** lib.rs:124-152; 96-122 is the case of empty data *)
  Definition safe_transfer_from_with_data (caller from to token_id : Z) (data : list Z) (fin : Erc721.reply) : MX unit :=
    on_pausable Pausable.when_not_paused ;;;
    previous_owner <~ on_erc721 (Erc721.owner_of token_id) ;;
    on_erc721 (Erc721.safe_transfer_from_with_data has_code (answers fin) caller from to token_id data) ;;;
    on_enum (Enumerable._remove_token_from_owner_enumeration previous_owner token_id) ;;;
    on_enum (Enumerable._add_token_to_owner_enumeration to token_id).
  (** lib.rs:154-180 *)
  Definition transfer_from (caller from to token_id : Z) : MX unit :=
    on_pausable Pausable.when_not_paused ;;;
    previous_owner <~ on_erc721 (Erc721.owner_of token_id) ;;
    on_erc721 (Erc721.transfer_from caller from to token_id) ;;;
    on_enum (Enumerable._remove_token_from_owner_enumeration previous_owner token_id) ;;;
    on_enum (Enumerable._add_token_to_owner_enumeration to token_id).
  (** lib.rs:191-197 *)
  Definition pause (caller : Z) : MX unit := on_pausable (Pausable.pause caller).
  Definition unpause (caller : Z) : MX unit := on_pausable (Pausable.unpause caller).

  (** [#[inherit(Erc721, ..)]] (lib.rs:38) exposes [approve] and [set_approval_for_all]
      unchanged. *)
  Inductive op :=
  | Burn (token_id : Z)
  | Mint (to token_id : Z)
  | SafeMint (to token_id : Z) (data : list Z) (fin : Erc721.reply)
  | TransferFrom (from to token_id : Z)
  | SafeTransferFrom (from to token_id : Z) (data : list Z) (fin : Erc721.reply)
  | Approve (to token_id : Z)
  | SetApprovalForAll (operator : Z) (approved : bool)
  | Pause
  | Unpause.
  Definition exec (caller : Z) (o : op) : MX unit :=
    match o with
    | Burn i => burn caller i
    | Mint t i => mint t i
    | SafeMint t i d f => safe_mint caller t i d f
    | TransferFrom f t i => transfer_from caller f t i
    | SafeTransferFrom f t i d r => safe_transfer_from_with_data caller f t i d r
    | Approve t i => on_erc721 (Erc721.approve caller t i)
    | SetApprovalForAll p b => on_erc721 (Erc721.set_approval_for_all caller p b)
    | Pause => pause caller
    | Unpause => unpause caller
    end.
  Definition step (s : state) (co : Z * op) : state := snd (tx (exec (fst co) (snd co)) s).
  Definition run (l : list (Z * op)) (s : state) : state := fold_left step l s.
End example.
