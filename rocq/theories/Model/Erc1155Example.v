(** Model of examples/erc1155/src/lib.rs: ERC-1155 with Burnable and Pausable. It is built
    without the [reentrant] feature (its Cargo.toml): a receiver can only answer. *)
From Verif.Base Require Import Prelude Maps.
From Verif.Model Require Erc1155 Pausable.
#[global] Open Scope Z_scope.

(** lib.rs:13-17 *)
Inductive error := Erc1155Error (e : Erc1155.error) | PausableError (e : Pausable.error).
(** lib.rs:21-26 *)
Record state := mk { erc1155 : Erc1155.state; pausable : Pausable.state }.
Definition init : state := mk Erc1155.init Pausable.init.

Definition MX := M state error.
Definition on_erc1155 {A} (m : M Erc1155.state Erc1155.error A) : MX A :=
  map_err Erc1155Error (zoom erc1155 (fun t s => mk t (pausable s)) m).
Definition on_pausable {A} (m : M Pausable.state Pausable.error A) : MX A :=
  map_err PausableError (zoom pausable (fun t s => mk (erc1155 s) t) m).

Section example.
  Context (has_code : Z -> bool).
  Definition answers (fin : Erc1155.reply) : Erc1155.handler Erc1155.state := fun _ _ _ _ _ s => (fin, s).

  (** lib.rs:31-41 *)
  Definition mint (caller to token_id amount : Z) (data : list Z) (fin : Erc1155.reply) : MX unit :=
    on_pausable Pausable.when_not_paused ;;;
    on_erc1155 (Erc1155._mint Erc1155.base has_code (answers fin) caller to token_id amount data).
  (** lib.rs:43-53 *)
  Definition mint_batch (caller to : Z) (token_ids amounts data : list Z) (fin : Erc1155.reply) : MX unit :=
    on_pausable Pausable.when_not_paused ;;;
    on_erc1155 (Erc1155._mint_batch Erc1155.base has_code (answers fin) caller to token_ids amounts data).
  (** lib.rs:55-64 *)
  Definition burn (caller account token_id value : Z) : MX unit :=
    on_pausable Pausable.when_not_paused ;;;
    on_erc1155 (Erc1155.burn Erc1155.base caller account token_id value).
  (** lib.rs:66-75 *)
  Definition burn_batch (caller account : Z) (token_ids values : list Z) : MX unit :=
    on_pausable Pausable.when_not_paused ;;;
    on_erc1155 (Erc1155.burn_batch Erc1155.base caller account token_ids values).
  (** lib.rs:77-88 *)
  Definition safe_transfer_from (caller from to id value : Z) (data : list Z) (fin : Erc1155.reply) : MX unit :=
    on_pausable Pausable.when_not_paused ;;;
    on_erc1155 (Erc1155.safe_transfer_from Erc1155.base has_code (answers fin) caller from to id value data).
  (** lib.rs:90-101 *)
  Definition safe_batch_transfer_from (caller from to : Z) (ids values data : list Z) (fin : Erc1155.reply) : MX unit :=
    on_pausable Pausable.when_not_paused ;;;
    on_erc1155 (Erc1155.safe_batch_transfer_from Erc1155.base has_code (answers fin) caller from to ids values data).
  (** lib.rs:111-117 *)
  Definition pause (caller : Z) : MX unit := on_pausable (Pausable.pause caller).
  Definition unpause (caller : Z) : MX unit := on_pausable (Pausable.unpause caller).

  (** [#[inherit(Erc1155, Pausable)]] (lib.rs:29) adds [set_approval_for_all]. *)
  Inductive op :=
  | Mint (to token_id amount : Z) (data : list Z) (fin : Erc1155.reply)
  | MintBatch (to : Z) (token_ids amounts data : list Z) (fin : Erc1155.reply)
  | Burn (account token_id value : Z)
  | BurnBatch (account : Z) (token_ids values : list Z)
  | SafeTransferFrom (from to id value : Z) (data : list Z) (fin : Erc1155.reply)
  | SafeBatchTransferFrom (from to : Z) (ids values data : list Z) (fin : Erc1155.reply)
  | SetApprovalForAll (operator : Z) (approved : bool)
  | Pause
  | Unpause.
  Definition exec (c : Z) (o : op) : MX unit :=
    match o with
    | Mint t i v d fin => mint c t i v d fin
    | MintBatch t is vs d fin => mint_batch c t is vs d fin
    | Burn a i v => burn c a i v
    | BurnBatch a is vs => burn_batch c a is vs
    | SafeTransferFrom f t i v d fin => safe_transfer_from c f t i v d fin
    | SafeBatchTransferFrom f t is vs d fin => safe_batch_transfer_from c f t is vs d fin
    | SetApprovalForAll p b => on_erc1155 (Erc1155.set_approval_for_all c p b)
    | Pause => pause c
    | Unpause => unpause c
    end.
  Definition step (s : state) (co : Z * op) : state := snd (tx (exec (fst co) (snd co)) s).
  Definition run (h : list (Z * op)) (s : state) : state := fold_left step h s.
End example.
