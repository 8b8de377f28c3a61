(** Model of contracts/src/token/erc721/extensions/consecutive.rs on top of [Erc721],
    [Checkpoints] and [BitMap].

    The safe variants (151-168, 544-560, 660-680) are the functions below followed by the
    receiver callback of [Erc721]; as the callback is their last action, whatever a
    receiver does is a further sequence of calls, so they add no reachable states.
    [ConsecutiveTransfer] events are kept in a list of their own. *)
From Verif.Base Require Import Prelude Maps.
From Verif.Model Require Erc721 Checkpoints BitMap.
From stdpp Require Import gmap.
#[global] Open Scope Z_scope.

(** consecutive.rs:95-113; [ERC721ForbiddenBatchMint], [ERC721ForbiddenMint] and
    [ERC721ForbiddenBatchBurn] are declared there but nothing raises them. *)
Inductive error :=
| ErrErc721 (e : Erc721.error)
| ErrCheckpoints (e : Checkpoints.error)
| ExceededMaxBatchMint (batch_size max_batch : Z).

(** from_token_id, to_token_id, from_address, to_address (consecutive.rs:66-72) *)
Inductive event := ConsecutiveTransfer (from_token_id to_token_id from_address to_address : Z).

(** consecutive.rs:121-136 *)
Record state := mk {
  erc721 : Erc721.state;
  sequential_ownership : Checkpoints.trace;
  sequential_burn : BitMap.state;
  clog : list event
}.
Definition init : state := mk Erc721.init [] BitMap.init [].
Definition set_erc721 b s := mk b (sequential_ownership s) (sequential_burn s) (clog s).
Definition set_ownership t s := mk (erc721 s) t (sequential_burn s) (clog s).
Definition set_burn b s := mk (erc721 s) (sequential_ownership s) b (clog s).
Definition cemit ev s := mk (erc721 s) (sequential_ownership s) (sequential_burn s) (clog s ++ [ev]).

Definition MC := M state error.
(** A call into the base contract / the trace. *)
Definition on_base {A} (m : M Erc721.state Erc721.error A) : MC A :=
  map_err ErrErc721 (zoom erc721 set_erc721 m).
Definition lift_cp {A} (r : res Checkpoints.error A) : MC A :=
  match r with Ok a => ret a | Err e => fail (ErrCheckpoints e) | Panic => panic end.

Definition U96_MAX : Z := two96 - 1.
(** [+] and [-] on [U96] wrap. *)
Definition wadd96 (a b : Z) : Z := (a + b) mod two96.
Definition wsub96 (a b : Z) : Z := (a - b) mod two96.

Section consecutive.
  (** The storage words [first_consecutive_id] and [max_batch_size] (132-135), which no
      function of the library writes. *)
  Context (first_consecutive_id max_batch_size : Z).

  (** consecutive.rs:415-420 *)
  Definition _next_consecutive_id : MC Z :=
    t <~ gets sequential_ownership ;;
    c <~ lift_cp (Checkpoints.latest_checkpoint t) ;;
    match c with
    | None => ret first_consecutive_id
    | Some (latest_id, _) => ret (wadd96 latest_id 1)
    end.

  (** consecutive.rs:272-291 *)
  Definition _owner_of (token_id : Z) : MC Z :=
    owner <~ gets (fun s => Erc721._owner_of token_id (erc721 s)) ;;
    if negb (owner =? 0) || (token_id <? first_consecutive_id) || (U96_MAX <? token_id)
    then ret owner
    else
      burnt <~ gets (fun s => BitMap.get (sequential_burn s) token_id) ;;
      if (burnt : bool) then ret 0
      else
        t <~ gets sequential_ownership ;;
        lift_cp (Checkpoints.lower_lookup t token_id).

  (** consecutive.rs:319-363 *)
  Definition _mint_consecutive (to batch_size : Z) : MC Z :=
    next <~ _next_consecutive_id ;;
    (if 0 <? batch_size then
       fail_if (to =? 0) (ErrErc721 (Erc721.InvalidReceiver 0)) ;;;
       fail_if (max_batch_size <? batch_size) (ExceededMaxBatchMint batch_size max_batch_size) ;;;
       let last := wsub96 (wadd96 next batch_size) 1 in
       (fun s => let '(r, t') := Checkpoints.push (sequential_ownership s) last to in
                 lift_cp r (set_ownership t' s)) ;;;
       on_base (Erc721._increase_balance to batch_size) ;;;
       modify (cemit (ConsecutiveTransfer next last 0 to))
     else ret tt) ;;;
    ret next.

  (** consecutive.rs:766-775 *)
  Definition _require_owned (token_id : Z) : MC Z :=
    owner <~ _owner_of token_id ;;
    fail_if (owner =? 0) (ErrErc721 (Erc721.NonexistentToken token_id)) ;;;
    ret owner.
  (** consecutive.rs:723-750 *)
  Definition _approve (to token_id auth : Z) (emit_event : bool) : MC unit :=
    (if emit_event || negb (auth =? 0) then
       owner <~ _require_owned token_id ;;
       appr <~ gets (fun s => Erc721.is_approved_for_all owner auth (erc721 s)) ;;
       fail_if (negb (auth =? 0) && negb (owner =? auth) && negb appr)
               (ErrErc721 (Erc721.InvalidApprover auth)) ;;;
       if emit_event then on_base (Erc721.emit (Erc721.Approval owner to token_id)) else ret tt
     else ret tt) ;;;
    on_base (modify (Erc721.set_token_approvals (fun m => mset m token_id to))).
  (** consecutive.rs:458-489 *)
  Definition _update_base (to token_id auth : Z) : MC Z :=
    from <~ _owner_of token_id ;;
    (if negb (auth =? 0) then on_base (Erc721._check_authorized from auth token_id) else ret tt) ;;;
    (if negb (from =? 0) then
       _approve 0 token_id 0 false ;;;
       on_base (modify (Erc721.set_balances (fun b => mset b from (wsub (mget b from) 1))))
     else ret tt) ;;;
    (if negb (to =? 0) then
       on_base (modify (Erc721.set_balances (fun b => mset b to (wadd (mget b to) 1))))
     else ret tt) ;;;
    on_base (modify (Erc721.set_owners (fun m => mset m token_id to))) ;;;
    on_base (Erc721.emit (Erc721.Transfer from to token_id)) ;;;
    ret from.
  (** consecutive.rs:386-406 *)
  Definition _update (to token_id auth : Z) : MC Z :=
    previous_owner <~ _update_base to token_id auth ;;
    (if to =? 0 then
       next <~ _next_consecutive_id ;;
       burnt <~ gets (fun s => BitMap.get (sequential_burn s) token_id) ;;
       if (token_id <? next) && negb burnt
       then modify (fun s => set_burn (BitMap.set token_id (sequential_burn s)) s)
       else ret tt
     else ret tt) ;;;
    ret previous_owner.
  (** consecutive.rs:510-525 *)
  Definition _mint (to token_id : Z) : MC unit :=
    fail_if (to =? 0) (ErrErc721 (Erc721.InvalidReceiver 0)) ;;;
    previous_owner <~ _update to token_id 0 ;;
    fail_if (negb (previous_owner =? 0)) (ErrErc721 (Erc721.InvalidSender 0)).
  (** consecutive.rs:586-596 *)
  Definition _burn (token_id : Z) : MC unit :=
    previous_owner <~ _update 0 token_id 0 ;;
    fail_if (previous_owner =? 0) (ErrErc721 (Erc721.NonexistentToken token_id)).
  (** consecutive.rs:620-648 *)
  Definition _transfer (from to token_id : Z) : MC unit :=
    fail_if (to =? 0) (ErrErc721 (Erc721.InvalidReceiver 0)) ;;;
    previous_owner <~ _update to token_id 0 ;;
    if previous_owner =? 0 then fail (ErrErc721 (Erc721.NonexistentToken token_id))
    else fail_if (negb (previous_owner =? from))
           (ErrErc721 (Erc721.IncorrectOwner from token_id previous_owner)).

  (** IErc721: consecutive.rs:176-258 *)
  Definition balance_of (owner : Z) : MC Z := on_base (Erc721.balance_of owner).
  Definition owner_of (token_id : Z) : MC Z := _require_owned token_id.
  Definition transfer_from (caller from to token_id : Z) : MC unit :=
    fail_if (to =? 0) (ErrErc721 (Erc721.InvalidReceiver 0)) ;;;
    previous_owner <~ _update to token_id caller ;;
    fail_if (negb (previous_owner =? from))
      (ErrErc721 (Erc721.IncorrectOwner from token_id previous_owner)).
  Definition approve (caller to token_id : Z) : MC unit := _approve to token_id caller true.
  Definition set_approval_for_all (caller operator : Z) (approved : bool) : MC unit :=
    on_base (Erc721.set_approval_for_all caller operator approved).
  Definition get_approved (token_id : Z) : MC Z :=
    _require_owned token_id ;;; gets (fun s => Erc721._get_approved token_id (erc721 s)).

  (** Histories. *)
  Inductive op :=
  | Batch (to size : Z)
  | Mint (to token_id : Z)
  | Burn (token_id : Z)
  | ITransfer (from to token_id : Z)
  | TransferFrom (from to token_id : Z)
  | Approve (to token_id : Z)
  | SetApprovalForAll (operator : Z) (approved : bool).
  Definition ignore {A} (m : MC A) : MC unit := m ;;; ret tt.
  Definition exec (caller : Z) (o : op) : MC unit :=
    match o with
    | Batch to n => ignore (_mint_consecutive to n)
    | Mint to i => _mint to i
    | Burn i => _burn i
    | ITransfer f t i => _transfer f t i
    | TransferFrom f t i => transfer_from caller f t i
    | Approve t i => approve caller t i
    | SetApprovalForAll p b => set_approval_for_all caller p b
    end.
  Definition run (l : list (Z * op)) (s : state) : state :=
    fold_left (fun s co => snd (tx (exec (fst co) (snd co)) s)) l s.
End consecutive.
