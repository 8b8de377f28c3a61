(** Model of contracts/src/token/erc721/extensions/wrapper.rs together with the collection
    it wraps, itself the ERC-721 of [Erc721]: two contracts and arbitrary receivers.

    The underlying collection offers its public functions, [burn] of the burnable
    extension and minting; the wrapper offers the same functions of its own token (except
    minting), [deposit_for], [withdraw_to], [on_erc721_received] and [_recover] (exposed
    without access control, the least favourable choice). *)
From Verif.Base Require Import Prelude Maps.
From Verif.Model Require Erc721.
Import Erc721 (reply, Returned, Failed, handler_on, RECEIVER_FN_SELECTOR, _check_on_erc721_received).
#[global] Open Scope Z_scope.

(** wrapper.rs:44-62; [UnderlyingError] is the error of a call made directly to the
    underlying collection. *)
Inductive error :=
| ErrErc721 (e : Erc721.error)
| UnsupportedToken (token : Z)
| FailedOperation (token : Z)
| FailedOperationWithReason (e : Erc721.error)
| UnderlyingError (e : Erc721.error).

Record world := mk { under : Erc721.state; wrapped : Erc721.state }.
Definition init : world := mk Erc721.init Erc721.init.
Definition MW := M world error.

(** Running a function of either contract. *)
Definition zoom_u {A} (m : M Erc721.state Erc721.error A) : M world Erc721.error A :=
  zoom under (fun u w => mk u (wrapped w)) m.
Definition zoom_w {A} (m : M Erc721.state Erc721.error A) : M world Erc721.error A :=
  zoom wrapped (fun t w => mk (under w) t) m.

Section wrapper.
  (** [Address::has_code]; the addresses of the wrapper and of the collection. *)
  Context (has_code : Z -> bool) (me tok : Z).

  (** erc721/mod.rs:433-442 and 732-746, for either contract, against receivers that act
      on both. *)
  Definition u_safe_transfer_from (h : handler_on world) (caller from to id : Z) (data : list Z) : M world Erc721.error unit :=
    zoom_u (Erc721.transfer_from caller from to id) ;;;
    _check_on_erc721_received has_code h caller from to id data.
  Definition u_safe_mint (h : handler_on world) (caller to id : Z) (data : list Z) : M world Erc721.error unit :=
    zoom_u (Erc721._mint to id) ;;;
    _check_on_erc721_received has_code h caller 0 to id data.
  Definition w_safe_transfer_from (h : handler_on world) (caller from to id : Z) (data : list Z) : M world Erc721.error unit :=
    zoom_w (Erc721.transfer_from caller from to id) ;;;
    _check_on_erc721_received has_code h caller from to id data.
  Definition w_safe_mint (h : handler_on world) (caller to id : Z) (data : list Z) : M world Erc721.error unit :=
    zoom_w (Erc721._mint to id) ;;;
    _check_on_erc721_received has_code h caller 0 to id data.

  (** A call from the wrapper into the collection and its error handling
      (wrapper.rs:116-134, 175-194): the callee's frame is undone when it fails. *)
  Definition call_under (m : M world Erc721.error unit) : MW unit :=
    fun w => match tx m w with
             | (Ok a, w') => (Ok a, w')
             | (Err e, w') => (Err (FailedOperationWithReason e), w')
             | (Panic, w') => (Err (FailedOperation tok), w')
             end.

  (** One round of the loop of deposit_for (wrapper.rs:110-137). *)
  Definition deposit_one (h : handler_on world) (sender account token_id : Z) : MW unit :=
    call_under (zoom_u (Erc721.transfer_from me sender me token_id)) ;;;
    map_err ErrErc721 (w_safe_mint h sender account token_id []).
  (** One round of the loop of withdraw_to (wrapper.rs:169-195); [h] is what receivers do
      when the collection calls them. *)
  Definition withdraw_one (h : handler_on world) (sender account token_id : Z) : MW unit :=
    map_err ErrErc721 (zoom_w (Erc721._update 0 token_id sender)) ;;;
    call_under (u_safe_transfer_from h me me account token_id []).
  (** wrapper.rs:218-236; [sender] is msg::sender() *)
  Definition on_erc721_received (h : handler_on world) (sender _operator from token_id : Z) (_data : list Z) : MW Z :=
    if negb (tok =? sender) then fail (UnsupportedToken sender)
    else map_err ErrErc721 (w_safe_mint h sender from token_id []) ;;; ret RECEIVER_FN_SELECTOR.
  (** wrapper.rs:266-296 *)
  Definition _recover (h : handler_on world) (sender account token_id : Z) : MW Z :=
    owner <~ map_err (fun _ => FailedOperation tok) (zoom_u (Erc721.owner_of token_id)) ;;
    fail_if (negb (owner =? me)) (ErrErc721 (Erc721.IncorrectOwner me token_id owner)) ;;;
    map_err ErrErc721 (w_safe_mint h sender account token_id []) ;;;
    ret token_id.

  (** A frame of a receiving contract: it performs [body] and answers [fin]. *)
  Definition receiver (body : world -> world) (fin : reply) : world -> reply * world :=
    fun w => match fin with
             | Returned v => (Returned v, body w)
             | Failed r => (Failed r, w)
             end.
  (** A frame of the wrapper's own [on_erc721_received] (a failure's data is not empty). *)
  Definition wrapper_frame (m : MW Z) (w : world) : reply * world :=
    match tx m w with
    | (Ok v, w') => (Returned v, w')
    | (Err _, w') => (Failed [0], w')
    | (Panic, w') => (Failed [], w')
    end.
  Definition refuses : handler_on world := fun _ _ _ _ _ w => (Failed [], w).
  (** Receivers called by the wrapper: itself (the caller is then [me]), or anyone. *)
  Definition by_wrapper (body : world -> world) (fin : reply) : handler_on world :=
    fun to operator from id data =>
      if to =? me then wrapper_frame (on_erc721_received refuses me operator from id data)
      else receiver body fin.
  (** Receivers called by the collection: the wrapper, whose mint to [from] may call on, or
      anyone. *)
  Definition by_collection (body : world -> world) (fin : reply) : handler_on world :=
    fun to operator from id data =>
      if to =? me then wrapper_frame (on_erc721_received (by_wrapper body fin) tok operator from id data)
      else receiver body fin.
End wrapper.

(** Calls.  As in [Erc721], calls that reach a receiver carry what it does; [rounds] are
    the ids of a batch, each with its receiver's behaviour. *)
Inductive op :=
| UTransferFrom (from to token_id : Z)
| USafeTransferFrom (from to token_id : Z) (data : list Z) (body : calls) (fin : reply)
| UApprove (to token_id : Z)
| USetApprovalForAll (operator : Z) (approved : bool)
| UBurn (token_id : Z)
| UMint (to token_id : Z)
| USafeMint (to token_id : Z) (data : list Z) (body : calls) (fin : reply)
| WTransferFrom (from to token_id : Z)
| WSafeTransferFrom (from to token_id : Z) (data : list Z) (body : calls) (fin : reply)
| WApprove (to token_id : Z)
| WSetApprovalForAll (operator : Z) (approved : bool)
| WBurn (token_id : Z)
| WDepositFor (account : Z) (l : rounds)
| WWithdrawTo (account : Z) (l : rounds)
| WReceived (operator from token_id : Z) (data : list Z) (body : calls) (fin : reply)
| WRecover (account token_id : Z) (body : calls) (fin : reply)
with calls := CNil | CCons (caller : Z) (o : op) (cs : calls)
with rounds := RNil | RCons (token_id : Z) (body : calls) (fin : reply) (l : rounds).

Section exec.
  Context (has_code : Z -> bool) (me tok : Z).
  Definition u {A} (m : M world Erc721.error A) : MW unit := map_err UnderlyingError m ;;; ret tt.
  Definition w {A} (m : M world Erc721.error A) : MW unit := map_err ErrErc721 m ;;; ret tt.
  Fixpoint exec (c : Z) (o : op) {struct o} : MW unit :=
    match o with
    | UTransferFrom f t i => u (zoom_u (Erc721.transfer_from c f t i))
    | USafeTransferFrom f t i d body fin =>
        u (u_safe_transfer_from has_code (by_collection has_code me tok (run_calls body) fin) c f t i d)
    | UApprove t i => u (zoom_u (Erc721.approve c t i))
    | USetApprovalForAll p b => u (zoom_u (Erc721.set_approval_for_all c p b))
    | UBurn i => u (zoom_u (Erc721.burn c i))
    | UMint t i => u (zoom_u (Erc721._mint t i))
    | USafeMint t i d body fin =>
        u (u_safe_mint has_code (by_collection has_code me tok (run_calls body) fin) c t i d)
    | WTransferFrom f t i => w (zoom_w (Erc721.transfer_from c f t i))
    | WSafeTransferFrom f t i d body fin =>
        w (w_safe_transfer_from has_code (by_wrapper has_code me tok (run_calls body) fin) c f t i d)
    | WApprove t i => w (zoom_w (Erc721.approve c t i))
    | WSetApprovalForAll p b => w (zoom_w (Erc721.set_approval_for_all c p b))
    | WBurn i => w (zoom_w (Erc721.burn c i))
    | WDepositFor a l =>
        run_rounds (fun i body fin => deposit_one has_code me tok (by_wrapper has_code me tok body fin) c a i) l
    | WWithdrawTo a l =>
        run_rounds (fun i body fin => withdraw_one has_code me tok (by_collection has_code me tok body fin) c a i) l
    | WReceived op f i d body fin =>
        on_erc721_received has_code tok (by_wrapper has_code me tok (run_calls body) fin) c op f i d ;;; ret tt
    | WRecover a i body fin =>
        _recover has_code me tok (by_wrapper has_code me tok (run_calls body) fin) c a i ;;; ret tt
    end
  with run_calls (cs : calls) (s : world) {struct cs} : world :=
    match cs with
    | CNil => s
    | CCons c o cs' => run_calls cs' (snd (tx (exec c o) s))
    end
  with run_rounds (f : Z -> (world -> world) -> reply -> MW unit) (l : rounds) {struct l} : MW unit :=
    match l with
    | RNil => ret tt
    | RCons i body fin l' => f i (run_calls body) fin ;;; run_rounds f l'
    end.
End exec.

Fixpoint of_list (l : list (Z * op)) : calls :=
  match l with [] => CNil | (c, o) :: l' => CCons c o (of_list l') end.
Definition run (has_code : Z -> bool) (me tok : Z) (l : list (Z * op)) (s : world) : world :=
  run_calls has_code me tok (of_list l) s.
