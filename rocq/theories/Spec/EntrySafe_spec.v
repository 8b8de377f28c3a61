(** A careful caller of tokens, as its users know it: what it asks of the token, when it takes
    the answer for a yes, and what comes of it. *)
From Verif.Base Require Import Prelude Bytes.
From Coq Require Import String List.
From Verif.Model Require Import Introspection.
From Verif.Model Require SolAbi Entry.
From Verif.Spec Require Import SolAbi_spec Entry_spec Ledger_spec.
Import SolAbi Entry.
#[global] Open Scope Z_scope.
Local Open Scope string_scope.
Local Open Scope list_scope.
Local Open Scope Z_scope.

Inductive wish :=
| Send (token to v : Z) | Fetch (token from to v : Z)
| Raise (token spender v : Z) | Lower (token spender v : Z) | Force (token spender v : Z).
Definition wish_fits (r : wish) : Prop :=
  match r with
  | Send t a v | Raise t a v | Lower t a v | Force t a v => is_address t /\ is_address a /\ is_u256 v
  | Fetch t a b v => is_address t /\ is_address a /\ is_address b /\ is_u256 v
  end.
Definition wish_data (r : wish) : list Z :=
  match r with
  | Send t a v => calldata "safeTransfer(address,address,uint256)" [Word t; Word a; Word v]
  | Fetch t a b v => calldata "safeTransferFrom(address,address,address,uint256)" [Word t; Word a; Word b; Word v]
  | Raise t a v => calldata "safeIncreaseAllowance(address,address,uint256)" [Word t; Word a; Word v]
  | Lower t a v => calldata "safeDecreaseAllowance(address,address,uint256)" [Word t; Word a; Word v]
  | Force t a v => calldata "forceApprove(address,address,uint256)" [Word t; Word a; Word v]
  end.
Definition safe_interface : list (string * list abi_type) :=
  [("safeTransfer(address,address,uint256)", [Address; Address; U256]);
   ("safeTransferFrom(address,address,address,uint256)", [Address; Address; Address; U256]);
   ("safeIncreaseAllowance(address,address,uint256)", [Address; Address; U256]);
   ("safeDecreaseAllowance(address,address,uint256)", [Address; Address; U256]);
   ("forceApprove(address,address,uint256)", [Address; Address; U256])].

(** What the contract sends to tokens. *)
Definition pay_data (to v : Z) : list Z := calldata "transfer(address,uint256)" [Word to; Word v].
Definition draw_data (from to v : Z) : list Z := calldata "transferFrom(address,address,uint256)" [Word from; Word to; Word v].
Definition allow_data (spender v : Z) : list Z := calldata "approve(address,uint256)" [Word spender; Word v].
Definition query_data (owner spender : Z) : list Z := calldata "allowance(address,address)" [Word owner; Word spender].

Section any_world.
  Context {W : Type} (this : Z) (code_at : Z -> bool) (call : Z -> list Z -> W -> option (list Z * W)).
  (** The number that the first word (or what there is of it) of an answer says. *)
  Definition first_number (out : list Z) : Z := of_be (firstn 32 out).
  (** A request to a token, and whether it counts as granted: there is code, the call
      succeeds, and it answers nothing or the number one. A call that succeeds with another
      answer still leaves its traces. *)
  Definition asked (token : Z) (data : list Z) (w : W) : bool * W :=
    if code_at token then
      match call token data w with
      | Some (out, w') => ((size out =? 0) || (first_number out =? 1), w')
      | None => (false, w)
      end
    else (false, w).
  Definition no (token : Z) : verdict W := No (Some (SafeErc20FailedOperation token)).
  Definition once (token : Z) (data : list Z) (w : W) : verdict W :=
    match asked token data w with (true, w') => Yes w' | (false, _) => no token end.
  (** An approval: directly, or by way of zero. *)
  Definition approval (token spender v : Z) (w : W) : verdict W :=
    match asked token (allow_data spender v) w with
    | (true, w1) => Yes w1
    | (false, w1) =>
        match asked token (allow_data spender 0) w1 with
        | (true, w2) => once token (allow_data spender v) w2
        | (false, _) => no token
        end
    end.
  (** The allowance that the token says the contract has given. *)
  Definition current (token spender : Z) (w : W) : option (Z * W) :=
    if code_at token then
      match call token (query_data this spender) w with
      | Some (out, w') => Some (first_number out, w')
      | None => None
      end
    else None.
  Definition comes_of (r : wish) (w : W) : verdict W :=
    match r with
    | Send t a v => once t (pay_data a v) w
    | Fetch t a b v => once t (draw_data a b v) w
    | Force t a v => approval t a v w
    | Raise t a v =>
        match current t a w with
        | Some (n, w1) => if n + v <? two256 then approval t a (n + v) w1 else No None
        | None => no t
        end
    | Lower t a v =>
        match current t a w with
        | Some (n, w1) => if n <? v then No (Some (SafeErc20FailedDecreaseAllowance a n v)) else approval t a (n - v) w1
        | None => no t
        end
    end.
  (** Answers are bytes. *)
  Definition answers_bytes : Prop := forall t d w out w', call t d w = Some (out, w') -> List.Forall is_byte out.
End any_world.
Arguments asked {W}. Arguments once {W}. Arguments approval {W}. Arguments current {W}. Arguments comes_of {W}. Arguments answers_bytes {W}. Arguments no {W}.

(** The answer to a call follows a verdict: nothing returned, or a reason. *)
Definition answered {W} (x : answer * W) (w : W) (v : verdict W) : Prop :=
  match v with
  | Yes w' => x = (Returned [], w')
  | No (Some why) => exists d, x = (Reverted d, w) /\ decode_reason d = Some why
  | No None => x = (Reverted [], w)
  end.

(** A token whose approvals work, as bytes tell: in states [P] it reports the allowance [al];
    an approval that succeeds with nothing or one sets it; approving zero, and approving from
    zero, is always granted. Approving from another number may be refused. *)
Record approves {W} (this : Z) (code_at : Z -> bool) (call : Z -> list Z -> W -> option (list Z * W)) (token spender : Z)
    (P : W -> Prop) (al : W -> Z) : Prop := {
  as_code : code_at token = true;
  as_range : forall w, P w -> is_u256 (al w);
  as_says : forall w, P w -> call token (query_data this spender) w = Some (word (al w), w);
  as_stays : forall v w out w', P w -> is_u256 v -> call token (allow_data spender v) w = Some (out, w') -> P w';
  as_sets : forall v w w', P w -> is_u256 v -> asked code_at call token (allow_data spender v) w = (true, w') -> al w' = v;
  as_zero : forall w, P w -> fst (asked code_at call token (allow_data spender 0) w) = true;
  as_fresh : forall v w, P w -> is_u256 v -> al w = 0 -> fst (asked code_at call token (allow_data spender v) w) = true
}.

(** * Where the tokens are ledgers *)
Definition put {A} (f : Z -> A) (a : Z) (x : A) : Z -> A := fun b => if b =? a then x else f b.
Section ledgers.
  Context (this : Z) (is_coin : Z -> bool).
  (** An order of the contract to one of the tokens: it fails if there is no token or the
      token's ledger refuses it. *)
  Definition deal (t : Z) (o : order) (b : Z -> ledger) : checks :=
    [(negb (is_coin t), Some (SafeErc20FailedOperation t));
     (match decide (order_checks this o (b t)) tt with Yes _ => false | No _ => true end, Some (SafeErc20FailedOperation t))].
  Definition dealt (t : Z) (o : order) (b : Z -> ledger) : Z -> ledger := put b t (order_effect this o (b t)).
  Definition on_ledgers (r : wish) (b : Z -> ledger) : verdict (Z -> ledger) :=
    match r with
    | Send t a v => decide (deal t (Pay a v) b) (dealt t (Pay a v) b)
    | Fetch t f a v => decide (deal t (Draw f a v) b) (dealt t (Draw f a v) b)
    | Force t a v => decide (deal t (Allow a v) b) (dealt t (Allow a v) b)
    | Raise t a v =>
        let n := l_allowance (b t) this a + v in
        decide ((negb (is_coin t), Some (SafeErc20FailedOperation t)) :: (two256 <=? n, None) :: deal t (Allow a n) b) (dealt t (Allow a n) b)
    | Lower t a v =>
        let n := l_allowance (b t) this a in
        decide ((negb (is_coin t), Some (SafeErc20FailedOperation t)) ::
                (n <? v, Some (SafeErc20FailedDecreaseAllowance a n v)) :: deal t (Allow a (n - v)) b) (dealt t (Allow a (n - v)) b)
    end.
End ledgers.
