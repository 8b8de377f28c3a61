(** A vesting wallet as its users know it: what has come in vests along a straight line, and
    what has vested and was not yet paid can be paid to the owner, by anyone. *)
From Verif.Base Require Import Prelude Bytes Maps.
From stdpp Require gmap.
From Coq Require Import String List.
From Verif.Model Require Import Introspection.
From Verif.Model Require SolAbi Entry.
From Verif.Model Require Import EntryVesting.
From Verif.Spec Require Import SolAbi_spec Entry_spec Ledger_spec EntryVault_spec.
Import SolAbi Entry.
#[global] Open Scope Z_scope.
Local Open Scope string_scope.
Local Open Scope list_scope.
Local Open Scope Z_scope.

Record purse := mkPurse {
  v_owner : Z;
  v_paid : Z;             (* native currency paid so far *)
  v_coin_paid : Z;        (* tokens paid so far *)
  v_clock : Z;
  v_ether : Z -> Z;       (* everybody's native currency *)
  v_coins : ledger
}.
Definition purse_fits (b : purse) : Prop :=
  is_address (v_owner b) /\ is_u256 (v_paid b) /\ is_u256 (v_coin_paid b) /\ ledger_fits (v_coins b).

Inductive wish :=
| Release | ReleaseCoin (token : Z) | HandOver (to : Z) | Renounce | Fund (v : Z)
| OnToken (o : order) | Give (to v : Z) (data : list Z).
Definition wish_fits (this coin : Z) (r : wish) : Prop :=
  match r with
  | Release | Renounce => True
  | ReleaseCoin a | HandOver a => is_address a
  | Fund v => is_u256 v
  | OnToken o => order_fits o
  | Give a v _ => a <> this /\ a <> coin /\ is_u256 v
  end.
Definition wish_to (this coin : Z) (r : wish) : Z := match r with OnToken _ => coin | Give a _ _ => a | _ => this end.
Definition wish_value (r : wish) : Z := match r with Fund v | Give _ v _ => v | _ => 0 end.
Definition wish_data (r : wish) : list Z :=
  match r with
  | Release => calldata "release()" []
  | ReleaseCoin t => calldata "release(address)" [Word t]
  | HandOver a => calldata "transferOwnership(address)" [Word a]
  | Renounce => calldata "renounceOwnership()" []
  | Fund _ => []
  | OnToken o => order_data o
  | Give _ _ d => d
  end.
(** A decision: the answer and the new state of affairs, a reason, or bytes passed on. *)
Inductive decision := Done (out : list Z) (b : purse) | Refused (why : reason) | Quoted (data : list Z).

Section wallet.
  Context (this coin start duration : Z).
  (** The straight line, rounded down; the product must fit a word. *)
  Definition vested_part (total t : Z) : Z :=
    if t <? start then 0 else if start + duration <=? t then total else total * (t - start) / duration.
  Definition countable (total t : Z) : bool :=
    (total <? two256) && ((t <? start) || (start + duration <=? t) || (total * (t - start) <? two256)).
  (** What came in so far, and what may go out now. *)
  Definition funds (b : purse) : Z := v_ether b this + v_paid b.
  Definition due (b : purse) : Z := vested_part (funds b) (v_clock b) - v_paid b.
  Definition coin_funds (b : purse) : Z := l_balance (v_coins b) this + v_coin_paid b.
  Definition coin_due (b : purse) : Z := vested_part (coin_funds b) (v_clock b) - v_coin_paid b.
  Definition with_owner (b : purse) (o : Z) : purse := mkPurse o (v_paid b) (v_coin_paid b) (v_clock b) (v_ether b) (v_coins b).
  Definition with_ether (b : purse) (paid : Z) (f : Z -> Z) : purse := mkPurse (v_owner b) paid (v_coin_paid b) (v_clock b) f (v_coins b).
  Definition with_coins (b : purse) (paid : Z) (l : ledger) : purse := mkPurse (v_owner b) (v_paid b) paid (v_clock b) (v_ether b) l.
  Definition later (b : purse) (d : Z) : purse := mkPurse (v_owner b) (v_paid b) (v_coin_paid b) (v_clock b + d) (v_ether b) (v_coins b).
  (** [answers]: what an account answers when it is called. The wallet does not answer itself
      while it is at work, and the token takes no money. *)
  Definition takes (answers : Z -> answer) (a : Z) : answer :=
    if (a =? this) || (a =? coin) then Reverted [] else answers a.
  Definition ideal (answers : Z -> answer) (c : Z) (r : wish) (b : purse) : decision :=
    match r with
    | Release =>
        if negb (countable (funds b) (v_clock b)) then Quoted [] else
        match takes answers (v_owner b) with
        | Reverted d => Quoted d
        | Returned _ => Done [] (with_ether b (v_paid b + due b) (moved (v_ether b) this (v_owner b) (due b)))
        end
    | ReleaseCoin t =>
        if negb (t =? coin) then Refused (InvalidToken t) else
        if negb (countable (coin_funds b) (v_clock b)) then Quoted [] else
        if refused this (Pay (v_owner b) (coin_due b)) (v_coins b) then Refused (SafeErc20FailedOperation coin) else
        Done [] (with_coins b (v_coin_paid b + coin_due b) (order_effect this (Pay (v_owner b) (coin_due b)) (v_coins b)))
    | HandOver a =>
        if negb (c =? v_owner b) then Refused (OwnableUnauthorizedAccount c) else
        if a =? 0 then Refused (OwnableInvalidOwner 0) else Done [] (with_owner b a)
    | Renounce => if negb (c =? v_owner b) then Refused (OwnableUnauthorizedAccount c) else Done [] (with_owner b 0)
    | Fund v => if v_ether b c <? v then Quoted [] else Done [] (with_ether b (v_paid b) (moved (v_ether b) c this v))
    | OnToken o =>
        match decide (order_checks c o (v_coins b)) tt with
        | Yes _ => Done (order_result o) (with_coins b (v_coin_paid b) (order_effect c o (v_coins b)))
        | No (Some why) => Refused why
        | No None => Quoted []
        end
    | Give a v _ =>
        if v_ether b c <? v then Quoted [] else
        match answers a with
        | Returned d => Done d (with_ether b (v_paid b) (moved (v_ether b) c a v))
        | Reverted d => Quoted d
        end
    end.

  (** The questions that are computed. *)
  Inductive query := Releasable | ReleasableToken (t : Z) | Vested (t : Z) | VestedToken (a t : Z) | Start | Duration | End.
  Definition query_fits (q : query) : Prop :=
    match q with
    | ReleasableToken a => is_address a
    | Vested t => 0 <= t < 2 ^ 64
    | VestedToken a t => is_address a /\ 0 <= t < 2 ^ 64
    | _ => True
    end.
  Definition query_data (q : query) : list Z :=
    match q with
    | Releasable => calldata "releasable()" []
    | ReleasableToken a => calldata "releasable(address)" [Word a]
    | Vested t => calldata "vestedAmount(uint64)" [Word t]
    | VestedToken a t => calldata "vestedAmount(address,uint64)" [Word a; Word t]
    | Start => calldata "start()" []
    | Duration => calldata "duration()" []
    | End => calldata "end()" []
    end.
  (** The number, or [inr]: a reason, or none. *)
  Definition told (q : query) (b : purse) : Z + option reason :=
    let n total t v := if countable total t then inl v else inr None in
    match q with
    | Releasable => n (funds b) (v_clock b) (due b)
    | ReleasableToken a => if a =? coin then n (coin_funds b) (v_clock b) (coin_due b) else inr (Some (InvalidToken a))
    | Vested t => n (funds b) t (vested_part (funds b) t)
    | VestedToken a t => if a =? coin then n (coin_funds b) t (vested_part (coin_funds b) t) else inr (Some (InvalidToken a))
    | Start => inl start
    | Duration => inl duration
    | End => inl (start + duration)
    end.

  (** * What the answers say: [call answers to sender value input], and the chain itself *)
  Section seen.
    Context {S : Type} (call : (Z -> answer) -> Z -> Z -> Z -> list Z -> S -> answer * S) (ether : S -> Z -> Z) (clock : S -> Z).
    Definition shows_purse (s : S) (b : purse) : Prop :=
      (forall p,
        says (call p) this s "owner()" [] (v_owner b) /\
        says (call p) this s "released()" [] (v_paid b) /\
        (forall t, is_address t -> says (call p) this s "released(address)" [Word t] (if t =? coin then v_coin_paid b else 0)) /\
        shows_ledger (call p) coin s (v_coins b)) /\
      (forall a, ether s a = v_ether b a) /\ clock s = v_clock b.
    Definition obeys (s : S) (p : Z -> answer) (to c value : Z) (data : list Z) (x : decision) : Prop :=
      match x with
      | Done out b' => exists s', call p to c value data s = (Returned out, s') /\ shows_purse s' b' /\ purse_fits b'
      | Refused why => exists d, call p to c value data s = (Reverted d, s) /\ decode_reason d = Some why
      | Quoted d => call p to c value data s = (Reverted d, s)
      end.
    Definition answers_query (s : S) (p : Z -> answer) (c : Z) (q : query) (x : Z + option reason) : Prop :=
      match x with
      | inl v => call p this c 0 (query_data q) s = (Returned (word v), s)
      | inr (Some why) => exists d, call p this c 0 (query_data q) s = (Reverted d, s) /\ decode_reason d = Some why
      | inr None => call p this c 0 (query_data q) s = (Reverted [], s)
      end.
  End seen.
  (** Keeping the books by hand. *)
  Inductive deed := Wish (answers : Z -> answer) (c : Z) (r : wish) | Waiting (d : Z).
  Definition by_hand (b : purse) (x : deed) : purse :=
    match x with
    | Wish p c r => match ideal p c r b with Done _ b' => b' | _ => b end
    | Waiting d => later b d
    end.
End wallet.
(** The same, as calls. *)
Definition happening_of (this coin : Z) (x : deed) : happening :=
  match x with
  | Wish p c r => Called p (wish_to this coin r) c (wish_value r) (wish_data r)
  | Waiting d => Passed d
  end.
Definition deed_fits (this coin : Z) (x : deed) : Prop :=
  match x with
  | Wish _ c r => is_address c /\ c <> this /\ wish_fits this coin r
  | Waiting d => 0 <= d
  end.
(** What happens on a real chain: calls are bytes with a word of money, the wallet calls nobody by
    itself, and time passes. *)
Definition sane_happening (this : Z) (e : happening) : Prop :=
  match e with
  | Called _ _ c v d => is_address c /\ c <> this /\ is_u256 v /\ List.Forall is_byte d /\ size d < two256
  | Passed d => 0 <= d
  end.
(** Two contracts at two addresses, and a schedule of 64-bit numbers. *)
Definition set_up (this coin start duration : Z) : Prop :=
  is_address this /\ this <> 0 /\ is_address coin /\ this <> coin /\ 0 <= start < 2 ^ 64 /\ 0 <= duration < 2 ^ 64.
(** The money on the chain at the start: a word of it in all, none of it the wallet's. *)
Definition at_first (this owner t : Z) (m : gmap.gmap Z Z) : Prop :=
  is_address owner /\ 0 <= t /\ mnonneg m /\ msum m < two256 /\ mget m this = 0.
(** What the granted payments into the wallet come to. *)
Fixpoint came_in (this coin start duration : Z) (l : list deed) (b : purse) : Z :=
  match l with
  | [] => 0
  | x :: l' =>
      (match x with
       | Wish p c (Fund v) => match ideal this coin start duration p c (Fund v) b with Done _ _ => v | _ => 0 end
       | _ => 0
       end) + came_in this coin start duration l' (by_hand this coin start duration b x)
  end.
Definition new_purse (owner t : Z) (f : Z -> Z) : purse := mkPurse owner 0 0 t f new_ledger.
(** The public functions. *)
Definition vesting_interface : list (string * list abi_type) :=
  [("owner()", []); ("transferOwnership(address)", [Address]); ("renounceOwnership()", []); ("start()", []); ("duration()", []);
   ("end()", []); ("released()", []); ("released(address)", [Address]); ("releasable()", []); ("releasable(address)", [Address]);
   ("release()", []); ("release(address)", [Address]); ("vestedAmount(uint64)", [u64]); ("vestedAmount(address,uint64)", [Address; u64])].
