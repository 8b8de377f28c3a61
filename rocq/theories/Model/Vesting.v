(** Model of contracts/src/finance/vesting_wallet.rs. *)
From Verif.Base Require Import Prelude Maps.
From Verif.Model Require Ownable Erc20 SafeErc20 Erc20World.
From stdpp Require Import gmap.
Import SafeErc20.
#[global] Open Scope Z_scope.

(** vesting_wallet.rs:55-66 *)
Inductive event := EtherReleased (amount : Z) | ERC20Released (token amount : Z).
(** vesting_wallet.rs:70-98 *)
Inductive error :=
| ErrOwnable (e : Ownable.error)
| ReleaseEtherFailed (data : list Z)     (* call::Error: what the payee reverted with *)
| ErrSafeErc20 (e : SafeErc20.error)
| InvalidToken (token : Z)
| CallbackReverted (data : list Z).     (* environment: the code of the payee reverted *)

(** vesting_wallet.rs:107-121; [start] and [duration] are written by the constructor only
    and are parameters below. *)
Record wallet := mkwal {
  own : Ownable.state;
  released : Z;
  erc20_released : gmap Z Z;
  evs : list event
}.
(** The native currency: balances, and every transfer made so far. *)
Record native := mknat { nbal : gmap Z Z; transfers : list (Z * Z * Z) }.
(** The chain as the wallet sees it: itself, native balances, the block time, and the other
    contracts. *)
Record world S := mkw { wal : wallet; nat_ : native; now : Z; toks : S }.
Arguments mkw {S} _ _ _ _.
Arguments wal {S} _.
Arguments nat_ {S} _.
Arguments now {S} _.
Arguments toks {S} _.

Definition balance_of (n : native) (a : Z) : Z := mget (nbal n) a.
(** A native transfer (requires the funds). *)
Definition send (from to v : Z) (n : native) : native :=
  mknat (mset (mset (nbal n) from (mget (nbal n) from - v)) to
              (mget (mset (nbal n) from (mget (nbal n) from - v)) to + v))
        (transfers n ++ [(from, to, v)]).

Section with_env.
  Context {S : Type} (x : ext S) (start duration : Z).
  Notation W := (world S).
  Notation this := (self x).

  Definition set_wal (a : wallet) (w : W) : W := mkw a (nat_ w) (now w) (toks w).
  Definition set_nat (n : native) (w : W) : W := mkw (wal w) n (now w) (toks w).
  Definition set_toks (t : S) (w : W) : W := mkw (wal w) (nat_ w) (now w) t.
  Definition emit (e : event) (a : wallet) : wallet :=
    mkwal (own a) (released a) (erc20_released a) (evs a ++ [e]).
  Definition set_own (o : Ownable.state) (a : wallet) : wallet :=
    mkwal o (released a) (erc20_released a) (evs a).
  Definition set_released (v : Z) (a : wallet) : wallet :=
    mkwal (own a) v (erc20_released a) (evs a).
  Definition set_erc20_released (token v : Z) (a : wallet) : wallet :=
    mkwal (own a) (released a) (mset (erc20_released a) token v) (evs a).

  (** vesting_wallet.rs:377-381 *)
  Definition end_ : Z := wadd start duration.
  (** vesting_wallet.rs:383-391 *)
  Definition released_eth (w : W) : Z := released (wal w).
  Definition released_erc20 (token : Z) (w : W) : Z := mget (erc20_released (wal w)) token.

  (** vesting_wallet.rs:488-509 *)
  Definition vesting_schedule (total_allocation timestamp : Z) : M W error Z :=
    if timestamp <? start then ret 0
    else if end_ <=? timestamp then ret total_allocation
    else
      let elapsed := wsub timestamp start in
      scaled <~ cmul total_allocation elapsed ;;
      ret (scaled / duration).

  (** vesting_wallet.rs:446-453 *)
  Definition vested_amount_eth (timestamp : Z) : M W error Z :=
    b <~ gets (fun w => balance_of (nat_ w) this) ;;
    r <~ gets released_eth ;;
    total <~ cadd b r ;;
    vesting_schedule total timestamp.

  (** vesting_wallet.rs:455-471 *)
  Definition vested_amount_erc20 (token timestamp : Z) : M W error Z :=
    b <~ (fun w => match SafeErc20.balance_of x token this (toks w) with
                   | Some b => (Ok b, w)
                   | None => (Err (InvalidToken token), w)
                   end) ;;
    r <~ gets (released_erc20 token) ;;
    total <~ cadd b r ;;
    vesting_schedule total timestamp.

  (** vesting_wallet.rs:393-398 *)
  Definition releasable_eth : M W error Z :=
    t <~ gets now ;;
    v <~ vested_amount_eth t ;;
    r <~ gets released_eth ;;
    ret (wsub v r).
  (** vesting_wallet.rs:400-409 *)
  Definition releasable_erc20 (token : Z) : M W error Z :=
    t <~ gets now ;;
    v <~ vested_amount_erc20 token t ;;
    r <~ gets (released_erc20 token) ;;
    ret (wsub v r).

  (** [call(Call::new_in(self).value(amount), owner, &[])]: moves the money, then runs the
      payee's code [k]; everything is undone if that fails, and the error carries the bytes
      the payee reverted with (none if it ran out of gas or there are no funds). *)
  Definition call_value (to v : Z) (k : M W error unit) : M W error unit :=
    fun w =>
      if balance_of (nat_ w) this <? v then (Err (ReleaseEtherFailed []), w)
      else match k (set_nat (send this to v (nat_ w)) w) with
           | (Ok _, w') => (Ok tt, w')
           | (Err (CallbackReverted d), _) => (Err (ReleaseEtherFailed d), w)
           | _ => (Err (ReleaseEtherFailed []), w)
           end.

  (** vesting_wallet.rs:411-427; [k] is the code run by the owner when it is paid. *)
  Definition release_eth (k : M W error unit) : M W error unit :=
    amount <~ releasable_eth ;;
    r <~ gets released_eth ;;
    r' <~ cadd r amount ;;
    modify (fun w => set_wal (set_released r' (wal w)) w) ;;;
    owner <~ gets (fun w => Ownable.owner (own (wal w))) ;;
    call_value owner amount k ;;;
    modify (fun w => set_wal (emit (EtherReleased amount) (wal w)) w).

  (** vesting_wallet.rs:429-444 *)
  Definition release_erc20 (token : Z) : M W error unit :=
    amount <~ releasable_erc20 token ;;
    owner <~ gets (fun w => Ownable.owner (own (wal w))) ;;
    r <~ gets (released_erc20 token) ;;
    r' <~ cadd r amount ;;
    modify (fun w => set_wal (set_erc20_released token r' (wal w)) w) ;;;
    zoom toks set_toks (map_err ErrSafeErc20 (safe_transfer x token owner amount)) ;;;
    modify (fun w => set_wal (emit (ERC20Released token amount) (wal w)) w).

  (** vesting_wallet.rs:353-365 *)
  Definition ownership (caller : Z) (o : Ownable.op) : M W error unit :=
    zoom (fun w => own (wal w)) (fun s w => set_wal (set_own s (wal w)) w)
         (map_err ErrOwnable (Ownable.exec caller o)).
End with_env.

(** ** Histories: an honest ERC-20 token, arbitrary owners *)

(** What can happen on chain: somebody calls release, ownership calls, native transfers and
    token calls by others. A release of Ether runs the owner's code, an arbitrary program
    of such actions; [must] says whether the program gives up when the action fails. *)
Inductive act :=
| ReleaseEth (on_paid : prog)
| ReleaseToken (token : Z)
| Own (caller : Z) (o : Ownable.op)
| Send (from to v : Z)
| Token (caller : Z) (o : Erc20.op)
with prog :=
| Accept
| Reject (data : list Z)
| Then (must : bool) (a : act) (p : prog).

Section histories.
  Context (this token start duration : Z).
  Notation x := (Erc20World.honest_ext this token).
  Notation W := (world Erc20World.world).

  Fixpoint exec (a : act) : M W error unit :=
    match a with
    | ReleaseEth p => release_eth x start duration (run_prog p)
    | ReleaseToken t => release_erc20 x start duration t
    | Own c o => ownership c o
    | Send f t v => fun w =>
        if (0 <=? v) && (v <=? balance_of (nat_ w) f)
        then (Ok tt, set_nat (send f t v (nat_ w)) w)
        else (Err (CallbackReverted []), w)
    | Token c o => zoom toks set_toks
        (map_err (fun _ => CallbackReverted []) (Erc20World.on_asset (Erc20.exec c o)))
    end
  with run_prog (p : prog) : M W error unit :=
    match p with
    | Accept => ret tt
    | Reject d => fail (CallbackReverted d)
    | Then must a p' => fun w =>
        match tx (exec a) w with
        | (Ok _, w') => run_prog p' w'
        | (_, w') => if must then (Err (CallbackReverted []), w') else run_prog p' w'
        end
    end.

  (** Top-level transactions, and time passing. *)
  Inductive call := Do (a : act) | Wait (seconds : Z).
  Definition step (w : W) (c : call) : W :=
    match c with
    | Do a => snd (tx (exec a) w)
    | Wait d => mkw (wal w) (nat_ w) (now w + d) (toks w)
    end.
  Definition run (h : list call) (w : W) : W := fold_left step h w.
End histories.
