(** Which error a failing call reports: every call is described by an ordered list of checks,
    each with the outcome of failing it; the first failing one decides. *)
From Verif.Base Require Import Prelude.
From Verif.Model Require Erc20 Pausable Erc20Example Erc721 Erc1155 AccessControl SafeErc20 Erc20World Wrapper Erc4626.
#[global] Open Scope Z_scope.

Section checks.
  Context {E : Type}.
  Definition check : Type := bool * res E unit.
  Fixpoint first_failing (l : list check) : res E unit :=
    match l with
    | [] => Ok tt
    | (true, r) :: _ => r
    | (false, _) :: l' => first_failing l'
    end.
  (** The outcome of a call without the value it returns. *)
  Definition outcome {A} (r : res E A) : res E unit :=
    match r with Ok _ => Ok tt | Err e => Err e | Panic => Panic end.
End checks.
Arguments check : clear implicits.

(** ** ERC-20 *)
Definition erc20_spending (s : Erc20.state) (o sp v : Z) : list (check Erc20.error) :=
  let al := Erc20.allowance s o sp in
  if al =? U256_MAX then [] else
  [(al <? v, Err (Erc20.InsufficientAllowance sp al v));
   (o =? 0, Err (Erc20.InvalidApprover 0)); (sp =? 0, Err (Erc20.InvalidSpender 0))].
Definition erc20_debit (s : Erc20.state) (from v : Z) : list (check Erc20.error) :=
  let b := Erc20.balance_of s from in
  [(from =? 0, Err (Erc20.InvalidSender 0)); (b <? v, Err (Erc20.InsufficientBalance from b v))].
Definition erc20_move (s : Erc20.state) (from to v : Z) : list (check Erc20.error) :=
  let b := Erc20.balance_of s from in
  [(from =? 0, Err (Erc20.InvalidSender 0)); (to =? 0, Err (Erc20.InvalidReceiver 0));
   (b <? v, Err (Erc20.InsufficientBalance from b v))].
Definition erc20_mint (s : Erc20.state) (to v : Z) : list (check Erc20.error) :=
  [(to =? 0, Err (Erc20.InvalidReceiver 0)); (two256 <=? Erc20.total_supply s + v, Panic)].

(** ** examples/erc20 *)
Definition lift_checks {E E'} (f : E -> E') (l : list (check E)) : list (check E') :=
  map (fun c => (fst c, match snd c with Ok u => Ok u | Err e => Err (f e) | Panic => Panic end)) l.
Definition ex20_running (s : Erc20Example.state) : list (check Erc20Example.error) :=
  [(Pausable.paused (Erc20Example.pausable s), Err (Erc20Example.PausableError Pausable.EnforcedPause))].

(** ** ERC-721 *)
Definition erc721_may_move (s : Erc721.state) (c id : Z) : bool :=
  let o := Erc721._owner_of id s in
  (c =? o) || Erc721.is_approved_for_all o c s || (c =? Erc721._get_approved id s).
(** [c] may move the token: the token exists, and [c] is owner, operator or approved. *)
Definition erc721_auth (s : Erc721.state) (c id : Z) : list (check Erc721.error) :=
  let o := Erc721._owner_of id s in
  [(negb (erc721_may_move s c id) && (o =? 0), Err (Erc721.NonexistentToken id));
   (negb (erc721_may_move s c id), Err (Erc721.InsufficientApproval c id))].
Definition erc721_from (s : Erc721.state) (from id : Z) : list (check Erc721.error) :=
  let o := Erc721._owner_of id s in
  [(negb (o =? from), Err (Erc721.IncorrectOwner from id o))].
(** The receiver's answer, in the state after the transfer. *)
Definition erc721_answer (has_code : Z -> bool) (to : Z) (r : Erc721.reply) : list (check Erc721.error) :=
  if has_code to then
    match r with
    | Erc721.Failed [] => [(true, Err (Erc721.InvalidReceiver to))]
    | Erc721.Failed reason => [(true, Err (Erc721.InvalidReceiverWithReason reason))]
    | Erc721.Returned v => [(negb (v =? 0x150b7a02), Err (Erc721.InvalidReceiver to))]
    end
  else [].

(** ** ERC-1155: the balances while a batch is worked off, over the integers *)
Fixpoint batch_sum (id : Z) (l : list (Z * Z)) : Z :=
  match l with
  | [] => 0
  | (i, v) :: l' => (if i =? id then v else 0) + batch_sum id l'
  end.
Definition held (s : Erc1155.state) (from to : Z) (debited credited : list (Z * Z)) (a id : Z) : Z :=
  Erc1155.balance_of a id s
  - (if (a =? from) && negb (from =? 0) then batch_sum id debited else 0)
  + (if (a =? to) && negb (to =? 0) then batch_sum id credited else 0).
(** The entries [todo] after the entries [done]. *)
Fixpoint batch_checks (s : Erc1155.state) (from to : Z) (done todo : list (Z * Z)) : list (check Erc1155.error) :=
  match todo with
  | [] => []
  | (id, v) :: l =>
      let b := held s from to done done from id in
      (negb (from =? 0) && (b <? v), Err (Erc1155.InsufficientBalance from b v id)) ::
      (negb (to =? 0) && (two256 <=? held s from to (done ++ [(id, v)]) done to id + v), Panic) ::
      batch_checks s from to (done ++ [(id, v)]) l
  end.
Definition erc1155_auth (s : Erc1155.state) (c from : Z) : list (check Erc1155.error) :=
  [(negb (from =? c) && negb (Erc1155.is_approved_for_all from c s), Err (Erc1155.MissingApprovalForAll c from))].
Definition erc1155_lengths (ids values : list Z) : list (check Erc1155.error) :=
  [(negb (Nat.eqb (length ids) (length values)),
    Err (Erc1155.InvalidArrayLength (Z.of_nat (length ids)) (Z.of_nat (length values))))].
Definition erc1155_update (s : Erc1155.state) (from to : Z) (ids values : list Z) : list (check Erc1155.error) :=
  erc1155_lengths ids values ++ batch_checks s from to [] (combine ids values).
Definition erc1155_answer (has_code : Z -> bool) (to expected : Z) (r : Erc1155.reply) : list (check Erc1155.error) :=
  if has_code to then
    match r with
    | Erc1155.Failed [] => [(true, Err (Erc1155.InvalidReceiver to))]
    | Erc1155.Failed reason => [(true, Err (Erc1155.InvalidReceiverWithReason reason))]
    | Erc1155.Returned v => [(negb (v =? expected), Err (Erc1155.InvalidReceiver to))]
    end
  else [].
(** One id goes to the single hook, anything else to the batch hook. *)
Definition erc1155_hook (ids values : list Z) : Z * Erc1155.transfer :=
  match ids, values with
  | [id], [value] => (0xf23a6e61, Erc1155.Single id value)
  | _, _ => (0xbc197c81, Erc1155.Batch ids values)
  end.

(** ** AccessControl *)
Definition ac_admin (s : AccessControl.state) (c role : Z) : list (check AccessControl.error) :=
  let admin := AccessControl.get_role_admin s role in
  [(negb (AccessControl.has_role s admin c), Err (AccessControl.UnauthorizedAccount c admin))].

(** ** Wrapper and vault at [this] over a token of the library: when the asset refuses to move *)
Definition pull_refused (u : Erc20.state) (this from v : Z) : bool :=
  let al := Erc20.allowance u from this in
  (from =? 0) || (Erc20.balance_of u from <? v) || (negb (al =? U256_MAX) && (al <? v)).
Definition push_refused (u : Erc20.state) (this to v : Z) : bool :=
  (to =? 0) || (Erc20.balance_of u this <? v).
Definition vault_in (w : Erc20World.world) (this asset c r a s : Z) : list (check Erc4626.error) :=
  [(pull_refused (Erc20World.asset_st w) this c a, Err (Erc4626.ErrSafeErc20 (SafeErc20.SafeErc20FailedOperation asset)))] ++
  lift_checks Erc4626.ErrErc20 (erc20_mint (Erc20World.tok w) r s).
Definition vault_out (w : Erc20World.world) (this asset c r o a s : Z) : list (check Erc4626.error) :=
  lift_checks Erc4626.ErrErc20
    ((if c =? o then [] else erc20_spending (Erc20World.tok w) o c s) ++ erc20_debit (Erc20World.tok w) o s) ++
  [(push_refused (Erc20World.asset_st w) this r a, Err (Erc4626.ErrSafeErc20 (SafeErc20.SafeErc20FailedOperation asset)))].
