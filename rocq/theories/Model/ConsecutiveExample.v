(** Model of examples/erc721-consecutive: src/constructor.sol (Solidity, run once when the
    contract is deployed) and src/lib.rs. *)
From Verif.Base Require Import Prelude Maps.
From Verif.Model Require Erc721 Checkpoints BitMap Consecutive.
From stdpp Require Import gmap.
Import Consecutive.
#[global] Open Scope Z_scope.

(** ** constructor.sol; [None] is a revert. Arithmetic on [uint96] is checked (pragma 0.8). *)
Definition obind {A B} (o : option A) (f : A -> option B) : option B := match o with Some a => f a | None => None end.
Definition checked96 (v : Z) : option Z := if (0 <=? v) && (v <? two96) then Some v else None.
(** constructor.sol:47-55 *)
Definition latestCheckpoint (s : state) : bool * Z * Z :=
  match rev (sequential_ownership s) with
  | [] => (false, 0, 0)
  | (k, v) :: _ => (true, k, v)
  end.
(** constructor.sol:61-85 ([push], 57-59, calls it) *)
Definition insert (key value : Z) (s : state) : option state :=
  let t := sequential_ownership s in
  match rev t with
  | [] => Some (set_ownership (t ++ [(key, value)]) s)
  | (last_key, _) :: _ =>
      if key <? last_key then None
      else if last_key =? key then Some (set_ownership (removelast t ++ [(key, value)]) s)
      else Some (set_ownership (t ++ [(key, value)]) s)
  end.
(** constructor.sol:118-121 *)
Definition nextConsecutiveId (first : Z) (s : state) : option Z :=
  let '(exists_, latest_id, _) := latestCheckpoint s in
  if (exists_ : bool) then checked96 (latest_id + 1) else Some first.
(** constructor.sol:123-127 *)
Definition increaseBalance (account value : Z) (s : state) : state :=
  set_erc721 (Erc721.set_balances (fun m => mset m account (wadd (mget m account) value)) (erc721 s)) s.
(** constructor.sol:87-116; [address(this).code.length] is 0 while the constructor runs. *)
Definition mintConsecutive (first max to batch_size : Z) (s : state) : option state :=
  obind (nextConsecutiveId first s) (fun next =>
  if 0 <? batch_size then
    if to =? 0 then None
    else if max <? batch_size then None
    else obind (checked96 (next + batch_size)) (fun n => obind (checked96 (n - 1)) (fun last =>
         obind (insert last to s) (fun s1 =>
         Some (cemit (ConsecutiveTransfer next last 0 to) (increaseBalance to batch_size s1)))))
  else Some s).
(** constructor.sol:41-43; [amounts[i]] outside the array reverts. *)
Fixpoint constructor_loop (first max : Z) (receivers amounts : list Z) (s : state) : option state :=
  match receivers, amounts with
  | [], _ => Some s
  | _ :: _, [] => None
  | to :: receivers', n :: amounts' =>
      obind (mintConsecutive first max to n s) (constructor_loop first max receivers' amounts')
  end.
(** constructor.sol:34-44 *)
Definition construct (receivers amounts : list Z) (first max : Z) : option state :=
  constructor_loop first max receivers amounts init.

(** ** lib.rs:23-39: the public functions, with those of [Erc721Consecutive] that it
    inherits; [burn] and [mint] call [_burn] and [_mint]. *)
Inductive call :=
| PBurn (token_id : Z)
| PMint (to token_id : Z)
| PTransferFrom (from to token_id : Z)
| PApprove (to token_id : Z)
| PSetApprovalForAll (operator : Z) (approved : bool).
Section deployed.
  Context (first : Z).
  Definition exec (caller : Z) (c : call) : MC unit :=
    match c with
    | PBurn id => _burn first id
    | PMint to id => _mint first to id
    | PTransferFrom from to id => transfer_from first caller from to id
    | PApprove to id => approve first caller to id
    | PSetApprovalForAll p b => set_approval_for_all caller p b
    end.
  Definition run (h : list (Z * call)) (s : state) : state :=
    fold_left (fun s co => snd (tx (exec (fst co) (snd co)) s)) h s.
End deployed.
