(** Model of the shipped composition of ERC-20 with Capped and Pausable,
    examples/erc20/src/lib.rs, and contracts/src/token/erc20/extensions/capped.rs. *)
From Verif.Base Require Import Prelude.
From Verif.Model Require Erc20 Pausable.
#[global] Open Scope Z_scope.

(** examples/erc20/src/lib.rs:19-24; capped.rs:14-31 *)
Inductive error :=
| ExceededCap (increased_supply cap : Z)
| Erc20Error (e : Erc20.error)
| PausableError (e : Pausable.error).

(** examples/erc20/src/lib.rs:28-37 (the metadata strings play no role here) *)
Record state := mk { erc20 : Erc20.state; cap : Z; pausable : Pausable.state }.

(** Deployment with the given cap (capped.rs:42-45; set once by the constructor). *)
Definition init (cap : Z) : state := mk Erc20.init cap Pausable.init.

Definition on_erc20 {A} (m : M Erc20.state Erc20.error A) : M state error A :=
  map_err Erc20Error (zoom erc20 (fun t s => mk t (cap s) (pausable s)) m).
Definition on_pausable {A} (m : M Pausable.state Pausable.error A) : M state error A :=
  map_err PausableError (zoom pausable (fun p s => mk (erc20 s) (cap s) p) m).

Definition when_not_paused : M state error unit := on_pausable Pausable.when_not_paused.

(** lib.rs:50-53 *)
Definition burn (caller value : Z) : M state error unit :=
  when_not_paused ;;; on_erc20 (Erc20.burn caller value).
(** lib.rs:55-62 *)
Definition burn_from (caller account value : Z) : M state error unit :=
  when_not_paused ;;; on_erc20 (Erc20.burn_from caller account value).
(** lib.rs:69-91 *)
Definition mint (account value : Z) : M state error unit :=
  when_not_paused ;;;
  max_supply <~ gets cap ;;
  total <~ gets (fun s => Erc20.total_supply (erc20 s)) ;;
  supply <~ cadd total value ;;
  fail_if (max_supply <? supply) (ExceededCap supply max_supply) ;;;
  on_erc20 (Erc20._mint account value).
(** lib.rs:93-96 *)
Definition transfer (caller to value : Z) : M state error bool :=
  when_not_paused ;;; on_erc20 (Erc20.transfer caller to value).
(** lib.rs:98-106 *)
Definition transfer_from (caller from to value : Z) : M state error bool :=
  when_not_paused ;;; on_erc20 (Erc20.transfer_from caller from to value).
(** inherited unchanged through #[inherit(Erc20, ..)], lib.rs:40; erc20/mod.rs:296-303 *)
Definition approve (caller spender value : Z) : M state error bool :=
  on_erc20 (Erc20.approve caller spender value).
(** lib.rs:117-119 *)
Definition pause (caller : Z) : M state error unit := on_pausable (Pausable.pause caller).
(** lib.rs:121-123 *)
Definition unpause (caller : Z) : M state error unit := on_pausable (Pausable.unpause caller).

Inductive op :=
| OTransfer (to value : Z) | OApprove (spender value : Z) | OTransferFrom (from to value : Z)
| OBurn (value : Z) | OBurnFrom (account value : Z) | OMint (account value : Z)
| OPause | OUnpause.
Definition exec (caller : Z) (o : op) : M state error unit :=
  match o with
  | OTransfer t v => transfer caller t v ;;; ret tt
  | OApprove sp v => approve caller sp v ;;; ret tt
  | OTransferFrom f t v => transfer_from caller f t v ;;; ret tt
  | OBurn v => burn caller v
  | OBurnFrom a v => burn_from caller a v
  | OMint a v => mint a v
  | OPause => pause caller
  | OUnpause => unpause caller
  end.
Definition op_value (o : op) : Z :=
  match o with
  | OTransfer _ v | OApprove _ v | OTransferFrom _ _ v | OBurn v | OBurnFrom _ v | OMint _ v => v
  | OPause | OUnpause => 0
  end.
Definition step (s : state) (co : Z * op) : state := snd (tx (exec (fst co) (snd co)) s).
Definition run (h : list (Z * op)) (s : state) : state := fold_left step h s.
Definition hist_wf (h : list (Z * op)) : Prop := Forall (fun co => is_u256 (op_value (snd co))) h.
