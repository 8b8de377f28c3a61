(** Model of contracts/src/token/common/erc2981.rs *)
From Verif.Base Require Import Prelude Maps.
From stdpp Require Import gmap.
#[global] Open Scope Z_scope.

(** lines 83-98 *)
Inductive error :=
| InvalidDefaultRoyalty (numerator denominator : Z)
| InvalidDefaultRoyaltyReceiver (receiver : Z)
| InvalidTokenRoyalty (token_id numerator denominator : Z)
| InvalidTokenRoyaltyReceiver (token_id receiver : Z).
(** lines 107-113; erased: zero receiver and fraction *)
Record royalty := mkR { receiver : Z; royalty_fraction : Z }.
Definition erased : royalty := mkR 0 0.
(** lines 116-125; [fee_denominator] is a public field, to be set by the deriving
    contract's constructor (zero, like all storage, before) *)
Record state := mk {
  default_royalty_info : royalty;
  token_royalty_info : gmap Z royalty;
  fee_denominator : Z
}.
Definition deployed (denominator : Z) : state := mk erased ∅ denominator.
Definition MS := M state error.

(** lines 166-193 *)
Definition royalty_info (token_id sale_price : Z) : MS (Z * Z) :=
  info <~ gets (fun s => getd erased (token_royalty_info s) token_id) ;;
  d <~ gets default_royalty_info ;;
  den <~ gets fee_denominator ;;
  let '(r, fraction) := if receiver info =? 0 then (receiver d, royalty_fraction d)
                        else (receiver info, royalty_fraction info) in
  x <~ cmul sale_price fraction ;;
  if den =? 0 then panic else ret (r, x / den).
(** lines 230-256 *)
Definition _set_default_royalty (r fee_numerator : Z) : MS unit :=
  den <~ gets fee_denominator ;;
  fail_if (den <? fee_numerator) (InvalidDefaultRoyalty fee_numerator den) ;;;
  fail_if (r =? 0) (InvalidDefaultRoyaltyReceiver r) ;;;
  modify (fun s => mk (mkR r fee_numerator) (token_royalty_info s) (fee_denominator s)).
(** lines 263-265 *)
Definition _delete_default_royalty : MS unit :=
  modify (fun s => mk erased (token_royalty_info s) (fee_denominator s)).
(** lines 282-311 *)
Definition _set_token_royalty (token_id r fee_numerator : Z) : MS unit :=
  den <~ gets fee_denominator ;;
  fail_if (den <? fee_numerator) (InvalidTokenRoyalty token_id fee_numerator den) ;;;
  fail_if (r =? 0) (InvalidTokenRoyaltyReceiver token_id r) ;;;
  modify (fun s => mk (default_royalty_info s) (<[token_id := mkR r fee_numerator]> (token_royalty_info s)) (fee_denominator s)).
(** lines 320-322 *)
Definition _reset_token_royalty (token_id : Z) : MS unit :=
  modify (fun s => mk (default_royalty_info s) (<[token_id := erased]> (token_royalty_info s)) (fee_denominator s)).

Inductive op :=
| SetDefault (r fee_numerator : Z)
| DeleteDefault
| SetToken (token_id r fee_numerator : Z)
| ResetToken (token_id : Z).
Definition exec (o : op) : MS unit :=
  match o with
  | SetDefault r f => _set_default_royalty r f
  | DeleteDefault => _delete_default_royalty
  | SetToken i r f => _set_token_royalty i r f
  | ResetToken i => _reset_token_royalty i
  end.
(** Every call is a transaction. *)
Fixpoint run (h : list op) (s : state) : state :=
  match h with [] => s | o :: h' => run h' (snd (tx (exec o) s)) end.
