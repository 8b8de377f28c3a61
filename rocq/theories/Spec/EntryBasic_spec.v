(** A plain token with a name (examples/basic/token) as its users know it: the ideal ledger of
    Spec/Ledger_spec.v, three labels, and anybody issues. *)
From Verif.Base Require Import Prelude Bytes.
From Coq Require Import String List.
From Verif.Model Require Import Introspection.
From Verif.Model Require SolAbi Entry.
From Verif.Spec Require Import SolAbi_spec Entry_spec Ledger_spec.
Import SolAbi Entry.
#[global] Open Scope Z_scope.
Local Open Scope string_scope.
Local Open Scope list_scope.
Local Open Scope Z_scope.

Definition order_data (r : order) : list Z :=
  match r with
  | Pay to v => calldata "transfer(address,uint256)" [Word to; Word v]
  | Allow sp v => calldata "approve(address,uint256)" [Word sp; Word v]
  | Draw f t v => calldata "transferFrom(address,address,uint256)" [Word f; Word t; Word v]
  | Issue a v => calldata "mint(address,uint256)" [Word a; Word v]
  end.
(** Transfers and approvals return [true], [mint] returns nothing. *)
Definition order_result (r : order) : list Z := match r with Issue _ _ => [] | _ => word 1 end.
Definition ideal (c : Z) (r : order) (b : ledger) : verdict ledger := decide (order_checks c r b) (order_effect c r b).
Definition ideal_step (b : ledger) (x : Z * order) : ledger := match ideal (fst x) (snd x) b with Yes b' => b' | No _ => b end.
Definition ideal_run (l : list (Z * order)) (b : ledger) : ledger := fold_left ideal_step l b.
Definition orders_sent (l : list (Z * order)) : list (Z * Z * list Z) := map (fun x => (fst x, 0, order_data (snd x))) l.

Section seen.
  Context {S : Type} (call : Z -> Z -> list Z -> S -> answer * S) (name symbol : list Z).
  Definition says_text (s : S) (sig : string) (t : list Z) : Prop :=
    forall c, call c 0 (calldata sig []) s = (Returned (abi_params [Octets t]), s).
  Definition shows (s : S) (b : ledger) : Prop :=
    tells call s "totalSupply()" [] (l_supply b) /\
    (forall a, is_address a -> tells call s "balanceOf(address)" [Word a] (l_balance b a)) /\
    (forall o sp, is_address o -> is_address sp -> tells call s "allowance(address,address)" [Word o; Word sp] (l_allowance b o sp)) /\
    says_text s "name()" name /\ says_text s "symbol()" symbol /\ tells call s "decimals()" [] 18.
  Definition follows (s : S) (b : ledger) (c : Z) (r : order) : Prop :=
    match ideal c r b with
    | Yes b' => exists s', call c 0 (order_data r) s = (Returned (order_result r), s') /\ shows s' b' /\ ledger_fits b'
    | No (Some why) => exists d, call c 0 (order_data r) s = (Reverted d, s) /\ decode_reason d = Some why
    | No None => call c 0 (order_data r) s = (Reverted [], s)
    end.
End seen.

(** * The public functions of examples/basic/token *)
Definition basic_interface : list (string * list abi_type) :=
  [("totalSupply()", []); ("balanceOf(address)", [Address]); ("allowance(address,address)", [Address; Address]);
   ("transfer(address,uint256)", [Address; U256]); ("approve(address,uint256)", [Address; U256]);
   ("transferFrom(address,address,uint256)", [Address; Address; U256]);
   ("mint(address,uint256)", [Address; U256]); ("name()", []); ("symbol()", []); ("decimals()", [])].
Definition basic_proper (value : Z) (input : list Z) : Prop :=
  value = 0 /\ exists sig ts args, In (sig, ts) basic_interface /\ List.Forall2 has_type ts args /\ input = calldata sig args.
(** Histories: callers are addresses, calldata are bytes. *)
Definition basic_sane (h : list (Z * Z * list Z)) : Prop :=
  List.Forall (fun c => is_address (fst (fst c)) /\ List.Forall is_byte (snd c) /\ size (snd c) < two256) h.
