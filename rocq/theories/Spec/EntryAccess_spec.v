(** A token with roles and two tokens with an owner, as their users know them: an ideal
    ledger, who holds which role or the ownership, and who is let through. Nothing here refers
    to the state of the contracts. *)
From Verif.Base Require Import Prelude Bytes.
From Coq Require Import String List.
From Verif.Model Require Import Introspection.
From Verif.Model Require SolAbi Entry.
From Verif.Spec Require Import Router_spec SolAbi_spec Entry_spec Ledger_spec.
Import SolAbi Entry.
#[global] Open Scope Z_scope.
Local Open Scope string_scope.
Local Open Scope list_scope.
Local Open Scope Z_scope.

(** * What the answers say *)
Section seen.
  Context {S : Type} (call : Z -> Z -> list Z -> S -> answer * S).
  (** Anybody may ask; the answer is a word, and asking changes nothing. *)
  Definition reports (s : S) (sig : string) (args : list val) (v : Z) : Prop :=
    forall c, call c 0 (calldata sig args) s = (Returned (word v), s).
  Definition shows_ledger (s : S) (b : ledger) : Prop :=
    reports s "totalSupply()" [] (l_supply b) /\
    (forall a, is_address a -> reports s "balanceOf(address)" [Word a] (l_balance b a)) /\
    (forall o sp, is_address o -> is_address sp -> reports s "allowance(address,address)" [Word o; Word sp] (l_allowance b o sp)).
  (** The answer to calldata follows a verdict. *)
  Definition settled {B} (shown : S -> B -> Prop) (s : S) (c : Z) (data result : list Z) (v : verdict B) : Prop :=
    match v with
    | Yes b => exists s', call c 0 data s = (Returned result, s') /\ shown s' b
    | No (Some why) => exists d, call c 0 data s = (Reverted d, s) /\ decode_reason d = Some why
    | No None => call c 0 data s = (Reverted [], s)
    end.
End seen.
(** Calldata are bytes, fewer than [2^256] of them, and senders are addresses. *)
Definition sent (h : list (Z * Z * list Z)) : Prop :=
  List.Forall (fun c => is_address (fst (fst c)) /\ List.Forall is_byte (snd c) /\ size (snd c) < two256) h.
(** A call that carries no value and is the encoding of a function of the interface. *)
Definition well_formed (I : list (string * list abi_type)) (value : Z) (input : list Z) : Prop :=
  value = 0 /\ exists sig ts args, In (sig, ts) I /\ List.Forall2 has_type ts args /\ input = calldata sig args.
Definition token_interface : list (string * list abi_type) :=
  [("totalSupply()", []); ("balanceOf(address)", [Address]); ("allowance(address,address)", [Address; Address]);
   ("transfer(address,uint256)", [Address; U256]); ("approve(address,uint256)", [Address; U256]);
   ("transferFrom(address,address,uint256)", [Address; Address; U256])].

(** What a holder sends to the token: no tokens are issued by call. *)
Definition order_calldata (o : order) : list Z :=
  match o with
  | Pay to v => calldata "transfer(address,uint256)" [Word to; Word v]
  | Allow sp v => calldata "approve(address,uint256)" [Word sp; Word v]
  | Draw f t v => calldata "transferFrom(address,address,uint256)" [Word f; Word t; Word v]
  | Issue _ _ => []
  end.
Definition holder_order (o : order) : Prop := match o with Issue _ _ => False | _ => order_fits o end.

(** * Roles: examples/access-control *)
(** The role that [transferFrom] needs: the Keccak-256 hash of "TRANSFER_ROLE". *)
Definition transfer_role : Z := 0x8502233096d909befbda0999bb8ea2f3a6be3c138b9fbf003752a4c8bce86f6c.
Definition root_role : Z := 0.
Record roster := mkRoster { member : Z -> Z -> bool; admin_of : Z -> Z; funds : ledger }.
Definition roster_fits (b : roster) : Prop := (forall r, is_u256 (admin_of b r)) /\ ledger_fits (funds b).
Definition seat (b : roster) (role account : Z) (x : bool) : roster :=
  mkRoster (fun r a => if (r =? role) && (a =? account) then x else member b r a) (admin_of b) (funds b).
Inductive role_request :=
| Give (role account : Z) | Take (role account : Z) | Leave (role account : Z)
| Reassign (role admin : Z) | Promote (account : Z) | Money (o : order).
Definition role_request_fits (r : role_request) : Prop :=
  match r with
  | Give r a | Take r a | Leave r a => is_u256 r /\ is_address a
  | Reassign r n => is_u256 r /\ is_u256 n
  | Promote a => is_address a
  | Money o => holder_order o
  end.
Definition role_data (r : role_request) : list Z :=
  match r with
  | Give r a => calldata "grantRole(bytes32,address)" [Word r; Word a]
  | Take r a => calldata "revokeRole(bytes32,address)" [Word r; Word a]
  | Leave r a => calldata "renounceRole(bytes32,address)" [Word r; Word a]
  | Reassign r n => calldata "setRoleAdmin(bytes32,bytes32)" [Word r; Word n]
  | Promote a => calldata "makeAdmin(address)" [Word a]
  | Money o => order_calldata o
  end.
Definition role_result (r : role_request) : list Z := match r with Money _ => word 1 | _ => [] end.
(** One must hold a role. *)
Definition holds (b : roster) (role c : Z) : checks := [(negb (member b role c), Some (AccessControlUnauthorizedAccount c role))].
Definition role_ideal (c : Z) (r : role_request) (b : roster) : verdict roster :=
  match r with
  | Give r a => decide (holds b (admin_of b r) c) (seat b r a true)
  | Take r a => decide (holds b (admin_of b r) c) (seat b r a false)
  | Leave r a => decide [(negb (c =? a), Some AccessControlBadConfirmation)] (seat b r a false)
  | Reassign r n => Yes (mkRoster (member b) (at_key (admin_of b) r n) (funds b))
  | Promote a => decide (holds b root_role c ++ holds b (admin_of b transfer_role) c) (seat b transfer_role a true)
  | Money o =>
      decide ((match o with Draw _ _ _ => holds b transfer_role c | _ => [] end) ++ order_checks c o (funds b))
        (mkRoster (member b) (admin_of b) (order_effect c o (funds b)))
  end.
Definition shows_roster {S} (call : Z -> Z -> list Z -> S -> answer * S) (s : S) (b : roster) : Prop :=
  (forall r a, is_u256 r -> is_address a -> reports call s "hasRole(bytes32,address)" [Word r; Word a] (if member b r a then 1 else 0)) /\
  (forall r, is_u256 r -> reports call s "getRoleAdmin(bytes32)" [Word r] (admin_of b r)) /\
  shows_ledger call s (funds b).
(** A new contract: the deployer holds the root role, every role is run by the root role. *)
Definition new_roster (deployer : Z) (l : ledger) : roster :=
  mkRoster (fun r a => (r =? root_role) && (a =? deployer)) (fun _ => root_role) l.
Definition access_interface : list (string * list abi_type) :=
  token_interface ++
  [("makeAdmin(address)", [Address]); ("setRoleAdmin(bytes32,bytes32)", [B256; B256]);
   ("hasRole(bytes32,address)", [B256; Address]); ("onlyRole(bytes32)", [B256]); ("getRoleAdmin(bytes32)", [B256]);
   ("grantRole(bytes32,address)", [B256; Address]); ("revokeRole(bytes32,address)", [B256; Address]);
   ("renounceRole(bytes32,address)", [B256; Address])].

(** * An owner: examples/ownable and examples/ownable-two-step *)
(** [heir] is who was nominated; there is none in the plain contract. *)
Record deed := mkDeed { holder : Z; heir : Z; purse : ledger }.
Definition deed_fits (b : deed) : Prop := is_address (holder b) /\ is_address (heir b) /\ ledger_fits (purse b).
Inductive owner_request := HandOver (a : Z) | Accept | Abandon | Spend (o : order).
Definition owner_data (r : owner_request) : list Z :=
  match r with
  | HandOver a => calldata "transferOwnership(address)" [Word a]
  | Accept => calldata "acceptOwnership()" []
  | Abandon => calldata "renounceOwnership()" []
  | Spend o => order_calldata o
  end.
(** Where ERC-20 has a flag, [transfer] of these contracts returns nothing. *)
Definition owner_result (r : owner_request) : list Z :=
  match r with Spend (Allow _ _) | Spend (Draw _ _ _) => word 1 | _ => [] end.
Definition is_owner (b : deed) (c : Z) : checks := [(negb (holder b =? c), Some (OwnableUnauthorizedAccount c))].
Definition spend_ideal (c : Z) (o : order) (b : deed) : verdict deed :=
  decide ((match o with Pay _ _ => is_owner b c | _ => [] end) ++ order_checks c o (purse b))
    (mkDeed (holder b) (heir b) (order_effect c o (purse b))).
(** In one step. *)
Definition owner_request_fits (r : owner_request) : Prop :=
  match r with HandOver a => is_address a | Accept => False | Abandon => True | Spend o => holder_order o end.
Definition owner_ideal (c : Z) (r : owner_request) (b : deed) : verdict deed :=
  match r with
  | HandOver a => decide (is_owner b c ++ [(a =? 0, Some (OwnableInvalidOwner 0))]) (mkDeed a (heir b) (purse b))
  | Accept => No None
  | Abandon => decide (is_owner b c) (mkDeed 0 (heir b) (purse b))
  | Spend o => spend_ideal c o b
  end.
Definition shows_owner {S} (call : Z -> Z -> list Z -> S -> answer * S) (s : S) (b : deed) : Prop :=
  reports call s "owner()" [] (holder b) /\ heir b = 0 /\ shows_ledger call s (purse b).
Definition owner_interface : list (string * list abi_type) :=
  token_interface ++ [("owner()", []); ("transferOwnership(address)", [Address]); ("renounceOwnership()", [])].
(** In two steps. *)
Definition heir_request_fits (r : owner_request) : Prop :=
  match r with HandOver a => is_address a | Accept | Abandon => True | Spend o => holder_order o end.
Definition heir_ideal (c : Z) (r : owner_request) (b : deed) : verdict deed :=
  match r with
  | HandOver a => decide (is_owner b c) (mkDeed (holder b) a (purse b))
  | Accept => decide [(negb (c =? heir b), Some (OwnableUnauthorizedAccount c))] (mkDeed c 0 (purse b))
  | Abandon => decide (is_owner b c) (mkDeed 0 0 (purse b))
  | Spend o => spend_ideal c o b
  end.
Definition shows_heir {S} (call : Z -> Z -> list Z -> S -> answer * S) (s : S) (b : deed) : Prop :=
  reports call s "owner()" [] (holder b) /\ reports call s "pendingOwner()" [] (heir b) /\ shows_ledger call s (purse b).
Definition heir_interface : list (string * list abi_type) :=
  token_interface ++ [("owner()", []); ("pendingOwner()", []); ("transferOwnership(address)", [Address]);
                      ("acceptOwnership()", []); ("renounceOwnership()", [])].
