(** A token with permits as its users know it: an ideal ledger with nonces, and what a wallet
    signs. The EVM's ecrecover precompile as the Yellow Paper specifies it. *)
From Verif.Base Require Import Prelude Bytes.
From Coq Require Import String List.
From Verif.Model Require Import Introspection.
From Verif.Model Require SolAbi Entry.
From Verif.Spec Require Import SolAbi_spec Entry_spec Ledger_spec TypedData_spec.
Import SolAbi Entry.
#[global] Open Scope Z_scope.
Local Open Scope string_scope.
Local Open Scope list_scope.
Local Open Scope Z_scope.

(** * Signatures *)
(** The order of secp256k1. *)
Definition curve_order : Z := 0xFFFFFFFFFFFFFFFFFFFFFFFFFFFFFFFEBAAEDCE6AF48A03BBFD25E8CD0364141.
(** What the precompile's answer says: the last 20 of 32 bytes are the signer. *)
Definition answered (ecrecover : list Z -> option (list Z)) (digest v r s : Z) : option Z :=
  match ecrecover (word digest ++ word v ++ word r ++ word s) with
  | Some out => if (length out =? 32)%nat then Some (of_be (skipn 12 out)) else None
  | None => None
  end.
(** Why a signature of a digest is refused, in order. *)
Definition may_recover (ecrecover : list Z -> option (list Z)) (digest v r s : Z) : checks :=
  [(curve_order <? 2 * s, Some (ECDSAInvalidSignatureS s)); ((v =? 0) || (v =? 1), Some ECDSAInvalidSignature)] ++
  match answered ecrecover digest v r s with
  | None => [(true, None)]
  | Some a => [(a =? 0, Some ECDSAInvalidSignature)]
  end.
(** Yellow Paper, appendix E.1 (ECREC): 32 bytes with the address, or nothing at all if the
    signature is invalid; it never fails. [recover] is the recovery of the signer's address
    from a point on the curve, which may fail. *)
Definition evm_ecrecover (recover : Z -> Z -> Z -> Z -> option Z) (d : list Z) : option (list Z) :=
  let arg i := of_be (firstn 32 (skipn (32 * i) d)) in
  let v := arg 1%nat in let r := arg 2%nat in let s := arg 3%nat in
  Some (if ((v =? 27) || (v =? 28)) && ((0 <? r) && (r <? curve_order)) && ((0 <? s) && (s <? curve_order))
        then match recover (arg 0%nat) v r s with Some a => word a | None => [] end
        else []).
(** A signature from which no signer follows. *)
Definition invalid (recover : Z -> Z -> Z -> Z -> option Z) (digest v r s : Z) : Prop :=
  ~ (v = 27 \/ v = 28) \/ ~ (0 < r < curve_order) \/ ~ (0 < s < curve_order) \/ recover digest v r s = None.

(** * An ideal token with permits *)
Record pbook := mkPBook { p_ledger : ledger; p_nonce : Z -> Z }.
Inductive request :=
| Order (o : order)
| SignedPermit (owner spender value deadline v r s : Z).
Definition request_data (r : request) : list Z :=
  match r with
  | Order (Pay to v) => calldata "transfer(address,uint256)" [Word to; Word v]
  | Order (Allow sp v) => calldata "approve(address,uint256)" [Word sp; Word v]
  | Order (Draw f t v) => calldata "transferFrom(address,address,uint256)" [Word f; Word t; Word v]
  | Order (Issue a v) => calldata "mint(address,uint256)" [Word a; Word v]
  | SignedPermit o sp va d v r s =>
      calldata "permit(address,address,uint256,uint256,uint8,bytes32,bytes32)"
        [Word o; Word sp; Word va; Word d; Word v; Word r; Word s]
  end.
Definition request_result (r : request) : list Z :=
  match r with Order (Pay _ _) | Order (Allow _ _) | Order (Draw _ _ _) => word 1 | _ => [] end.
Definition request_fits (r : request) : Prop :=
  match r with
  | Order o => order_fits o
  | SignedPermit o sp va d v r s => is_address o /\ is_address sp /\ is_u256 va /\ is_u256 d /\ 0 <= v < 2 ^ 8 /\ is_u256 r /\ is_u256 s
  end.

Section ideal.
  Variable keccak : list Z -> Z.
  Variable ecrecover : list Z -> option (list Z).
  (** What a wallet takes for the domain: the contract's name and version, the chain and the
      address. *)
  Definition example_domain (chain this : Z) : typed :=
    Typed (ascii "EIP712Domain")
      [mem "string" "name" (Text (ascii "ERC-20 Permit Example")); mem "string" "version" (Text (ascii "1"));
       mem "uint256" "chainId" (One chain); mem "address" "verifyingContract" (One this)].
  Definition to_sign (dom : typed) (b : pbook) (owner spender value deadline : Z) : Z :=
    signed_digest keccak dom (permit_message_data owner spender value (p_nonce b owner) deadline).
  Definition permit_checks (dom : typed) (now owner spender value deadline v r s : Z) (b : pbook) : checks :=
    let digest := to_sign dom b owner spender value deadline in
    [(deadline <? now, Some (ERC2612ExpiredSignature deadline)); (p_nonce b owner =? U256_MAX, None)] ++
    may_recover ecrecover digest v r s ++
    match answered ecrecover digest v r s with
    | None => []
    | Some a => [(negb (a =? owner), Some (ERC2612InvalidSigner a owner))]
    end ++
    [(spender =? 0, Some (ERC20InvalidSpender 0))].
  Definition ideal (dom : typed) (now c : Z) (r : request) (b : pbook) : verdict pbook :=
    match r with
    | Order o => decide (order_checks c o (p_ledger b)) (mkPBook (order_effect c o (p_ledger b)) (p_nonce b))
    | SignedPermit o sp va d v r s =>
        decide (permit_checks dom now o sp va d v r s b)
          (mkPBook (with_allowance (p_ledger b) o sp va) (at_key (p_nonce b) o (p_nonce b o + 1)))
    end.
End ideal.
Definition new_pbook : pbook := mkPBook new_ledger (fun _ => 0).
Definition pbook_fits (b : pbook) : Prop := ledger_fits (p_ledger b) /\ forall a, is_u256 (p_nonce b a).

(** * What the answers say; calls happen at some block time *)
Section seen.
  Context {S : Type} (call : Z -> Z -> Z -> list Z -> S -> answer * S).
  Definition says (s : S) (sig : string) (args : list val) (v : Z) : Prop :=
    forall now c, call now c 0 (calldata sig args) s = (Returned (word v), s).
  Definition shows (s : S) (b : pbook) : Prop :=
    says s "totalSupply()" [] (l_supply (p_ledger b)) /\
    (forall a, is_address a -> says s "balanceOf(address)" [Word a] (l_balance (p_ledger b) a)) /\
    (forall o sp, is_address o -> is_address sp -> says s "allowance(address,address)" [Word o; Word sp] (l_allowance (p_ledger b) o sp)) /\
    (forall a, is_address a -> says s "nonces(address)" [Word a] (p_nonce b a)).
  Definition follows (s : S) (now c : Z) (r : request) (x : verdict pbook) : Prop :=
    match x with
    | Yes b' => exists s', call now c 0 (request_data r) s = (Returned (request_result r), s') /\ shows s' b' /\ pbook_fits b'
    | No (Some why) => exists d, call now c 0 (request_data r) s = (Reverted d, s) /\ decode_reason d = Some why
    | No None => call now c 0 (request_data r) s = (Reverted [], s)
    end.
End seen.

(** * The public functions *)
Definition permit_interface : list (string * list abi_type) :=
  [("totalSupply()", []); ("balanceOf(address)", [Address]); ("allowance(address,address)", [Address; Address]);
   ("transfer(address,uint256)", [Address; U256]); ("approve(address,uint256)", [Address; U256]);
   ("transferFrom(address,address,uint256)", [Address; Address; U256]);
   ("mint(address,uint256)", [Address; U256]);
   ("permit(address,address,uint256,uint256,uint8,bytes32,bytes32)", [Address; Address; U256; U256; u8; B256; B256]);
   ("nonces(address)", [Address]); ("DOMAIN_SEPARATOR()", [])].
(** The encoding of a function of an interface without value. *)
Definition proper_call (I : list (string * list abi_type)) (value : Z) (input : list Z) : Prop :=
  value = 0 /\ exists sig ts args, In (sig, ts) I /\ List.Forall2 has_type ts args /\ input = calldata sig args.
Definition sane_calls {W} (h : list (W * (Z * Z * list Z))) : Prop :=
  List.Forall (fun c => List.Forall is_byte (snd (snd c)) /\ size (snd (snd c)) < two256) h.
(** The precompile answers bytes. *)
Definition answers_bytes (ecrecover : list Z -> option (list Z)) : Prop :=
  forall d out, ecrecover d = Some out -> List.Forall is_byte out.
