(** Vocabulary for typed-data signatures (EIP-712), permits (EIP-2612) and what a permit
    token's holders have authorised. *)
From Verif.Base Require Import Prelude Bytes Keccak.
From Verif.Model Require Erc20 Nonces Ecdsa Eip712 Permit.
From Verif.Spec Require Import Erc20_spec.
From Coq Require Import String List.
Import ListNotations.
#[global] Open Scope Z_scope.

(** Two different ones of the given strings have the same hash. (Without naming the strings
    this would hold of every function into 256-bit words.) *)
Definition collides (keccak : list Z -> Z) (l : list (list Z)) : Prop :=
  exists x y, In x l /\ In y l /\ x <> y /\ keccak x = keccak y.
Definition hash_range (keccak : list Z -> Z) : Prop := forall x, is_u256 (keccak x).
Definition domain_wf (d : Eip712.domain) : Prop :=
  is_u256 (Eip712.chain_id d) /\ is_u256 (Eip712.contract_address d).

Section hashing.
  Variable keccak : list Z -> Z.

  (** EIP-712, written out: the string hashed for a domain, the string hashed for a request
      to sign a struct with hash [h], and all strings hashed on the way. *)
  Definition domain_string (d : Eip712.domain) : list Z :=
    word (keccak (bytes_of_string
      "EIP712Domain(string name,string version,uint256 chainId,address verifyingContract)"))
    ++ word (keccak (Eip712.name d)) ++ word (keccak (Eip712.version d))
    ++ word (Eip712.chain_id d) ++ word (Eip712.contract_address d).
  Definition request_string (d : Eip712.domain) (h : Z) : list Z :=
    [0x19; 0x01] ++ word (keccak (domain_string d)) ++ word h.
  Definition request_inputs (d : Eip712.domain) (h : Z) : list (list Z) :=
    [Eip712.name d; Eip712.version d; domain_string d; request_string d h].

  (** EIP-2612: the struct of a permit. *)
  Record message := Msg { m_spender : Z; m_value : Z; m_nonce : Z; m_deadline : Z }.
  Definition permit_string (owner : Z) (m : message) : list Z :=
    word (keccak (bytes_of_string
      "Permit(address owner,address spender,uint256 value,uint256 nonce,uint256 deadline)"))
    ++ word owner ++ word (m_spender m) ++ word (m_value m) ++ word (m_nonce m) ++ word (m_deadline m).
  Definition permit_request (d : Eip712.domain) (owner : Z) (m : message) : Z :=
    keccak (request_string d (keccak (permit_string owner m))).

  (** All strings hashed for a request to sign the struct encoded as [b] under domain [d]. *)
  Definition signing_inputs (r : Eip712.domain * list Z) : list (list Z) :=
    snd r :: request_inputs (fst r) (keccak (snd r)).
  Definition signing_digest (r : Eip712.domain * list Z) : Z :=
    keccak (request_string (fst r) (keccak (snd r))).
End hashing.

(** The precompile answers that [o] signed the digest, with a low [s]. *)
Definition recovers (ecrecover : Ecdsa.precompile) (digest v r s o : Z) : Prop :=
  2 * s <= 0xFFFFFFFFFFFFFFFFFFFFFFFFFFFFFFFEBAAEDCE6AF48A03BBFD25E8CD0364141 - 1 /\
  o <> 0 /\
  exists out, ecrecover (word digest ++ word v ++ word r ++ word s) = Some out /\
    length out = 32%nat /\ of_be (skipn 12 out) = o.

Section histories.
  Variable keccak : list Z -> Z.
  Variable ecrecover : Ecdsa.precompile.
  Variable dom : Eip712.domain.

  (** Somebody presented [m] in the history, in time and with a signature of [o]. *)
  Definition presented (h : list (Z * Permit.op)) (o : Z) (m : message) : Prop :=
    exists t v r s,
      In (t, Permit.OPermit o (m_spender m) (m_value m) (m_deadline m) v r s) h /\
      t <= m_deadline m /\ recovers ecrecover (permit_request keccak dom o m) v r s o.

  (** What users can do with the example: the ERC-20 calls, burning, and (for everybody)
      minting; and permits. Amounts, nonces and deadlines are 256-bit words. *)
  Definition allowed (to : Z * Permit.op) : Prop :=
    match snd to with
    | Permit.OPermit o sp va de _ _ _ => is_u256 o /\ is_u256 sp /\ is_u256 va /\ is_u256 de
    | Permit.OToken _ (Erc20.OMint _ v) => is_u256 v
    | Permit.OToken _ x => public_op x /\ Erc20.op_wf x
    end.

  (** Taken from [o] by [sp], over the history. *)
  Definition op_taken (o sp : Z) (x : Permit.op) : Z :=
    match x with Permit.OToken c y => taken_by o sp c y | Permit.OPermit _ _ _ _ _ _ _ => 0 end.
  Fixpoint spent (o sp : Z) (h : list (Z * Permit.op)) (st : Permit.state) : Z :=
    match h with
    | [] => 0
    | to :: h' =>
        (if is_ok (fst (tx (Permit.exec keccak ecrecover dom (fst to) (snd to)) st))
         then op_taken o sp (snd to) else 0)
        + spent o sp h' (Permit.step keccak ecrecover dom st to)
    end.
End histories.

(** What [o] itself approved for [sp] by calls. *)
Definition op_approved (o sp : Z) (to : Z * Permit.op) : Z :=
  match snd to with
  | Permit.OToken c (Erc20.OApprove sp' v) => if (c =? o) && (sp' =? sp) then v else 0
  | _ => 0
  end.
Definition sum_list (l : list Z) : Z := fold_right Z.add 0 l.
Definition approved_by_calls (o sp : Z) (h : list (Z * Permit.op)) : Z :=
  sum_list (map (op_approved o sp) h).
(** What a list of messages grants to [sp]. *)
Definition granted (sp : Z) (m : message) : Z := if m_spender m =? sp then m_value m else 0.
Definition approved_by_messages (sp : Z) (U : list message) : Z := sum_list (map (granted sp) U).

(** Their nonces are [n], [n + 1], ... *)
Definition nonces_from (n : Z) (U : list message) : Prop :=
  map m_nonce U = map (fun i => n + Z.of_nat i) (seq 0 (length U)).

(** No approval for [sp] was unlimited. *)
Definition finite_grants (o sp : Z) (h : list (Z * Permit.op)) (st : Permit.state) (U : list message) : Prop :=
  Erc20.allowance (Permit.erc20 st) o sp < U256_MAX /\
  (forall to, In to h -> op_approved o sp to < U256_MAX) /\
  (forall m, In m U -> granted sp m < U256_MAX).

(** [o] sends nothing itself. *)
Definition passive (o : Z) (h : list (Z * Permit.op)) : Prop :=
  forall t c x, In (t, Permit.OToken c x) h -> c <> o.
(** Who calls the token. *)
Definition callers (h : list (Z * Permit.op)) : list Z :=
  nodup Z.eq_dec (flat_map (fun to => match snd to with Permit.OToken c _ => [c] | _ => [] end) h).

(** A state a deployed token can be in. *)
Definition permit_state_ok (keccak : list Z -> Z) (ecrecover : Ecdsa.precompile) (dom : Eip712.domain)
  (st : Permit.state) : Prop :=
  exists h, Forall allowed h /\ st = Permit.run keccak ecrecover dom h Permit.init.
