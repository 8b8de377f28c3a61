(** What a wallet does with typed data: EIP-712 for flat structs, and ERC-5267, which tells
    from a contract's answer to eip712Domain() what domain to sign for. Nothing here mentions
    the library. *)
From Verif.Base Require Import Prelude Bytes Keccak.
From Coq Require Import String List.
Import ListNotations.
#[global] Open Scope Z_scope.
#[global] Open Scope list_scope.

(** A member of a struct: its type and name as they appear in the type string, and its value:
    a word for the types of one word, and the contents for [string] and [bytes]. *)
Inductive content := One (w : Z) | Text (s : list Z).
Record member := Mem { m_type : list Z; m_name : list Z; m_content : content }.
Record typed := Typed { t_name : list Z; t_members : list member }.

Definition ascii (s : string) : list Z := bytes_of_string s.
Definition mem (t n : string) (c : content) : member := Mem (ascii t) (ascii n) c.

(** Type and member names are not empty and contain no blank, bracket or comma; a member has
    contents exactly if its type is [string] or [bytes]. *)
Definition identifier (l : list Z) : Prop :=
  l <> [] /\ Forall (fun b => is_byte b /\ b <> 0x20 /\ b <> 0x28 /\ b <> 0x29 /\ b <> 0x2c) l.
Definition has_text (t : list Z) : Prop := t = ascii "string" \/ t = ascii "bytes".
Definition member_wf (m : member) : Prop :=
  identifier (m_type m) /\ identifier (m_name m) /\
  match m_content m with One w => is_u256 w /\ ~ has_text (m_type m) | Text _ => has_text (m_type m) end.
Definition typed_wf (t : typed) : Prop := identifier (t_name t) /\ Forall member_wf (t_members t).

(** encodeType: [name(type1 name1,type2 name2)]. *)
Definition encode_member (m : member) : list Z := m_type m ++ [0x20] ++ m_name m.
Fixpoint join (l : list (list Z)) : list Z :=
  match l with
  | [] => []
  | [x] => x
  | x :: r => x ++ [0x2c] ++ join r
  end.
Definition encode_type (t : typed) : list Z :=
  t_name t ++ [0x28] ++ join (map encode_member (t_members t)) ++ [0x29].

Section hashing.
  Variable keccak : list Z -> Z.

  (** encodeData and hashStruct. *)
  Definition encode_content (c : content) : list Z :=
    match c with One w => word w | Text s => word (keccak s) end.
  Definition encode_data (t : typed) : list Z :=
    concat (map (fun m => encode_content (m_content m)) (t_members t)).
  Definition struct_string (t : typed) : list Z := word (keccak (encode_type t)) ++ encode_data t.
  Definition hash_struct (t : typed) : Z := keccak (struct_string t).

  (** What eth_signTypedData signs: 0x1901, the domain's hash, the message's hash. *)
  Definition signed_string (dom msg : typed) : list Z :=
    [0x19; 0x01] ++ word (hash_struct dom) ++ word (hash_struct msg).
  Definition signed_digest (dom msg : typed) : Z := keccak (signed_string dom msg).

  (** The strings hashed on the way. *)
  Definition texts (t : typed) : list (list Z) :=
    flat_map (fun m => match m_content m with One _ => [] | Text s => [s] end) (t_members t).
  Definition struct_inputs (t : typed) : list (list Z) := encode_type t :: struct_string t :: texts t.
  Definition signed_inputs (dom msg : typed) : list (list Z) :=
    signed_string dom msg :: struct_inputs dom ++ struct_inputs msg.
End hashing.

(** ERC-5267: bit [i] of the fields byte says whether the [i]-th of name, version, chainId,
    verifyingContract, salt belongs to the domain. A wallet cannot handle further bits or
    extensions it does not know. *)
Definition wallet_domain (answer : Z * list Z * list Z * Z * Z * Z * list Z) : option typed :=
  let '(fields, name, version, chain, contract, salt, extensions) := answer in
  match extensions with
  | [] =>
      if (0 <=? fields) && (fields <? 32) then
        Some (Typed (ascii "EIP712Domain")
          (map snd (filter (fun p : Z * member => Z.testbit fields (fst p))
            [(0, mem "string" "name" (Text name));
             (1, mem "string" "version" (Text version));
             (2, mem "uint256" "chainId" (One chain));
             (3, mem "address" "verifyingContract" (One contract));
             (4, mem "bytes32" "salt" (One salt))])))
      else None
  | _ :: _ => None
  end.

(** EIP-2612's message. *)
Definition permit_message_data (owner spender value nonce deadline : Z) : typed :=
  Typed (ascii "Permit")
    [mem "address" "owner" (One owner); mem "address" "spender" (One spender);
     mem "uint256" "value" (One value); mem "uint256" "nonce" (One nonce);
     mem "uint256" "deadline" (One deadline)].
