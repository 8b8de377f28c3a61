(** Vocabulary for the ERC-1155 properties. *)
From Verif.Base Require Import Prelude Maps.
From Verif.Model Require Erc1155.
From stdpp Require Import gmap.
Import Erc1155.
#[global] Open Scope Z_scope.

(** The sum of all accounts' balances of [id]. *)
Definition id_total (s : state) (id : Z) : Z := msum (getd ∅ (balances s) id).
Definition operator (s : state) (o p : Z) : Prop := is_approved_for_all o p s = true.
(** How much of [id] a list of (id, value) pairs contains. *)
Fixpoint amount (l : list (Z * Z)) (id : Z) : Z :=
  match l with
  | [] => 0
  | (i, v) :: l' => (if i =? id then v else 0) + amount l' id
  end.
(** [x] if the account [a] is meant, which the zero address never is. *)
Definition share (p a x : Z) : Z := if (p =? a) && negb (a =? 0) then x else 0.
(** From [s] to [s1] exactly the tokens of [l] have moved from [f] to [t], where the zero
    address stands for nobody. *)
Definition moved (f t : Z) (l : list (Z * Z)) (s s1 : state) : Prop :=
  (forall a id, balance_of a id s1 = balance_of a id s - share f a (amount l id) + share t a (amount l id)) /\
  (forall a id, is_u256 (balance_of a id s1)) /\
  (forall o p, operator s1 o p <-> operator s o p).

(** What a call moves: from whom, to whom, ids and values. *)
Definition op_move (o : op) : option (Z * Z * list Z * list Z) :=
  match o with
  | SafeTransferFrom f t i v _ _ _ => Some (f, t, [i], [v])
  | SafeBatchTransferFrom f t is vs _ _ _ => Some (f, t, is, vs)
  | SetApprovalForAll _ _ => None
  | Burn a i v => Some (a, 0, [i], [v])
  | BurnBatch a is vs => Some (a, 0, is, vs)
  | IMint t i v _ _ _ => Some (0, t, [i], [v])
  | IMintBatch t is vs _ _ _ => Some (0, t, is, vs)
  | IBurn f i v => Some (f, 0, [i], [v])
  | IBurnBatch f is vs => Some (f, 0, is, vs)
  end.
Definition op_body (o : op) : calls :=
  match o with
  | SafeTransferFrom _ _ _ _ _ b _ | SafeBatchTransferFrom _ _ _ _ _ b _ | IMint _ _ _ _ b _ | IMintBatch _ _ _ _ b _ => b
  | _ => CNil
  end.
(** Every call of a tree, with its caller, satisfies [G]. *)
Fixpoint op_nodes (G : Z -> op -> Prop) (c : Z) (o : op) : Prop :=
  G c o /\
  match o with
  | SafeTransferFrom _ _ _ _ _ b _ | SafeBatchTransferFrom _ _ _ _ _ b _ | IMint _ _ _ _ b _ | IMintBatch _ _ _ _ b _ =>
      calls_nodes G b
  | _ => True
  end
with calls_nodes (G : Z -> op -> Prop) (cs : calls) : Prop :=
  match cs with
  | CNil => True
  | CCons c o cs' => op_nodes G c o /\ calls_nodes G cs'
  end.
Definition nodes (G : Z -> op -> Prop) (h : list (Z * op)) : Prop := calls_nodes G (of_list h).
(** Nonzero callers, 256-bit values. *)
Definition node_wf (c : Z) (o : op) : Prop :=
  c <> 0 /\ match op_move o with Some (_, _, _, vs) => Forall is_u256 vs | None => True end.
Definition reachable (s : state) : Prop :=
  exists has_code h, nodes node_wf h /\ s = run base has_code h init.
(** Calls everybody can make. *)
Definition is_public (o : op) : Prop :=
  match o with
  | SafeTransferFrom _ _ _ _ _ _ _ | SafeBatchTransferFrom _ _ _ _ _ _ _ | SetApprovalForAll _ _
  | Burn _ _ _ | BurnBatch _ _ _ => True
  | _ => False
  end.
Definition is_mint (o : op) : Prop :=
  match o with IMint _ _ _ _ _ _ | IMintBatch _ _ _ _ _ _ => True | _ => False end.
(** The functions of the Supply extension: not Burnable's on the inner contract. *)
Definition supply_entry (o : op) : Prop :=
  match o with Burn _ _ _ | BurnBatch _ _ _ => False | _ => True end.

(** Reading the event log. *)
Definition ev_move (e : event) : option (Z * Z * list (Z * Z)) :=
  match e with
  | TransferSingle _ f t i v => Some (f, t, [(i, v)])
  | TransferBatch _ f t is vs => Some (f, t, combine is vs)
  | ApprovalForAll _ _ _ => None
  end.
Fixpoint log_balance (l : list event) (a id : Z) : Z :=
  match l with
  | [] => 0
  | e :: l' => match ev_move e with
               | Some (f, t, m) => share t a (amount m id) - share f a (amount m id)
               | None => 0
               end + log_balance l' a id
  end.
Fixpoint log_minted (l : list event) (id : Z) : Z :=
  match l with
  | [] => 0
  | e :: l' => match ev_move e with
               | Some (f, t, m) => if f =? 0 then amount m id else 0
               | None => 0
               end + log_minted l' id
  end.
Fixpoint log_burned (l : list event) (id : Z) : Z :=
  match l with
  | [] => 0
  | e :: l' => match ev_move e with
               | Some (f, t, m) => if t =? 0 then amount m id else 0
               | None => 0
               end + log_burned l' id
  end.
Fixpoint log_operator (l : list event) (o p : Z) (acc : bool) : bool :=
  match l with
  | [] => acc
  | ApprovalForAll o' p' b :: l' => log_operator l' o p (if (o' =? o) && (p' =? p) then b else acc)
  | _ :: l' => log_operator l' o p acc
  end.

(** Calls one after the other, stopping at the first failure. *)
Fixpoint sequence (has_code : Z -> bool) (c : Z) (os : list op) : M state error unit :=
  match os with
  | [] => ret tt
  | o :: os' => exec base has_code c o ;;; sequence has_code c os'
  end.
(** The hook that must be called for a transfer, and the selector it must return. *)
Definition hook (ids values : list Z) (tr : transfer) (sel : Z) : Prop :=
  (exists i v, ids = [i] /\ values = [v] /\ tr = Single i v /\ sel = 0xf23a6e61) \/
  (length ids <> 1%nat /\ tr = Batch ids values /\ sel = 0xbc197c81).

(** A batch call and its elements as single calls; receivers accept. *)
Inductive batch_kind := BTransfer (f t : Z) | BMint (t : Z) | BBurn (a : Z) | BIBurn (f : Z).
Definition batch_call (k : batch_kind) (d ids values : list Z) : op :=
  let ok := Returned (if Nat.eqb (length ids) 1 then 0xf23a6e61 else 0xbc197c81) in
  match k with
  | BTransfer f t => SafeBatchTransferFrom f t ids values d CNil ok
  | BMint t => IMintBatch t ids values d CNil ok
  | BBurn a => BurnBatch a ids values
  | BIBurn f => IBurnBatch f ids values
  end.
Definition single_call (k : batch_kind) (d : list Z) (x : Z * Z) : op :=
  let ok := Returned 0xf23a6e61 in
  match k with
  | BTransfer f t => SafeTransferFrom f t (fst x) (snd x) d CNil ok
  | BMint t => IMint t (fst x) (snd x) d CNil ok
  | BBurn a => Burn a (fst x) (snd x)
  | BIBurn f => IBurn f (fst x) (snd x)
  end.

(** The Supply extension. *)
Definition supply_reachable (G : op -> Prop) (s : supply_state) : Prop :=
  exists has_code h, nodes (fun c o => node_wf c o /\ G o) h /\ s = run supply has_code h supply_init.
(** The mathematical sum of [total_supply] over all ids. *)
Definition supply_sum (s : supply_state) : Z := msum (total_supply s).
Fixpoint vsum (l : list Z) : Z := match l with [] => 0 | v :: l' => v + vsum l' end.
(** Minted batches add up to less than 2^256. *)
Definition small_mints (o : op) : Prop :=
  match o with IMintBatch _ _ vs _ _ _ => vsum vs < two256 | _ => True end.
