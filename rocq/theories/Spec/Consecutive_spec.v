(** Reference semantics for the consecutive extension: ownership as a plain function and
    the next free id as an unbounded integer, driven by the calls that succeed. *)
From Verif.Base Require Import Prelude Maps.
From Verif.Model Require Erc721 Consecutive.
From stdpp Require Import gmap.
Import Consecutive.
#[global] Open Scope Z_scope.

Record ideal := mki { iown : Z -> Z; inext : Z }.
Definition iset (id a : Z) (i : ideal) : ideal :=
  mki (fun j => if j =? id then a else iown i j) (inext i).
Definition ibatch (to n : Z) (i : ideal) : ideal :=
  mki (fun j => if (inext i <=? j) && (j <? inext i + n) then to else iown i j) (inext i + n).
Definition istep (o : op) (i : ideal) : ideal :=
  match o with
  | Batch to n => ibatch to n i
  | Mint to id => iset id to i
  | Burn id => iset id 0 i
  | ITransfer _ to id | TransferFrom _ to id => iset id to i
  | Approve _ _ | SetApprovalForAll _ _ => i
  end.
Definition istart (first : Z) : ideal := mki (fun _ => 0) first.

Section spec.
  Context (first max : Z).
  (** The reference along a run of the contract: failed calls do nothing. *)
  Fixpoint ideal_run (l : list (Z * op)) (s : state) (i : ideal) : ideal :=
    match l with
    | [] => i
    | (c, o) :: l' =>
        match tx (exec first max c o) s with
        | (Ok _, s') => ideal_run l' s' (istep o i)
        | _ => ideal_run l' s i
        end
    end.
  (** Single mints only on ids that no batch can reach any more: below the next
      consecutive id or beyond 96 bits. *)
  Fixpoint disciplined (l : list (Z * op)) (s : state) (i : ideal) : Prop :=
    match l with
    | [] => True
    | (c, o) :: l' =>
        match o with Mint _ id => id < inext i \/ two96 <= id | _ => True end /\
        match tx (exec first max c o) s with
        | (Ok _, s') => disciplined l' s' (istep o i)
        | _ => disciplined l' s i
        end
    end.
End spec.

(** Ids are 256-bit words, batch sizes 96-bit words, callers nonzero. *)
Definition op_wf (co : Z * op) : Prop :=
  fst co <> 0 /\
  match snd co with
  | Batch _ n => 0 <= n < two96
  | Mint _ id | Burn id | ITransfer _ _ id | TransferFrom _ _ id | Approve _ id => is_u256 id
  | SetApprovalForAll _ _ => True
  end.
Definition not_mint (co : Z * op) : Prop := match snd co with Mint _ _ => False | _ => True end.

Section getters.
  Context (first : Z).
  Definition owner (s : state) (id a : Z) : Prop := fst (owner_of first id s) = Ok a.
  Definition no_owner (s : state) (id : Z) : Prop :=
    fst (owner_of first id s) = Err (ErrErc721 (Erc721.NonexistentToken id)).
  Definition balance (s : state) (a n : Z) : Prop := fst (balance_of a s) = Ok n.
  Definition tokens_of (s : state) (a : Z) (l : list Z) : Prop :=
    NoDup l /\ forall id, id ∈ l <-> owner s id a.
End getters.

(** What an indexer makes of the logs when all batches come first (ERC-2309): the batches,
    then the transfers. *)
Definition batch_logs (l : list event) (id : Z) : Z :=
  fold_left (fun o e => match e with
    | ConsecutiveTransfer a b _ to => if (a <=? id) && (id <=? b) then to else o end) l 0.
Definition transfer_logs (l : list Erc721.event) (o : Z) (id : Z) : Z :=
  fold_left (fun o e => match e with
    | Erc721.Transfer _ to j => if j =? id then to else o | _ => o end) l o.
Definition owner_by_logs (s : state) (id : Z) : Z := transfer_logs (Erc721.log (erc721 s)) (batch_logs (clog s) id) id.
