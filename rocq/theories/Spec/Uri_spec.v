(** Vocabulary for the URI properties. *)
From Verif.Base Require Import Prelude Maps.
From Verif.Model Require Erc721Uri.
From Verif.Spec Require Export Erc721_spec.
#[global] Open Scope Z_scope.

(** [l] is the decimal representation of [n] in ASCII: digits, no superfluous leading
    zero, of value [n]. *)
Definition is_digit (d : Z) : Prop := 48 <= d <= 57.
Definition dec_value (l : list Z) : Z := fold_left (fun a d => 10 * a + (d - 48)) l 0.
Definition is_decimal (l : list Z) (n : Z) : Prop :=
  l <> [] /\ Forall is_digit l /\ (List.hd 48 l = 48 -> l = [48]) /\ dec_value l = n.
(** The suffix set last for a token. *)
Fixpoint last_uri (h : list (Z * Erc721Uri.op)) (i : Z) (acc : list Z) : list Z :=
  match h with
  | [] => acc
  | (_, Erc721Uri.SetTokenUri j u) :: h' => last_uri h' i (if j =? i then u else acc)
  | _ :: h' => last_uri h' i acc
  end.
Fixpoint last_uri_1155 (h : list Erc721Uri.Erc1155Uri.op) (i : Z) (acc : list Z) : list Z :=
  match h with
  | [] => acc
  | Erc721Uri.Erc1155Uri.SetTokenUri j u :: h' => last_uri_1155 h' i (if j =? i then u else acc)
  | _ :: h' => last_uri_1155 h' i acc
  end.
Fixpoint last_base_1155 (h : list Erc721Uri.Erc1155Uri.op) (acc : list Z) : list Z :=
  match h with
  | [] => acc
  | Erc721Uri.Erc1155Uri.SetBaseUri b :: h' => last_base_1155 h' b
  | _ :: h' => last_base_1155 h' acc
  end.
