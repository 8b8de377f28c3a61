(** Dispatch: every signature is hashed once ([known]), everything else is comparison. *)
From Verif.Base Require Import Prelude Keccak.
From Coq Require Import String List.
From Verif.Model Require Introspection Router.
From Verif.Spec Require Import Router_spec.
Import Introspection Router.
#[global] Open Scope Z_scope.
Local Open Scope list_scope.
Local Open Scope Z_scope.

Opaque keccak256.
Definition fn_sig (f : trait_fn) : string := signature (solidity_fn_name f) (arg_types f).
Lemma selector_sig f : selector f = sig_selector (fn_sig f).
Proof. reflexivity. Qed.

Definition mem (s : string) (l : list string) : bool := existsb (String.eqb s) l.
Fixpoint nub (l : list string) : list string :=
  match l with [] => [] | s :: l' => if mem s l' then nub l' else s :: nub l' end.
Definition sigs (t : abi) : list string := map fst t.
Definition wrong_hook : string := "onErc721Received(address,address,uint256,bytes)"%string.
Definition all_sigs : list string :=
  nub (wrong_hook :: map fst published ++ sigs Router_spec.Erc721WrapperExample ++ List.concat (map (fun e => sigs (snd e)) examples)).
Definition known : list (string * Z) := Eval vm_compute in map (fun s => (s, sig_selector s)) all_sigs.
Lemma known_ok : forallb (fun x => sig_selector (fst x) =? snd x) known = true.
Proof. vm_cast_no_check (eq_refl true). Qed.

Fixpoint find (s : string) (l : list (string * Z)) : option Z :=
  match l with [] => None | (x, z) :: l' => if String.eqb s x then Some z else find s l' end.
Lemma find_in s l z : find s l = Some z -> In (s, z) l.
Proof.
  induction l as [|[x y] l IH]; cbn [find]; [discriminate|]. destruct (String.eqb_spec s x) as [->|].
  - intros E. inversion E. left. reflexivity.
  - right. auto.
Qed.
Definition k (s : string) : Z := match find s known with Some z => z | None => -1 end.
Definition in_known (s : string) : bool := match find s known with Some _ => true | None => false end.
Lemma k_ok s : in_known s = true -> sig_selector s = k s.
Proof.
  unfold in_known, k. destruct (find s known) as [z|] eqn:E; [|discriminate]. intros _. apply find_in in E.
  pose proof known_ok as H. rewrite forallb_forall in H. apply H in E. cbn [fst snd] in E. apply Z.eqb_eq. exact E.
Qed.

Definition all_functions (bs : list block) : list trait_fn := List.concat (map functions bs).
Fixpoint route_block_k (t : string) (fs : list trait_fn) (sel : Z) : option (string * string) :=
  match fs with
  | [] => None
  | f :: fs' => if k (fn_sig f) =? sel then Some (t, rust_name f) else route_block_k t fs' sel
  end.
Fixpoint route_k (bs : list block) (sel : Z) : option (string * string) :=
  match bs with
  | [] => None
  | b :: bs' => match route_block_k (type_name b) (functions b) sel with
                | Some r => Some r
                | None => route_k bs' sel
                end
  end.
Lemma route_k_ok bs sel :
  forallb (fun f => in_known (fn_sig f)) (all_functions bs) = true -> route bs sel = route_k bs sel.
Proof.
  unfold all_functions. induction bs as [|[t fs] bs IH]; [reflexivity|]. cbn [map List.concat functions].
  rewrite forallb_app, andb_true_iff. intros [H1 H2]. cbn [route route_k type_name functions]. rewrite (IH H2).
  replace (route_block t fs sel) with (route_block_k t fs sel); [reflexivity|]. clear - H1.
  induction fs as [|f fs IH]; [reflexivity|]. cbn [forallb] in H1. apply andb_true_iff in H1. destruct H1 as [Hf H1].
  cbn [route_block route_block_k]. rewrite selector_sig, (k_ok _ Hf), (IH H1). reflexivity.
Qed.
Lemma route_in bs sel r : route bs sel = Some r -> exists f, In f (all_functions bs) /\ selector f = sel.
Proof.
  unfold all_functions. induction bs as [|[t fs] bs IH]; [discriminate|]. cbn [route map List.concat type_name functions].
  destruct (route_block t fs sel) as [r'|] eqn:E.
  - intros _. clear IH. induction fs as [|f fs IH]; [discriminate|]. cbn [route_block] in E.
    destruct (Z.eqb_spec (selector f) sel) as [Hs|_].
    + exists f. split; [left; reflexivity|exact Hs].
    + destruct (IH E) as (f' & Hin & Hs). exists f'. split; [right; exact Hin|exact Hs].
  - intros H. destruct (IH H) as (f & Hin & Hs). exists f. split; [apply in_or_app; auto|exact Hs].
Qed.

Definition pair_eqb (x y : string * string) : bool := String.eqb (fst x) (fst y) && String.eqb (snd x) (snd y).
Lemma pair_eqb_eq x y : pair_eqb x y = true -> x = y.
Proof.
  destruct x as [a b], y as [c d]. unfold pair_eqb. cbn. rewrite andb_true_iff, !String.eqb_eq. intros [-> ->]. reflexivity.
Qed.
Definition answers_row (bs : list block) (x : string * (string * string)) : bool :=
  in_known (fst x) &&
  match route_k bs (k (fst x)) with Some r => pair_eqb r (snd x) | None => false end.
Definition listed (t : abi) (f : trait_fn) : bool :=
  in_known (fn_sig f) && existsb (fun x => in_known (fst x) && (k (fst x) =? k (fn_sig f))) t.
Definition check (bs : list block) (t : abi) : bool := forallb (answers_row bs) t && forallb (listed t) (all_functions bs).
Lemma check_ok bs t : check bs t = true -> dispatches bs t.
Proof.
  unfold check. rewrite andb_true_iff, !forallb_forall. intros [H1 H2] sel r.
  assert (Hk : forallb (fun f => in_known (fn_sig f)) (all_functions bs) = true).
  { apply forallb_forall. intros f Hf. apply H2 in Hf. unfold listed in Hf. apply andb_true_iff in Hf. apply Hf. }
  assert (Row : forall s r', In (s, r') t -> route bs (sig_selector s) = Some r').
  { intros s r' Hin. apply H1 in Hin. unfold answers_row in Hin. cbn [fst snd] in Hin. apply andb_true_iff in Hin.
    destruct Hin as [Hs Hr]. rewrite (route_k_ok bs _ Hk), (k_ok s Hs).
    destruct (route_k bs (k s)) as [r''|]; [|discriminate]. apply pair_eqb_eq in Hr. congruence. }
  split.
  - intros H. pose proof H as H'. apply route_in in H'. destruct H' as (f & Hin & Hs). apply H2 in Hin. unfold listed in Hin.
    apply andb_true_iff in Hin. destruct Hin as [Hf Hin]. apply existsb_exists in Hin.
    destruct Hin as ([s r'] & Hin & E). cbn [fst] in E. apply andb_true_iff in E. destruct E as [Es E]. apply Z.eqb_eq in E.
    assert (sig_selector s = sel) as Hsel by (rewrite (k_ok s Es), E, <- (k_ok _ Hf), <- selector_sig; exact Hs).
    exists s. split; [|exact Hsel]. pose proof (Row s r' Hin) as R. rewrite Hsel, H in R. inversion R. subst. exact Hin.
  - intros (s & Hin & <-). apply Row. exact Hin.
Qed.

Fixpoint nodup_z (l : list Z) : bool :=
  match l with [] => true | x :: l' => negb (existsb (Z.eqb x) l') && nodup_z l' end.
Lemma nodup_z_ok l : nodup_z l = true -> NoDup l.
Proof.
  induction l as [|x l IH]; [constructor|]. cbn [nodup_z]. rewrite andb_true_iff, negb_true_iff. intros [H1 H2].
  constructor; [|auto]. intros Hin. assert (existsb (Z.eqb x) l = true); [|congruence].
  apply existsb_exists. exists x. split; [exact Hin|apply Z.eqb_refl].
Qed.
Definition check_distinct (t : abi) : bool :=
  forallb (fun x => in_known (fst x)) t && nodup_z (map (fun x => k (fst x)) t).
Lemma check_distinct_ok t : check_distinct t = true -> distinct_selectors t.
Proof.
  unfold check_distinct, distinct_selectors. rewrite andb_true_iff, forallb_forall. intros [H1 H2].
  erewrite map_ext_in; [apply nodup_z_ok; exact H2|]. intros x Hx. cbn. apply k_ok. apply H1. exact Hx.
Qed.
