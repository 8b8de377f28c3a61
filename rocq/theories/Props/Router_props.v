(** C76: calls reach the functions they are meant for. *)
From Verif.Base Require Import Prelude Keccak.
From Coq Require Import String.
From Verif.Model Require Introspection Router Erc721.
From Verif.Spec Require Import Router_spec.
From Verif.Proofs Require Import Router_lemmas.
Import Introspection Router.
#[global] Open Scope Z_scope.
Opaque keccak256.

(** The signatures of the standards have the published selectors. *)
Theorem c76_published_selectors : Forall (fun x => sig_selector (fst x) = snd x) published.
Proof.
  assert (H : forallb (fun x => in_known (fst x) && (k (fst x) =? snd x)) published = true) by (vm_compute; reflexivity).
  apply Forall_forall. intros x Hx. rewrite forallb_forall in H. apply H in Hx. apply andb_true_iff in Hx.
  destruct Hx as [H1 H2]. apply Z.eqb_eq in H2. rewrite (k_ok _ H1). exact H2.
Qed.
Print Assumptions c76_published_selectors.
(** Every example but one answers exactly the signatures expected of it, each with the
    function expected: its own where it overrides an inherited one. *)
Theorem c76_examples_dispatch : Forall (fun e => dispatches (fst e) (snd e)) examples.
Proof.
  assert (H : forallb (fun e => check (fst e) (snd e)) examples = true) by (vm_compute; reflexivity).
  apply Forall_forall. intros x Hx. rewrite forallb_forall in H. apply check_ok. apply H. exact Hx.
Qed.
Print Assumptions c76_examples_dispatch.
Theorem c76_no_selector_clashes : Forall (fun e => distinct_selectors (snd e)) examples.
Proof.
  assert (H : forallb (fun e => check_distinct (snd e)) examples = true) by (vm_compute; reflexivity).
  apply Forall_forall. intros x Hx. rewrite forallb_forall in H. apply check_distinct_ok. apply H. exact Hx.
Qed.
Print Assumptions c76_no_selector_clashes.
(** The exception: the ERC-721 wrapper example does not answer the hook of ERC-721, *)
Theorem c76_wrapper_hook_refuted :
  exists s r, In (s, r) Erc721WrapperExample /\ sig_selector s = 0x150b7a02 /\
    route Pub.Erc721WrapperExample (sig_selector s) = None.
Proof.
  exists "onERC721Received(address,address,uint256,bytes)"%string, ("Erc721WrapperExample"%string, "on_erc721_received"%string).
  split; [vm_compute; intuition|]. rewrite k_ok by (vm_compute; reflexivity). split; [vm_compute; reflexivity|].
  rewrite route_k_ok by (vm_compute; reflexivity). vm_compute. reflexivity.
Qed.
Print Assumptions c76_wrapper_hook_refuted.
(** since camelCase makes [onErc721Received] of [on_erc721_received]. Apart from that it is
    as expected. *)
Theorem c76_wrapper_dispatch_partial :
  dispatches Pub.Erc721WrapperExample
    (map (fun x => if String.eqb (fst x) "onERC721Received(address,address,uint256,bytes)"
                   then ("onErc721Received(address,address,uint256,bytes)"%string, snd x) else x) Erc721WrapperExample).
Proof. apply check_ok. vm_compute. reflexivity. Qed.
Print Assumptions c76_wrapper_dispatch_partial.
(** Hence a token sent to the wrapper with [safeTransferFrom] is never wrapped: a contract
    without a function for the selector fails without a reason, and the transfer with it. *)
Theorem c76_direct_wrapping_fails (wrapper : Z) has_code (h : Erc721.handler) :
  has_code wrapper = true ->
  (route Pub.Erc721WrapperExample 0x150b7a02 = None ->
   forall op f id d s, fst (h wrapper op f id d s) = Erc721.Failed []) ->
  forall c f id d s s', Erc721.safe_transfer_from_with_data has_code h c f wrapper id d s <> (Ok tt, s').
Proof.
  intros Hc Hh c f id d s s' H. unfold Erc721.safe_transfer_from_with_data in H. apply bind_ok in H.
  destruct H as ([] & s1 & _ & H). unfold Erc721._check_on_erc721_received in H. rewrite Hc in H. cbn [negb] in H. mred_in H.
  destruct c76_wrapper_hook_refuted as (sg & r & _ & E1 & E2). rewrite E1 in E2.
  specialize (Hh E2 c f id d s1). clear E2.
  destruct (h wrapper c f id d s1) as [rep s2]. cbn [fst] in Hh. subst rep. discriminate H.
Qed.
Print Assumptions c76_direct_wrapping_fails.
(** The paused and capped functions cannot be reached around their guards: no selector leads
    to an inherited transfer. *)
Theorem c76_guards_not_bypassed :
  (forall sel f, route Pub.Erc20Example sel = Some ("Erc20"%string, f) -> ~ In f ["transfer"; "transfer_from"]%string) /\
  (forall sel f, route Pub.Erc721Example sel = Some ("Erc721"%string, f) ->
     ~ In f ["transfer_from"; "safe_transfer_from"; "safe_transfer_from_with_data"]%string) /\
  (forall sel f, route Pub.Erc1155Example sel = Some ("Erc1155"%string, f) ->
     ~ In f ["safe_transfer_from"; "safe_batch_transfer_from"]%string).
Proof.
  pose proof c76_examples_dispatch as H. rewrite Forall_forall in H.
  assert (G : forall e t l, In e examples ->
    forallb (fun x => negb (String.eqb (fst (snd x)) t && mem (snd (snd x)) l)) (snd e) = true ->
    forall sel f, route (fst e) sel = Some (t, f) -> ~ In f l).
  { intros e t l He Hb sel f Hr Hin. apply (H e He) in Hr. destruct Hr as (s & Hs & _). rewrite forallb_forall in Hb.
    apply Hb in Hs. cbn [fst snd] in Hs. rewrite String.eqb_refl in Hs. cbn [andb] in Hs. apply negb_true_iff in Hs.
    unfold mem in Hs. assert (existsb (String.eqb f) l = true); [|congruence]. apply existsb_exists. exists f.
    split; [exact Hin|apply String.eqb_refl]. }
  repeat match goal with |- _ /\ _ => split end.
  - apply (G (Pub.Erc20Example, Router_spec.Erc20Example)); [apply (nth_error_In examples 0); reflexivity|vm_compute; reflexivity].
  - apply (G (Pub.Erc721Example, Router_spec.Erc721Example)); [apply (nth_error_In examples 5); reflexivity|vm_compute; reflexivity].
  - apply (G (Pub.Erc1155Example, Router_spec.Erc1155Example)); [apply (nth_error_In examples 8); reflexivity|vm_compute; reflexivity].
Qed.
Print Assumptions c76_guards_not_bypassed.
(** In the ownership examples, by contrast, only [transfer] is guarded: *)
Example c76_ownable_transfer_from_inherited :
  route Pub.OwnableExample 0xa9059cbb = Some ("OwnableExample", "transfer")%string /\
  route Pub.OwnableExample 0x23b872dd = Some ("Erc20", "transfer_from")%string.
Proof. split; rewrite route_k_ok by (vm_compute; reflexivity); vm_compute; reflexivity. Qed.
