From Verif.Base Require Import Prelude Bytes Keccak Maps.
From stdpp Require Import gmap.
From Coq Require Import String List.
From Verif.Model Require Import Introspection Router Entry EntryErc721 EntryErc1155 EntryUri.
From Verif.Model Require SolAbi Erc1155 Erc1155Example Erc721Uri.
From Verif.Spec Require Import Router_spec SolAbi_spec LogMeaning_spec Utf8_spec.
From Verif.Spec Require Entry_spec EntryMulti_spec EntryUri_spec.
From Verif.Proofs Require Import Router_lemmas Entry_lemmas.
From Verif.Proofs Require Utf8_lemmas EntryNft_lemmas EntryMulti_lemmas.
Import SolAbi.
Import Entry_spec (calldata, is_address, has_type, word_of_type).
Import EntryMulti_spec.
Import EntryNft_lemmas (addr0, addr_u256).
Import EntryMulti_lemmas.
Import EntryUri_spec.
#[global] Open Scope Z_scope.
Local Open Scope list_scope.
Local Open Scope Z_scope.
Opaque keccak256.

Definition exec_of (w : world) (c : Z) (r : request) : M Erc1155.state Erc1155.error unit :=
  match r with
  | Transfer f t i v d => Erc1155.safe_transfer_from Erc1155.base (deployed w) (Erc1155Example.answers (hook1155 w c f t [i] [v] d)) c f t i v d
  | TransferBatch f t is vs d => Erc1155.safe_batch_transfer_from Erc1155.base (deployed w) (Erc1155Example.answers (hook1155 w c f t is vs d)) c f t is vs d
  | SetApprovalForAll p v => Erc1155.set_approval_for_all c p v
  | _ => panic
  end.
Definition uexec_of (w : world) (c : Z) (r : urequest) : M state Erc1155.error unit :=
  match r with
  | Tokens r => on_tokens (exec_of w c r)
  | SetTokenURI i u => on_uris (Erc721Uri.Erc1155Uri.set_token_uri i u)
  | SetBaseURI u => on_uris (Erc721Uri.Erc1155Uri.set_base_uri u)
  end.
Ltac fit := unfold reason_fits; cbn [numbers]; repeat (apply List.Forall_cons; [solve [auto using addr_u256, addr0]|]); apply List.Forall_nil.
Lemma plain_ok w e b c r : agree e b -> book_fits b -> m_paused b = false -> is_address c -> request_fits r -> available r ->
  meets (exec_of w c r e) (EntryMulti_spec.ideal w c r b) false.
Proof.
  intros A F P Hc [Hsz Hr] Av.
  destruct r as [t i v d|t is vs d|f i v|f is vs|f t i v d|f t is vs d|q v| |]; try contradiction Av; cbn [exec_of EntryMulti_spec.ideal]; unfold request_data in Hsz; cbv beta iota in Hr.
  - destruct Hr as (H1 & H2 & H3 & H4 & _). unfold moving. cbn [running app checks]. rewrite P. apply (transfer_ok w c f t [i] [v]); auto using one_fits, length_1.
  - destruct Hr as (H1 & H2 & H3 & H4 & _). unfold moving. cbn [running app checks]. rewrite P.
    apply transfer_ok; try assumption; (eapply list_fits; [|exact Hsz]; cbn; auto).
  - destruct A as [A1 A2 A3]. unfold Erc1155.set_approval_for_all, Erc1155._set_approval_for_all, somebody. cbn [checks]. mred.
    destruct (q =? 0) eqn:E; cbn [meets fst snd].
    + exists (Erc1155.InvalidOperator q). split; [reflexivity|]. replace q with 0 by lia. split; [reflexivity|fit].
    + split; [reflexivity|]. split; [|split; [exact F|exact P]]. split; [exact A1| |exact A3].
      intros o p Ho Hp. unfold Erc1155.is_approved_for_all. cbn [operates m_operator Erc1155.operator_approvals snd Erc1155.emit modify]. rewrite getd_set.
      destruct (stdpp.base.decide ((c, q) = (o, p))) as [E2|D].
      * injection E2 as -> ->. rewrite !Z.eqb_refl. reflexivity.
      * destruct (Z.eqb_spec o c); destruct (Z.eqb_spec p q); cbn [andb]; subst; try apply (A2 _ _ Ho Hp). congruence.
Qed.
(** ** With texts *)
Record fine (common : list Z) (s : state) (b : ubook) : Prop := mkFine {
  f_tokens : agree (tokens s) (u_tokens b);
  f_common : Erc721Uri.Erc1155Uri.metadata_uri (uris s) = common;
  f_base : Erc721Uri.Erc1155Uri.base_uri (uris s) = u_base b;
  f_own : forall id, u_own b id = getd [] (Erc721Uri.Erc1155Uri.token_uris (uris s)) id;
  f_fits : ubook_fits b
}.
Lemma fine_init common : fine common (init common) new_ubook.
Proof.
  split; [exact (proj1 agrees_init)|reflexivity|reflexivity|intros id; cbn; rewrite getd_empty; reflexivity|].
  split; [exact new_fits|]. split; [reflexivity|]. split; [intros id|]; apply Utf8_lemmas.text_nil.
Qed.
Definition umeets common (x : res Erc1155.error unit * state) (v : uverdict) : Prop :=
  match v with
  | Yes b => exists s', x = (Ok tt, s') /\ fine common s' b
  | No Silent => fst x = Panic
  | No why => exists er, fst x = Err er /\ says er why
  end.
Lemma ustep_ok common w s b c r : fine common s b -> is_address c -> asks r -> umeets common (uexec_of w c r s) (ideal w c r b).
Proof.
  intros [A C B O (F1 & F2 & F3 & F4)] Hc Hr. destruct r as [r|i u|u]; cbn [asks ideal uexec_of] in *.
  - destruct Hr as [Hr Av]. pose proof (plain_ok w _ _ c r A F1 F2 Hc Hr Av) as K. unfold on_tokens, zoom.
    destruct (exec_of w c r (tokens s)) as [x e]. destruct (EntryMulti_spec.ideal w c r (u_tokens b)) as [t|why]; cbn [meets umeets fst snd] in *.
    + destruct K as (-> & K1 & K2 & K3). eexists. split; [reflexivity|]. split; [exact K1|exact C|exact B|exact O|].
      exact (conj K2 (conj K3 (conj F3 F4))).
    + destruct why; [destruct K as (er & K & L); exists er; auto..|exact K].
  - destruct Hr as (Hi & Ht & _). eexists. split; [reflexivity|]. split; [exact A|exact C|exact B| |].
    + intros j. cbn. rewrite getd_set. destruct (decide (i = j)) as [<-|N]; [rewrite Z.eqb_refl; reflexivity|].
      replace (j =? i) with false by lia. apply O.
    + split; [exact F1|]. split; [exact F2|]. split; [|exact F4]. intros j. cbn. destruct (j =? i); [exact Ht|apply F3].
  - destruct Hr as (Ht & _). eexists. split; [reflexivity|]. split; [exact A|exact C|reflexivity|exact O|].
    exact (conj F1 (conj F2 (conj F3 Ht))).
Qed.
Lemma link_ok common s b id : fine common s b -> Erc721Uri.Erc1155Uri.uri id (uris s) = link common b id.
Proof.
  intros [_ C B O _]. unfold Erc721Uri.Erc1155Uri.uri, link. rewrite C, B, <- (O id).
  destruct (u_own b id) as [|x l] eqn:E; destruct (decide _) as [D|D]; try reflexivity; [contradiction|discriminate].
Qed.
(** Nothing to mint with: every balance stays nothing. *)
Definition empty (b : mbook) : Prop := forall a id, m_balance b a id = 0.
Lemma each_nothing f t ids : forall vs b b', numbers_fit vs -> empty b ->
  each (fun id v b => reply_to (taken f id v b) (given t id v)) ids vs b = Granted b' -> empty b'.
Proof.
  induction ids as [|i ids IH]; intros [|v vs] b b' Hv E H; cbn [each] in H; try (injection H as <-; exact E).
  destruct (proj1 (List.Forall_cons_iff _ _ _) Hv) as [Hv1 Hv2]. unfold is_u256 in Hv1.
  assert (T : taken f i v b = if 0 <? v then Denied (Because (ERC1155InsufficientBalance f 0 v i)) else Granted (holds b f i (0 - v)))
    by (unfold taken; rewrite (E f i); reflexivity).
  rewrite T in H. clear T. destruct (0 <? v) eqn:L; cbn [reply_to] in H; [discriminate|].
  assert (v = 0) by lia. subst v. set (b1 := holds b f i (0 - 0)) in H.
  assert (E1 : empty b1) by (intros a id; unfold b1; cbn; destruct ((a =? f) && (id =? i)); [reflexivity|apply E]).
  clearbody b1. assert (G : given t i 0 b1 = Granted (holds b1 t i (0 + 0))) by (unfold given; rewrite (E1 t i); reflexivity).
  rewrite G in H. cbn [reply_to] in H.
  apply (IH vs _ b' Hv2) in H; [exact H|]. intros a id. cbn. destruct ((a =? t) && (id =? i)); [reflexivity|apply E1].
Qed.
Lemma moving_nothing w c f t ids vs d b b' : numbers_fit vs -> empty b -> moving w c f t ids vs d b = Granted b' -> empty b'.
Proof.
  intros Hv E. unfold moving. destruct (checks _ b) as [b1|] eqn:K; cbn [reply_to]; [|discriminate].
  assert (b1 = b).
  { revert K. generalize (running b ++ entitled b c f ++ somebody t (ERC1155InvalidReceiver 0) ++ somebody f (ERC1155InvalidSender 0) ++ paired ids vs).
    intros l. induction l as [|[[] r] l IH]; cbn [checks]; [congruence|discriminate|exact IH]. }
  subst b1. destruct (each _ ids vs b) as [b2|] eqn:K2; cbn [reply_to]; [|discriminate]. apply each_nothing in K2; [|exact Hv|exact E].
  unfold asking. destruct (deployed w t); [|intros [= <-]; exact K2]. destruct (question c f ids vs d) as [q cons].
  destruct (replies w t q) as [o|[|x o]]; [destruct (list_eq_dec BinInt.Z.eq_dec o cons)|..]; try discriminate. intros [= <-]. exact K2.
Qed.
Lemma ideal_nothing w c r b b' : asks r -> empty (u_tokens b) -> ideal w c r b = Yes b' -> empty (u_tokens b').
Proof.
  intros Hr E. destruct r as [r|i u|u]; cbn [asks ideal] in *; [|intros [= <-]; exact E..].
  destruct Hr as [[_ Hr] Av]. destruct (EntryMulti_spec.ideal w c r (u_tokens b)) as [t|] eqn:K; [|discriminate]. intros [= <-]. cbn [u_tokens].
  destruct r as [| | | |f t' i v d|f t' is vs d|q v| |]; try contradiction Av; cbn [EntryMulti_spec.ideal] in K.
  - apply moving_nothing in K; [exact K| |exact E]. apply one_fits, Hr.
  - apply moving_nothing in K; [exact K|apply Hr|exact E].
  - unfold somebody in K. cbn [checks] in K. destruct (q =? 0); [discriminate|]. injection K as <-. exact E.
Qed.
