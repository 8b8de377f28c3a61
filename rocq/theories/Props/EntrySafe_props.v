(** C98: bytes in, bytes out for the safe-erc20 example, whatever the token. *)
From Verif.Base Require Import Prelude Bytes Keccak Maps.
From Coq Require Import String List.
From Verif.Model Require Import Introspection Router Entry EntryErc20 EntryVault EntrySafe.
From Verif.Model Require SolAbi Erc20 SafeErc20.
From Verif.Spec Require Import Router_spec SolAbi_spec LogMeaning_spec Entry_spec Ledger_spec EntryAccess_spec EntryVault_spec EntrySafe_spec.
From Verif.Proofs Require Import Router_lemmas Entry_lemmas Ledger_lemmas EntryVault_lemmas EntryAccess_lemmas.
From Verif.Proofs Require Erc20_inv SolAbi_lemmas.
From Verif.Props Require Import SolAbi_props.
From Verif.Props Require SafeErc20_props Entry_props EntryNft_props.
Import SolAbi.
#[global] Open Scope Z_scope.
Local Open Scope list_scope.
Local Open Scope Z_scope.
Opaque keccak256.

(** ** What it sends to tokens *)
Local Ltac data nm ts sg := cbn [call_data]; rewrite Entry_props.call_data_sig;
  replace (signature nm ts) with sg%string by (vm_compute; reflexivity); reflexivity.
Lemma data_pay a v : call_data (SafeErc20.CTransfer a v) = pay_data a v.
Proof. data "transfer"%string [Address; U256] "transfer(address,uint256)"%string. Qed.
Lemma data_draw a b v : call_data (SafeErc20.CTransferFrom a b v) = draw_data a b v.
Proof. data "transferFrom"%string [Address; Address; U256] "transferFrom(address,address,uint256)"%string. Qed.
Lemma data_allow a v : call_data (SafeErc20.CApprove a v) = allow_data a v.
Proof. data "approve"%string [Address; U256] "approve(address,uint256)"%string. Qed.
Lemma data_query a b : call_data (SafeErc20.CAllowance a b) = query_data a b.
Proof. data "allowance"%string [Address; Address] "allowance(address,address)"%string. Qed.
Opaque pay_data draw_data allow_data query_data call_data.

(** ** When an answer is a yes *)
Lemma yes_number d : List.Forall is_byte d -> SafeErc20.encodes_true d = (of_be d =? 1).
Proof.
  intros Hb. apply eq_true_iff_eq. rewrite SafeErc20_props.encodes_true_iff, Z.eqb_eq. split.
  - intros [n ->]. clear. induction n as [|n IH]; [reflexivity|]. cbn. exact IH.
  - intros E. exists (length d - 1)%nat. rewrite <- (be_bytes_of_be _ Hb) at 1. rewrite E.
    destruct d as [|x d]; [discriminate E|]. cbn [length]. rewrite Nat.sub_0_r || replace (S (length d) - 1)%nat with (length d) by lia.
    generalize (length d) as n. clear. induction n as [|n IH]; [reflexivity|]. cbn [repeat app]. rewrite <- IH.
    change (be_bytes (S (S n)) 1) with ((1 / 256 ^ Z.of_nat (S n)) mod 256 :: be_bytes (S n) 1).
    f_equal. rewrite Z.div_small; [reflexivity|]. split; [lia|]. apply Z.pow_gt_1; lia.
Qed.

Section any_world.
  Context {W : Type} (this : Z) (code_at : Z -> bool) (call : Z -> list Z -> W -> option (list Z * W)).
  Context (Hbytes : answers_bytes call).
  Local Notation x := (any_ext this code_at call).
  Local Notation C := (ExampleSafe this code_at call).
  (** The code against a verdict. *)
  Definition agrees (m : M W SafeErc20.error unit) (w : W) (v : verdict W) : Prop :=
    match v with
    | Yes w' => m w = (Ok tt, w')
    | No (Some why) => exists e w', m w = (Err e, w') /\ reason_safe_erc20 e = why /\ reason_fits why
    | No None => exists w', m w = (Panic, w')
    end.
  Lemma first_fits out : List.Forall is_byte out -> is_u256 (first_number out).
  Proof.
    intros Hb. unfold first_number. pose proof (of_be_range _ (Forall_firstn _ 32 _ Hb)) as R.
    pose proof (firstn_le_length 32 out) as L. split; [lia|].
    apply Z.lt_le_trans with (256 ^ Z.of_nat (length (firstn 32 out))); [lia|].
    change two256 with (256 ^ 32). apply Z.pow_le_mono_r; lia.
  Qed.
  Lemma call_asked token c w :
    SafeErc20.call_optional_return x token c w =
    (let (b, w') := asked code_at call token (call_data c) w in if b then (Ok tt, w') else (Err (SafeErc20.SafeErc20FailedOperation token), w')).
  Proof.
    unfold SafeErc20.call_optional_return, SafeErc20.limited_call, asked. cbn [SafeErc20.has_code SafeErc20.raw_call any_ext].
    destruct (code_at token); cbn [negb]; [|reflexivity].
    destruct (call token (call_data c) w) as [[out w']|] eqn:E; [|reflexivity].
    rewrite (yes_number (firstn 32 out)) by (apply Forall_firstn, (Hbytes _ _ _ _ _ E)). fold (first_number out).
    destruct out as [|b out]; [reflexivity|]. change (firstn 32 (b :: out)) with (b :: firstn 31 out). cbn [orb].
    replace (size (b :: out) =? 0) with false; [reflexivity|]. symmetry. apply Z.eqb_neq. unfold size. cbn [length]. lia.
  Qed.
  Lemma once_agrees token c w : is_address token ->
    agrees (SafeErc20.call_optional_return x token c) w (once code_at call token (call_data c) w).
  Proof.
    intros Ht. unfold once. pose proof (call_asked token c w) as E. destruct (asked code_at call token (call_data c) w) as [[] w']; cbn in E |- *.
    - exact E.
    - exists (SafeErc20.SafeErc20FailedOperation token), w'. split; [exact E|]. split; [reflexivity|]. apply F1, address_fits, Ht.
  Qed.
  Lemma force_agrees token sp v w : is_address token ->
    agrees (SafeErc20.force_approve x token sp v) w (approval code_at call token sp v w).
  Proof.
    intros Ht. unfold approval, SafeErc20.force_approve. rewrite <- !data_allow.
    pose proof (call_asked token (SafeErc20.CApprove sp v) w) as E.
    destruct (asked code_at call token (call_data (SafeErc20.CApprove sp v)) w) as [[] w1]; cbv beta iota zeta in E; unfold agrees; rewrite E; [reflexivity|].
    pose proof (call_asked token (SafeErc20.CApprove sp 0) w1) as E1.
    destruct (asked code_at call token (call_data (SafeErc20.CApprove sp 0)) w1) as [[] w2]; cbv beta iota zeta in E1; unfold bind; rewrite E1.
    - exact (once_agrees token (SafeErc20.CApprove sp v) w2 Ht).
    - exists (SafeErc20.SafeErc20FailedOperation token), w2. split; [reflexivity|]. split; [reflexivity|]. apply F1, address_fits, Ht.
  Qed.
  Lemma read_current token sp w :
    match current this code_at call token sp w with
    | Some (n, w') => SafeErc20.allowance x token sp w = (Ok n, w') /\ is_u256 n
    | None => SafeErc20.allowance x token sp w = (Err (SafeErc20.SafeErc20FailedOperation token), w)
    end.
  Proof.
    unfold current, SafeErc20.allowance, SafeErc20.limited_call. cbn [SafeErc20.has_code SafeErc20.raw_call SafeErc20.self any_ext].
    destruct (code_at token); cbn [negb]; [|reflexivity]. rewrite data_query.
    destruct (call token (query_data this sp) w) as [[out w']|] eqn:E; [|reflexivity].
    split; [reflexivity|]. apply first_fits, (Hbytes _ _ _ _ _ E).
  Qed.
  Definition wish_code (r : wish) : M W SafeErc20.error unit :=
    match r with
    | Send t a v => SafeErc20.safe_transfer x t a v
    | Fetch t a b v => SafeErc20.safe_transfer_from x t a b v
    | Raise t a v => SafeErc20.safe_increase_allowance x t a v
    | Lower t a v => SafeErc20.safe_decrease_allowance x t a v
    | Force t a v => SafeErc20.force_approve x t a v
    end.
  Lemma wish_agrees r w : wish_fits r -> agrees (wish_code r) w (comes_of this code_at call r w).
  Proof.
    destruct r as [t a v|t a b v|t a v|t a v|t a v]; cbn [wish_fits wish_code comes_of].
    - intros (Ht & _). rewrite <- data_pay. apply once_agrees, Ht.
    - intros (Ht & _). rewrite <- data_draw. apply once_agrees, Ht.
    - intros (Ht & Ha & Hv). pose proof (read_current t a w) as K. unfold SafeErc20.safe_increase_allowance.
      destruct (current this code_at call t a w) as [[n w1]|].
      + destruct K as [K Hn]. unfold agrees, bind. rewrite K. unfold cadd. destruct (n + v <? two256).
        * exact (force_agrees t a (n + v) w1 Ht).
        * exists w1. reflexivity.
      + unfold agrees, bind, no. rewrite K. exists (SafeErc20.SafeErc20FailedOperation t), w. split; [reflexivity|]. split; [reflexivity|]. apply F1, address_fits, Ht.
    - intros (Ht & Ha & Hv). pose proof (read_current t a w) as K. unfold SafeErc20.safe_decrease_allowance.
      destruct (current this code_at call t a w) as [[n w1]|].
      + destruct K as [K Hn]. unfold agrees, bind. rewrite K. unfold fail_if. destruct (n <? v) eqn:E.
        * exists (SafeErc20.SafeErc20FailedDecreaseAllowance a n v), w1. split; [reflexivity|]. split; [reflexivity|]. apply F3; auto using address_fits.
        * unfold ret. replace (wsub n v) with (n - v); [exact (force_agrees t a (n - v) w1 Ht)|].
          unfold wsub. rewrite Z.mod_small; [reflexivity|]. clear - E Hn Hv. unfold is_u256 in *. lia.
      + unfold agrees, bind, no. rewrite K. exists (SafeErc20.SafeErc20FailedOperation t), w. split; [reflexivity|]. split; [reflexivity|]. apply F1, address_fits, Ht.
    - intros (Ht & _). apply force_agrees, Ht.
  Qed.

  (** ** By bytes *)
  Lemma known_safe : all_known (blocks C) = true.
  Proof. vm_compute. reflexivity. Qed.
  Definition exposed_safe := Eval vm_compute in exposed Pub.SafeErc20Example.
  Lemma exposed_safe_ok : exposed (blocks C) = exposed_safe.
  Proof. vm_compute. reflexivity. Qed.
  Lemma wish_entry r c w : wish_fits r -> entry C c 0 (wish_data r) w = finish C (nothing (wish_code r) w) w.
  Proof.
    clear Hbytes. destruct r as [t a v|t a b v|t a v|t a v|t a v]; cbn [wish_fits wish_code]; unfold wish_data; intros H.
    - change [Word t; Word a; Word v] with (map Word [t; a; v]). ask constr:(C) known_safe "safeTransfer(address,address,uint256)"%string [t; a; v] "SafeErc20"%string (fn "safe_transfer" [Address; Address; U256]). reflexivity.
    - change [Word t; Word a; Word b; Word v] with (map Word [t; a; b; v]). ask constr:(C) known_safe "safeTransferFrom(address,address,address,uint256)"%string [t; a; b; v] "SafeErc20"%string (fn "safe_transfer_from" [Address; Address; Address; U256]). reflexivity.
    - change [Word t; Word a; Word v] with (map Word [t; a; v]). ask constr:(C) known_safe "safeIncreaseAllowance(address,address,uint256)"%string [t; a; v] "SafeErc20"%string (fn "safe_increase_allowance" [Address; Address; U256]). reflexivity.
    - change [Word t; Word a; Word v] with (map Word [t; a; v]). ask constr:(C) known_safe "safeDecreaseAllowance(address,address,uint256)"%string [t; a; v] "SafeErc20"%string (fn "safe_decrease_allowance" [Address; Address; U256]). reflexivity.
    - change [Word t; Word a; Word v] with (map Word [t; a; v]). ask constr:(C) known_safe "forceApprove(address,address,uint256)"%string [t; a; v] "SafeErc20"%string (fn "force_approve" [Address; Address; U256]). reflexivity.
  Qed.
  Lemma safe_answer r c w : wish_fits r -> answered (entry C c 0 (wish_data r) w) w (comes_of this code_at call r w).
  Proof.
    intros Hr. rewrite (wish_entry r c w Hr), finish_nothing. pose proof (wish_agrees r w Hr) as K. unfold agrees in K. unfold tx, answer_of.
    destruct (comes_of this code_at call r w) as [w'|[why|]]; cbn [answered].
    - rewrite K. reflexivity.
    - destruct K as (e & w' & -> & <- & Hf). exists (revert_safe_erc20 e). split; [reflexivity|]. apply revert_safe_erc20_ok, Hf.
    - destruct K as (w' & ->). reflexivity.
  Qed.
  Lemma safe_interface_ok t f : In (t, f) (exposed (blocks C)) -> In (fn_sig f, arg_types f) safe_interface.
  Proof.
    assert (K : forallb (fun y => if in_dec EntryNft_props.same_entry (fn_sig (snd y), arg_types (snd y)) safe_interface then true else false) (exposed (blocks C)) = true)
      by (vm_compute; reflexivity).
    intros Hin. pose proof (proj1 (forallb_forall _ _) K _ Hin) as L. cbn [snd] in L.
    destruct (in_dec EntryNft_props.same_entry (fn_sig f, arg_types f) safe_interface) as [Y|N]; [exact Y|discriminate L].
  Qed.
End any_world.

(** In any world, with any contract as the token: each function sends the token exactly the
    calls written in the specification, takes exactly no answer or the number one for a yes,
    and then answers nothing; otherwise it reverts with the documented reason and the world is
    as before. Who calls makes no difference. *)
Theorem c98_any_token :
  forall W this code_at (call : Z -> list Z -> W -> option (list Z * W)) c r w,
  answers_bytes call -> wish_fits r ->
  answered (entry (ExampleSafe this code_at call) c 0 (wish_data r) w) w (comes_of this code_at call r w).
Proof. intros W this code_at call c r w Hb Hr. exact (safe_answer this code_at call Hb r c w Hr). Qed.
Print Assumptions c98_any_token.

(** Every other call fails without data and changes nothing. *)
Theorem c98_nothing_else :
  forall W this code_at (call : Z -> list Z -> W -> option (list Z * W)) c v d w,
  List.Forall is_byte d -> size d < two256 ->
  entry (ExampleSafe this code_at call) c v d w = (Reverted [], w) \/ (v = 0 /\ exists r, wish_fits r /\ d = wish_data r).
Proof.
  intros W this code_at call c v d w Hb Hsz.
  destruct (proper_or_reverts (ExampleSafe this code_at call) safe_interface (known_safe this code_at call) (safe_interface_ok this code_at call) c v d w Hb Hsz)
    as [K|(Hv & sig & ts & args & Hin & Ht & ->)]; [left; exact K|right]. split; [exact Hv|]. clear Hb Hsz.
  unfold safe_interface in Hin. one_of Hin Ht.
  - eexists (Send _ _ _). split; [|reflexivity]. cbn [wish_fits]. tauto.
  - eexists (Fetch _ _ _ _). split; [|reflexivity]. cbn [wish_fits]. tauto.
  - eexists (Raise _ _ _). split; [|reflexivity]. cbn [wish_fits]. tauto.
  - eexists (Lower _ _ _). split; [|reflexivity]. cbn [wish_fits]. tauto.
  - eexists (Force _ _ _). split; [|reflexivity]. cbn [wish_fits]. tauto.
Qed.
Print Assumptions c98_nothing_else.

(** ** Allowances *)
Section allowances.
  Context {W : Type} (this : Z) (code_at : Z -> bool) (call : Z -> list Z -> W -> option (list Z * W)) (token sp : Z) (P : W -> Prop) (al : W -> Z).
  Context (H : approves this code_at call token sp P al).
  Lemma try_approval v w : P w -> is_u256 v -> exists w', P w' /\
    (asked code_at call token (allow_data sp v) w = (true, w') /\ al w' = v \/
     asked code_at call token (allow_data sp v) w = (false, w') /\ v <> 0 /\ al w <> 0).
  Proof.
    intros HP Hv. destruct (asked code_at call token (allow_data sp v) w) as [b w'] eqn:E. exists w'. split.
    - unfold asked in E. rewrite (as_code _ _ _ _ _ _ _ H) in E. destruct (call token (allow_data sp v) w) as [[out w1]|] eqn:E1.
      + apply (as_stays _ _ _ _ _ _ _ H v w out w' HP Hv). rewrite E1. injection E as _ ->. reflexivity.
      + injection E as _ <-. exact HP.
    - destruct b; [left|right].
      + split; [reflexivity|]. exact (as_sets _ _ _ _ _ _ _ H v w w' HP Hv E).
      + split; [reflexivity|]. split.
        * intros ->. pose proof (as_zero _ _ _ _ _ _ _ H w HP) as K. rewrite E in K. discriminate K.
        * intros Z0. pose proof (as_fresh _ _ _ _ _ _ _ H v w HP Hv Z0) as K. rewrite E in K. discriminate K.
  Qed.
  Lemma approval_works v w : P w -> is_u256 v -> exists w', approval code_at call token sp v w = Yes w' /\ P w' /\ al w' = v.
  Proof.
    intros HP Hv. unfold approval. destruct (try_approval v w HP Hv) as (w1 & P1 & [[-> A]|(-> & N1 & N2)]); [eauto|].
    destruct (try_approval 0 w1 P1 zero_fits) as (w2 & P2 & [[-> A]|(_ & N & _)]); [|congruence].
    unfold once. destruct (try_approval v w2 P2 Hv) as (w3 & P3 & [[-> A']|(_ & _ & N)]); [|congruence]. eauto.
  Qed.
  Lemma current_says w : P w -> current this code_at call token sp w = Some (al w, w).
  Proof.
    intros HP. unfold current. rewrite (as_code _ _ _ _ _ _ _ H), (as_says _ _ _ _ _ _ _ H w HP). unfold first_number.
    assert (L : length (word (al w)) = 32%nat) by apply be_bytes_length.
    rewrite <- L, firstn_all, SolAbi_lemmas.of_be_word by (apply (as_range _ _ _ _ _ _ _ H), HP). reflexivity.
  Qed.
End allowances.
(** On every token whose approvals work, also where only zero may be changed: afterwards the
    allowance is exactly what was asked for, what it was plus, or what it was minus. *)
Theorem c98_allowances_exact :
  forall W this code_at (call : Z -> list Z -> W -> option (list Z * W)) token sp P al c v w,
  answers_bytes call -> approves this code_at call token sp P al -> P w -> is_address token -> is_address sp -> is_u256 v ->
  let does r n := exists w', entry (ExampleSafe this code_at call) c 0 (wish_data r) w = (Returned [], w') /\ P w' /\ al w' = n in
  does (Force token sp v) v /\
  (if al w + v <? two256 then does (Raise token sp v) (al w + v)
   else entry (ExampleSafe this code_at call) c 0 (wish_data (Raise token sp v)) w = (Reverted [], w)) /\
  (if v <=? al w then does (Lower token sp v) (al w - v)
   else exists d, entry (ExampleSafe this code_at call) c 0 (wish_data (Lower token sp v)) w = (Reverted d, w) /\
     decode_reason d = Some (SafeErc20FailedDecreaseAllowance sp (al w) v)).
Proof.
  intros W this code_at call token sp P al c v w Hb H HP Ht Hs Hv does.
  pose proof (as_range _ _ _ _ _ _ _ H w HP) as Hal.
  assert (K : forall r, wish_fits r -> forall n, is_u256 n -> comes_of this code_at call r w = approval code_at call token sp n w -> does r n).
  { intros r Hr n Hn E. destruct (approval_works this code_at call token sp P al H n w HP Hn) as (w' & Ea & P' & A).
    pose proof (c98_any_token W this code_at call c r w Hb Hr) as G. rewrite E, Ea in G. exists w'. split; [exact G|]. auto. }
  pose proof (current_says this code_at call token sp P al H w HP) as Ec.
  assert (Fr : wish_fits (Raise token sp v)) by exact (conj Ht (conj Hs Hv)).
  assert (Fl : wish_fits (Lower token sp v)) by exact (conj Ht (conj Hs Hv)).
  split; [|split].
  - apply K; [exact Fr|exact Hv|reflexivity].
  - destruct (al w + v <? two256) eqn:E.
    + apply K; [exact Fr|clear - Hal Hv E; unfold is_u256 in *; lia|]. cbn [comes_of]. rewrite Ec, E. reflexivity.
    + pose proof (c98_any_token W this code_at call c (Raise token sp v) w Hb Fr) as G. cbn [comes_of] in G. rewrite Ec, E in G. exact G.
  - destruct (v <=? al w) eqn:E.
    + apply K; [exact Fl|clear - Hal Hv E; unfold is_u256 in *; lia|]. cbn [comes_of]. rewrite Ec. replace (al w <? v) with false; [reflexivity|]. clear - E. lia.
    + pose proof (c98_any_token W this code_at call c (Lower token sp v) w Hb Fl) as G. cbn [comes_of] in G. rewrite Ec in G.
      replace (al w <? v) with true in G by (clear - E; lia). exact G.
Qed.
Print Assumptions c98_allowances_exact.

(** ** Where the tokens are ledgers *)
Definition plain (l : list val) : Prop := l = [] \/ exists v, l = [Word v].
Lemma plain_flag {S E} (m : M S E bool) s l s' : flag m s = (Ok l, s') -> plain l.
Proof. unfold flag. mred. destruct (m s) as [[b|e|] t]; intros K; try discriminate K. injection K as <- _. right. eauto. Qed.
Lemma plain_nothing {S E} (m : M S E unit) s l s' : nothing m s = (Ok l, s') -> plain l.
Proof. unfold nothing. mred. destruct (m s) as [[b|e|] t]; intros K; try discriminate K. injection K as <- _. left. reflexivity. Qed.
Lemma plain_gets {S E} (f : S -> Z) s l s' : gets (E := E) (fun t => [Word (f t)]) s = (Ok l, s') -> plain l.
Proof. unfold gets. intros K. injection K as <- _. right. eauto. Qed.
Lemma coin_plain ty f args c s l s' : body_of (code Coin) ty f args c s = (Ok l, s') -> plain l.
Proof.
  unfold Coin, erc20_bodies. cbn [code app body_of].
  repeat match goal with |- context [if ?b then _ else _] => destruct b end; unfold do_ww, do_www, read1, read_w, read_ww; intros K.
  all: repeat match type of K with context [match ?a with _ => _ end] => is_var a; destruct a end.
  all: try discriminate K.
  all: first [exact (plain_nothing _ _ _ _ K) | exact (plain_flag _ _ _ _ K) | exact (plain_gets _ _ _ _ K)].
Qed.
Transparent pay_data draw_data allow_data query_data.
Section coins.
  Context (this : Z) (is_coin : Z -> bool) (Hthis : is_address this).
  Local Notation call := (coins_call this is_coin).
  Lemma coin_bytes : answers_bytes call.
  Proof.
    intros t d w out w' E. unfold coins_call in E. destruct (is_coin t); [|injection E as <- _; apply List.Forall_nil].
    destruct (entry Coin this 0 d (w t)) as [[o|o] u] eqn:Ee; [|discriminate E]. injection E as <- _.
    assert (K : fst (entry Coin this 0 d (w t)) = Returned o) by (rewrite Ee; reflexivity). clear Ee.
    unfold entry in K. destruct (length d <? 4)%nat; [discriminate K|]. destruct (find_fn _ _) as [[ty f]|]; [|discriminate K].
    destruct (negb _); [discriminate K|]. destruct (decode_params _ _) as [args|]; [|discriminate K].
    unfold finish in K. destruct (body_of _ _ _ _ _ _) as [[l|e|] s'] eqn:Eb; try discriminate K. injection K as <-.
    destruct (coin_plain _ _ _ _ _ _ _ Eb) as [->|[v ->]]; [apply (abi_words_bytes [])|apply (abi_words_bytes [v])].
  Qed.
  Definition cfine (w : Z -> Erc20.state) (b : Z -> ledger) : Prop := forall t, is_coin t = true -> tfine (w t) (b t).
  (** An order to one of the tokens. *)
  Definition plain_order (o : order) : Prop := match o with Issue _ _ => False | _ => order_fits o end.
  Lemma coin_asked w b t o : cfine w b -> plain_order o ->
    match decide (deal this is_coin t o b) tt with
    | Yes _ => exists w', asked is_coin call t (order_data o) w = (true, w') /\ cfine w' (dealt this t o b)
    | No _ => asked is_coin call t (order_data o) w = (false, w)
    end.
  Proof.
    intros F Ho. unfold deal. cbn [decide]. unfold asked, coins_call. destruct (is_coin t) eqn:Et; cbn [negb]; [|reflexivity].
    assert (Ho' : order_fits o) by (destruct o; [exact Ho..|contradiction]).
    rewrite (coin_order this o (w t) Ho'). pose proof (order_meets (w t) (b t) this o (F t Et) Hthis Ho') as K. unfold meets in K.
    unfold Erc20.step, tx, answer_of. cbn [fst snd].
    destruct (decide (order_checks this o (b t)) tt) as [[]|[why|]].
    - destruct K as (u & -> & Fu). cbn [fst snd]. assert (Er : order_result o = word 1) by (destruct o; [reflexivity..|contradiction]). rewrite Er.
      eexists. split; [reflexivity|]. intros a Ha. unfold dealt, put. destruct (Z.eqb_spec a t) as [->|]; [exact Fu|exact (F a Ha)].
    - destruct K as (e & u & -> & _). reflexivity.
    - destruct K as (u & ->). reflexivity.
  Qed.
  Lemma coin_once w b t o : cfine w b -> plain_order o ->
    match decide (deal this is_coin t o b) (dealt this t o b) with
    | Yes b' => exists w', once is_coin call t (order_data o) w = Yes w' /\ cfine w' b'
    | No why => why = Some (SafeErc20FailedOperation t) /\ once is_coin call t (order_data o) w = No why
    end.
  Proof.
    intros F Ho. pose proof (coin_asked w b t o F Ho) as K. unfold once. rewrite decide_tt. revert K. unfold deal. cbn [decide].
    destruct (negb (is_coin t)); [intros ->; split; reflexivity|]. destruct (decide (order_checks this o (b t)) tt) as [[]|r].
    - intros (w' & -> & F'). eauto.
    - intros ->. split; reflexivity.
  Qed.
  Lemma coin_approval w b t a v : cfine w b -> is_address a -> is_u256 v ->
    match decide (deal this is_coin t (Allow a v) b) (dealt this t (Allow a v) b) with
    | Yes b' => exists w', approval is_coin call t a v w = Yes w' /\ cfine w' b'
    | No why => why = Some (SafeErc20FailedOperation t) /\ approval is_coin call t a v w = No why
    end.
  Proof.
    intros F Ha Hv. pose proof (coin_asked w b t (Allow a v) F (conj Ha Hv)) as K.
    pose proof (coin_asked w b t (Allow a 0) F (conj Ha zero_fits)) as K0.
    unfold approval. change (allow_data a v) with (order_data (Allow a v)). change (allow_data a 0) with (order_data (Allow a 0)).
    rewrite decide_tt. revert K K0. unfold deal. cbn [decide order_checks].
    destruct (negb (is_coin t)); [intros -> ->; split; reflexivity|].
    destruct (decide (may_approve this a) tt) as [[]|r].
    - intros (w' & -> & F') _. eauto.
    - intros -> ->. split; reflexivity.
  Qed.
  Lemma coin_current w b t a : cfine w b -> is_address a ->
    current this is_coin call t a w = if is_coin t then Some (l_allowance (b t) this a, fun x => if x =? t then w t else w x) else None.
  Proof.
    intros F Ha. unfold current, coins_call. destruct (is_coin t) eqn:Et; [|reflexivity].
    unfold query_data. rewrite (coin_allowance this (w t) this a Hthis Ha). cbv beta iota zeta. unfold first_number.
    destruct (F t Et) as (HI & (_ & _ & K3) & _). rewrite (K3 this a Hthis Ha).
    assert (L : length (word (Erc20.allowance (w t) this a)) = 32%nat) by apply be_bytes_length.
    rewrite <- L, firstn_all, SolAbi_lemmas.of_be_word by (apply allowance_fits, HI). reflexivity.
  Qed.
  Lemma coin_comes w b r : cfine w b -> wish_fits r ->
    match on_ledgers this is_coin r b with
    | Yes b' => exists w', comes_of this is_coin call r w = Yes w' /\ cfine w' b'
    | No why => comes_of this is_coin call r w = No why
    end.
  Proof.
    intros F. destruct r as [t a v|t f a v|t a v|t a v|t a v]; cbn [wish_fits on_ledgers comes_of]; intros Hr.
    - change (pay_data a v) with (order_data (Pay a v)). pose proof (coin_once w b t (Pay a v) F (proj2 Hr)) as K.
      destruct (decide _ _) as [b'|why]; [exact K|exact (proj2 K)].
    - change (draw_data f a v) with (order_data (Draw f a v)). pose proof (coin_once w b t (Draw f a v) F (proj2 Hr)) as K.
      destruct (decide _ _) as [b'|why]; [exact K|exact (proj2 K)].
    - destruct Hr as (Ht & Ha & Hv). rewrite (coin_current w b t a F Ha). cbv zeta. cbn [decide]. destruct (is_coin t) eqn:Et; cbn [negb]; [|reflexivity].
      set (n := l_allowance (b t) this a). set (w1 := fun x => if x =? t then w t else w x).
      assert (F1 : cfine w1 b) by (intros y Hy; unfold w1; destruct (Z.eqb_spec y t) as [->|]; [exact (F t Et)|exact (F y Hy)]).
      assert (Hn : is_u256 n) by (destruct (F t Et) as (_ & _ & (_ & _ & F3')); apply F3').
      destruct (Z.leb_spec two256 (n + v)) as [L|L].
      + replace (n + v <? two256) with false by (clear - L; lia). reflexivity.
      + replace (n + v <? two256) with true by (clear - L; lia).
        assert (Hs : is_u256 (n + v)) by (clear - L Hn Hv; unfold is_u256 in *; lia).
        pose proof (coin_approval w1 b t a (n + v) F1 Ha Hs) as K. destruct (decide _ _) as [b'|why]; [exact K|exact (proj2 K)].
    - destruct Hr as (Ht & Ha & Hv). rewrite (coin_current w b t a F Ha). cbv zeta. cbn [decide]. destruct (is_coin t) eqn:Et; cbn [negb]; [|reflexivity].
      set (n := l_allowance (b t) this a). set (w1 := fun x => if x =? t then w t else w x).
      assert (F1 : cfine w1 b) by (intros y Hy; unfold w1; destruct (Z.eqb_spec y t) as [->|]; [exact (F t Et)|exact (F y Hy)]).
      assert (Hn : is_u256 n) by (destruct (F t Et) as (_ & _ & (_ & _ & F3')); apply F3').
      destruct (n <? v) eqn:L; [reflexivity|].
      assert (Hs : is_u256 (n - v)) by (clear - L Hn Hv; unfold is_u256 in *; lia).
      pose proof (coin_approval w1 b t a (n - v) F1 Ha Hs) as K. destruct (decide _ _) as [b'|why]; [exact K|exact (proj2 K)].
    - destruct Hr as (Ht & Ha & Hv). pose proof (coin_approval w b t a v F Ha Hv) as K. destruct (decide _ _) as [b'|why]; [exact K|exact (proj2 K)].
  Qed.
End coins.
(** Among tokens that are ledgers, each at its address: what each function of the example does
    to the books of all of them. Nothing but the named token's books moves, only on account of
    the contract itself, and a refusal by the token is the documented error. *)
Theorem c98_over_ledgers :
  forall this is_coin c r w b, is_address this -> wish_fits r ->
  (forall t, is_coin t = true -> Erc20_inv.Inv (w t) /\ ledger_fits (b t) /\ EntryAccess_spec.shows_ledger (entry Coin) (w t) (b t)) ->
  match on_ledgers this is_coin r b with
  | Yes b' => exists w', entry (ExampleSafe this is_coin (coins_call this is_coin)) c 0 (wish_data r) w = (Returned [], w') /\
      (forall t, is_coin t = true -> Erc20_inv.Inv (w' t) /\ ledger_fits (b' t) /\ EntryAccess_spec.shows_ledger (entry Coin) (w' t) (b' t))
  | No (Some why) => exists d, entry (ExampleSafe this is_coin (coins_call this is_coin)) c 0 (wish_data r) w = (Reverted d, w) /\ decode_reason d = Some why
  | No None => entry (ExampleSafe this is_coin (coins_call this is_coin)) c 0 (wish_data r) w = (Reverted [], w)
  end.
Proof.
  intros this is_coin c r w b Hthis Hr Hw.
  assert (F : cfine is_coin w b).
  { intros t Ht. destruct (Hw t Ht) as (HI & Hf & Hs). exact (shown_ledger Coin (fun s => s) coin_supply coin_balance coin_allowance (w t) (b t) HI Hf Hs). }
  pose proof (coin_comes this is_coin Hthis w b r F Hr) as K.
  pose proof (c98_any_token _ this is_coin (coins_call this is_coin) c r w (coin_bytes this is_coin) Hr) as A.
  destruct (on_ledgers this is_coin r b) as [b'|why].
  - destruct K as (w' & E & F'). rewrite E in A. exists w'. split; [exact A|]. intros t Ht. destruct (F' t Ht) as (HI & Kp & Hf).
    split; [exact HI|]. split; [exact Hf|]. exact (ledger_shown Coin (fun s => s) coin_supply coin_balance coin_allowance (w' t) (b' t) Kp).
  - rewrite K in A. destruct why; exact A.
Qed.
Print Assumptions c98_over_ledgers.

(** A token in the style of USDT, by bytes: answers nothing, and refuses to change an allowance
    that is not zero to another that is not zero. The world is the allowance. *)
Definition stubborn (target : Z) (data : list Z) (al : Z) : option (list Z * Z) :=
  let v := of_be (skipn 36 data) in
  if of_be (firstn 4 data) =? 0x095ea7b3 then if negb (v =? 0) && negb (al =? 0) then None else Some ([], v)
  else if of_be (firstn 4 data) =? 0xdd62ed3e then Some (word al, al)
  else None.
Lemma data_head sig l : k_fits sig = true -> of_be (firstn 4 (calldata sig l)) = k sig.
Proof.
  intros Hk. unfold k_fits in Hk. apply andb_true_iff in Hk. destruct Hk as [Hk H2]. apply andb_true_iff in Hk. destruct Hk as [Hk H1].
  unfold calldata. rewrite (k_ok _ Hk), SolAbi_lemmas.take_app by apply be_bytes_length.
  rewrite of_be_be_bytes. apply Z.mod_small. change (256 ^ Z.of_nat 4) with (2 ^ 32). lia.
Qed.
Lemma stubborn_allow t sp v al : is_u256 v -> stubborn t (allow_data sp v) al = if negb (v =? 0) && negb (al =? 0) then None else Some ([], v).
Proof.
  intros Hv. unfold stubborn, allow_data. rewrite data_head by (vm_compute; reflexivity).
  replace (k "approve(address,uint256)" =? 0x095ea7b3) with true by (vm_compute; reflexivity).
  replace (of_be (skipn 36 (calldata "approve(address,uint256)" [Word sp; Word v]))) with v; [reflexivity|].
  unfold calldata. change [Word sp; Word v] with (map Word [sp; v]). rewrite SolAbi_lemmas.abi_static. unfold SolAbi_lemmas.words. cbn [flat_map].
  rewrite app_assoc, app_nil_r. rewrite SolAbi_lemmas.drop_app by (rewrite app_length, be_bytes_length, word_length; reflexivity).
  symmetry. apply SolAbi_lemmas.of_be_word, Hv.
Qed.
Lemma stubborn_query t o sp al : stubborn t (query_data o sp) al = Some (word al, al).
Proof.
  unfold stubborn, query_data. rewrite data_head by (vm_compute; reflexivity).
  replace (k "allowance(address,address)" =? 0x095ea7b3) with false by (vm_compute; reflexivity).
  replace (k "allowance(address,address)" =? 0xdd62ed3e) with true by (vm_compute; reflexivity). reflexivity.
Qed.
Theorem c98_stubborn_token_approves :
  forall this token sp, answers_bytes stubborn /\ approves this (fun a => a =? token) stubborn token sp is_u256 (fun al => al).
Proof.
  intros this token sp. split.
  { intros t d w out w' E. unfold stubborn in E. destruct (_ =? 0x095ea7b3).
    - destruct (_ && _); [discriminate E|]. injection E as <- _. apply List.Forall_nil.
    - destruct (_ =? 0xdd62ed3e); [|discriminate E]. injection E as <- _. apply be_bytes_byte. }
  split.
  - apply Z.eqb_refl.
  - auto.
  - intros w _. apply stubborn_query.
  - intros v w out w' _ Hv. rewrite (stubborn_allow token sp v w Hv). destruct (_ && _); [discriminate|]. intros E. injection E as _ <-. exact Hv.
  - intros v w w' _ Hv. unfold asked. rewrite Z.eqb_refl, (stubborn_allow token sp v w Hv). destruct (_ && _); [discriminate|]. intros E. injection E as <-. reflexivity.
  - intros w _. unfold asked. rewrite Z.eqb_refl, (stubborn_allow token sp 0 w zero_fits). reflexivity.
  - intros v w _ Hv ->. unfold asked. rewrite Z.eqb_refl, (stubborn_allow token sp v 0 Hv), andb_false_r. reflexivity.
Qed.
Print Assumptions c98_stubborn_token_approves.

(** With that token at 5: an allowance of 4 becomes 7 and then 2, by way of zero; transfers
    fail; and there is no token at 6. With a ledger at 5 that knows the contract 7 for its
    holder of 10: 3 of them are sent, 11 are not. *)
Definition ten : Erc20.state := snd (Erc20.exec 0 (order_op (Issue 7 10)) Erc20.init).
Definition ten_book : ledger := order_effect 0 (Issue 7 10) new_ledger.
Lemma ten_good : tfine ten ten_book.
Proof.
  assert (F : tfine Erc20.init new_ledger) by exact (conj Erc20_inv.inv_init keeps_init).
  assert (A0 : is_address 0) by (split; [lia|reflexivity]).
  assert (Ho : order_fits (Issue 7 10)) by (split; (split; [discriminate|reflexivity])).
  destruct (order_meets Erc20.init new_ledger 0 (Issue 7 10) F A0 Ho) as (u & E & Fu). unfold ten. rewrite E. exact Fu.
Qed.
Lemma fits a b v : (0 <= a < 1000) -> (0 <= b < 1000) -> (0 <= v < 1000) -> is_address a /\ is_address b /\ is_u256 v.
Proof. unfold is_address, is_u256, two256. intros. repeat split; lia. Qed.
Example c98_nonvacuous :
  let call r := entry (ExampleSafe 7 (fun a => a =? 5) stubborn) 33 0 (wish_data r) in
  let coin r := entry (ExampleSafe 7 (fun a => a =? 5) (coins_call 7 (fun a => a =? 5))) 33 0 (wish_data r) (fun _ => ten) in
  call (Raise 5 9 3) 4 = (Returned [], 7) /\ call (Lower 5 9 2) 4 = (Returned [], 2) /\ call (Force 5 9 8) 4 = (Returned [], 8) /\
  (exists d, call (Lower 5 9 5) 4 = (Reverted d, 4) /\ decode_reason d = Some (SafeErc20FailedDecreaseAllowance 9 4 5)) /\
  (exists d, call (Force 6 9 5) 4 = (Reverted d, 4) /\ decode_reason d = Some (SafeErc20FailedOperation 6)) /\
  (exists w, coin (Send 5 8 3) = (Returned [], w) /\
     entry Coin 1 0 (calldata "balanceOf(address)" [Word 8]) (w 5) = (Returned (word 3), w 5) /\
     entry Coin 1 0 (calldata "balanceOf(address)" [Word 7]) (w 5) = (Returned (word 7), w 5)) /\
  (exists d, coin (Send 5 8 11) = (Reverted d, fun _ => ten) /\ decode_reason d = Some (SafeErc20FailedOperation 5)).
Proof.
  intros call coin. destruct (c98_stubborn_token_approves 7 5 9) as [Hb Ha].
  assert (A : is_address 5 /\ is_address 9) by (destruct (fits 5 9 0); [lia..|tauto]).
  assert (V : forall v, 0 <= v < 1000 -> is_u256 v) by (intros v Hv; unfold is_u256, two256; lia).
  pose proof (fun v Hv => c98_allowances_exact Z 7 (fun a => a =? 5) stubborn 5 9 is_u256 (fun al => al) 33 v 4 Hb Ha (V 4 ltac:(lia)) (proj1 A) (proj2 A) (V v Hv)) as K.
  split; [|split; [|split; [|split; [|split; [|split]]]]].
  - destruct (proj1 (proj2 (K 3 ltac:(lia)))) as (w' & E & _ & En). rewrite En in E. exact E.
  - destruct (proj2 (proj2 (K 2 ltac:(lia)))) as (w' & E & _ & En). rewrite En in E. exact E.
  - destruct (proj1 (K 8 ltac:(lia))) as (w' & E & _ & En). rewrite En in E. exact E.
  - exact (proj2 (proj2 (K 5 ltac:(lia)))).
  - exact (c98_any_token Z 7 (fun a => a =? 5) stubborn 33 (Force 6 9 5) 4 Hb (fits 6 9 5 ltac:(lia) ltac:(lia) ltac:(lia))).
  - assert (S5 : wish_fits (Send 5 8 3)) by (apply fits; lia).
    assert (A7 : is_address 7) by (apply (fits 7 7 0); lia). assert (A8 : is_address 8) by (apply (fits 8 8 0); lia).
    pose proof (c98_over_ledgers 7 (fun a => a =? 5) 33 (Send 5 8 3) (fun _ => ten) (fun _ => ten_book) A7 S5) as G.
    assert (Hw : Erc20_inv.Inv ten /\ ledger_fits ten_book /\ EntryAccess_spec.shows_ledger (entry Coin) ten ten_book).
    { destruct ten_good as (HI & Kp & Hf). split; [exact HI|]. split; [exact Hf|]. exact (ledger_shown Coin (fun s => s) coin_supply coin_balance coin_allowance ten ten_book Kp). }
    specialize (G (fun _ _ => Hw)).
    assert (E : on_ledgers 7 (fun a => a =? 5) (Send 5 8 3) (fun _ => ten_book) = Yes (dealt 7 5 (Pay 8 3) (fun _ => ten_book))) by reflexivity.
    rewrite E in G. destruct G as (w & Ew & Fw). exists w. split; [exact Ew|]. destruct (Fw 5 eq_refl) as (_ & _ & (_ & Q & _)).
    split; [exact (Q 8 A8 1)|exact (Q 7 A7 1)].
  - assert (S5 : wish_fits (Send 5 8 11)) by (apply fits; lia).
    assert (A7 : is_address 7) by (apply (fits 7 7 0); lia).
    pose proof (c98_over_ledgers 7 (fun a => a =? 5) 33 (Send 5 8 11) (fun _ => ten) (fun _ => ten_book) A7 S5) as G.
    assert (Hw : Erc20_inv.Inv ten /\ ledger_fits ten_book /\ EntryAccess_spec.shows_ledger (entry Coin) ten ten_book).
    { destruct ten_good as (HI & Kp & Hf). split; [exact HI|]. split; [exact Hf|]. exact (ledger_shown Coin (fun s => s) coin_supply coin_balance coin_allowance ten ten_book Kp). }
    exact (G (fun _ _ => Hw)).
Qed.
