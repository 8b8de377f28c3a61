(** C85: bytes in, bytes out. *)
From Verif.Base Require Import Prelude Bytes Keccak Maps.
From Coq Require Import String List.
From Verif.Model Require Import Introspection Router Entry EntryErc20.
From Verif.Model Require SolAbi Erc20 Pausable Erc20Example.
From Verif.Spec Require Import Router_spec SolAbi_spec LogMeaning_spec Errors_spec Entry_spec.
From Verif.Spec Require Erc20_spec Introspection_spec.
From Verif.Proofs Require Import Router_lemmas Entry_lemmas.
From Verif.Proofs Require SolAbi_lemmas Erc20_inv Erc20_api.
From Verif.Props Require Import SolAbi_props.
From Verif.Props Require Errors_props Erc20Example_props Introspection_props.
From Verif.Model Require SafeErc20 Erc20World.
Import SolAbi.
#[global] Open Scope Z_scope.
Local Open Scope list_scope.
Local Open Scope Z_scope.
Opaque keccak256.

(** ** Arguments: exactly the encodings of values of the types are accepted *)
Theorem c85_decoder_accepts_exactly_encodings :
  forall ts d l, List.Forall is_byte d -> size d < two256 ->
  (decode_params ts d = Some l <-> List.Forall2 has_type ts l /\ d = abi_params l).
Proof. exact decode_params_iff. Qed.
Print Assumptions c85_decoder_accepts_exactly_encodings.

(** ** examples/erc20 *)
Definition op_of (r : request) : Erc20Example.op :=
  match r with
  | Transfer t v => Erc20Example.OTransfer t v
  | Approve sp v => Erc20Example.OApprove sp v
  | TransferFrom f t v => Erc20Example.OTransferFrom f t v
  | Mint a v => Erc20Example.OMint a v
  | Burn v => Erc20Example.OBurn v
  | BurnFrom a v => Erc20Example.OBurnFrom a v
  | Pause => Erc20Example.OPause
  | Unpause => Erc20Example.OUnpause
  end.
Definition returning (r : request) : list val :=
  match r with Transfer _ _ | Approve _ _ | TransferFrom _ _ _ => [Word 1] | _ => [] end.

Section erc20_example.
  Context (name symbol : list Z).
  Local Notation C := (Example20 name symbol).
  Lemma known20 : all_known (blocks C) = true.
  Proof. vm_compute. reflexivity. Qed.
  Definition exposed20 := Eval vm_compute in exposed Pub.Erc20Example.
  Lemma exposed20_ok : exposed (blocks C) = exposed20.
  Proof. vm_compute. reflexivity. Qed.

  Lemma tx_finish {A} (m : M Erc20Example.state Erc20Example.error A) (g : A -> list val) s l :
    (forall a, fst (m s) = Ok a -> g a = l) ->
    finish C ((a <~ m ;; ret (g a)) s) s =
    (match fst (tx (m ;;; ret tt) s) with Ok _ => Returned (abi_params l) | Err e => Reverted (revert_erc20_example e) | Panic => Reverted [] end,
     snd (tx (m ;;; ret tt) s)).
  Proof.
    intros H. unfold tx. mred. destruct (m s) as [[a|e|] s'] eqn:E; cbn [finish fst snd]; try reflexivity.
    cbn [fst] in H. rewrite (H a eq_refl). reflexivity.
  Qed.

  Lemma call_request sig l c s t f :
    k_fits sig = true -> find_fn_k Pub.Erc20Example (k sig) = Some (t, f) ->
    List.Forall2 has_type (arg_types f) (map Word l) -> size l < 10 ->
    entry C c 0 (calldata sig (map Word l)) s = finish C (body_of (code C) t (rust_name f) (map Word l) c s) s.
  Proof.
    intros H1 H2 H3 H4. apply entry_calldata; auto using known20, abi_words_bytes.
    rewrite abi_words_size. transitivity 320; [lia|reflexivity].
  Qed.
  Ltac types := repeat (apply List.Forall2_cons || apply List.Forall2_nil); cbn [has_type word_of_type]; tauto.
  Ltac call sg l t f := refine (eq_trans (call_request sg l _ _ t f _ _ _ _) _); [vm_compute; reflexivity|vm_compute; reflexivity|types|reflexivity|].

  Lemma flag_true {S E} (m : M S E unit) s b : fst ((m ;;; ret true) s) = Ok b -> b = true.
  Proof. mred. destruct (m s) as [[[]|e|] s']; cbn; congruence. Qed.
  Lemma entry_request c r s : request_fits r ->
    entry C c 0 (request_data r) s =
    (match fst (tx (Erc20Example.exec c (op_of r)) s) with
     | Ok _ => Returned (request_result r)
     | Err e => Reverted (revert_erc20_example e)
     | Panic => Reverted []
     end, Erc20Example.step s (c, op_of r)).
  Proof.
    assert (U : forall m : M Erc20Example.state Erc20Example.error unit, tx (m ;;; ret tt) s = tx m s).
    { intros m. unfold tx. mred. destruct (m s) as [[[]|e|] s']; reflexivity. }
    assert (N : forall (m : M Erc20Example.state Erc20Example.error unit), finish C (nothing m s) s =
      (match fst (tx m s) with Ok _ => Returned [] | Err e => Reverted (revert_erc20_example e) | Panic => Reverted [] end, snd (tx m s))).
    { intros m. unfold nothing. rewrite (tx_finish m (fun _ => []) s [] (fun _ _ => eq_refl)), U. reflexivity. }
    assert (F : forall (m : M Erc20Example.state Erc20Example.error bool), (forall b, fst (m s) = Ok b -> b = true) -> finish C (flag m s) s =
      (match fst (tx (m ;;; ret tt) s) with Ok _ => Returned (word 1) | Err e => Reverted (revert_erc20_example e) | Panic => Reverted [] end,
       snd (tx (m ;;; ret tt) s))).
    { intros m Hm. unfold flag. rewrite (tx_finish m (fun b => [Word (of_bool b)]) s [Word 1]).
      - change (abi_params [Word 1]) with (word 1 ++ [] ++ []). rewrite !app_nil_r. reflexivity.
      - intros b Hb. rewrite (Hm b Hb). reflexivity. }
    intros Hr. destruct r as [a v|a v|a b v|a v|v|a v| |]; cbn [request_fits] in Hr; unfold request_data, Erc20Example.step; cbn [op_of fst snd request_result Erc20Example.exec].
    - change [Word a; Word v] with (map Word [a; v]). call "transfer(address,uint256)"%string [a; v] "Erc20Example"%string (fn "transfer" [Address; U256]).
      refine (F (Erc20Example.transfer c a v) _). intros b Hb.
      unfold Erc20Example.transfer, Erc20Example.when_not_paused, Erc20Example.on_pausable, Erc20Example.on_erc20, Pausable.when_not_paused, Erc20.transfer in Hb.
      revert Hb. mred. destruct (Pausable.paused _); [discriminate|]. cbn. destruct (Erc20._transfer _ _ _ _) as [[[]|e|] s']; cbn; congruence.
    - change [Word a; Word v] with (map Word [a; v]). call "approve(address,uint256)"%string [a; v] "Erc20"%string (fn "approve" [Address; U256]).
      refine (F (Erc20Example.approve c a v) _). intros b Hb.
      unfold Erc20Example.approve, Erc20Example.on_erc20, Erc20.approve, Erc20._approve in Hb.
      revert Hb. mred. destruct (c =? 0); [discriminate|]. destruct (a =? 0); [discriminate|]. cbn. congruence.
    - change [Word a; Word b; Word v] with (map Word [a; b; v]). call "transferFrom(address,address,uint256)"%string [a; b; v] "Erc20Example"%string (fn "transfer_from" [Address; Address; U256]).
      refine (F (Erc20Example.transfer_from c a b v) _). intros x Hb.
      unfold Erc20Example.transfer_from, Erc20Example.when_not_paused, Erc20Example.on_pausable, Erc20Example.on_erc20, Pausable.when_not_paused, Erc20.transfer_from in Hb.
      revert Hb. mred. destruct (Pausable.paused _); [discriminate|]. cbn [fst snd].
      destruct (Erc20._spend_allowance a c v _) as [[[]|e|] s']; cbn [fst snd]; try congruence.
      destruct (Erc20._transfer a b v _) as [[[]|e|] s1]; cbn; congruence.
    - change [Word a; Word v] with (map Word [a; v]). call "mint(address,uint256)"%string [a; v] "Erc20Example"%string (fn "mint" [Address; U256]).
      exact (N (Erc20Example.mint a v)).
    - change [Word v] with (map Word [v]). call "burn(uint256)"%string [v] "Erc20Example"%string (fn "burn" [U256]).
      exact (N (Erc20Example.burn c v)).
    - change [Word a; Word v] with (map Word [a; v]). call "burnFrom(address,uint256)"%string [a; v] "Erc20Example"%string (fn "burn_from" [Address; U256]).
      exact (N (Erc20Example.burn_from c a v)).
    - change (@nil val) with (map Word []). call "pause()"%string (@nil Z) "Erc20Example"%string (fn "pause" []).
      exact (N (Erc20Example.pause c)).
    - change (@nil val) with (map Word []). call "unpause()"%string (@nil Z) "Erc20Example"%string (fn "unpause" []).
      exact (N (Erc20Example.unpause c)).
  Qed.

  (** A call changes nothing or is one of the requests, to the letter. *)
  Lemma any_call c v d s : List.Forall is_byte d -> size d < two256 ->
    snd (entry C c v d s) = s \/ exists r, v = 0 /\ d = request_data r /\ request_fits r.
  Proof.
    intros Hb Hsz. destruct (entry_cases C c v d s known20 Hb Hsz) as [->|(t & f & args & Hin & -> & Ht & Hd & He)]; [left; reflexivity|].
    rewrite exposed20_ok in Hin. unfold exposed20 in Hin. rewrite He. clear He Hb Hsz.
    repeat (destruct Hin as [Hin|Hin];
      [injection Hin as <- <-; cbn [arg_types] in Ht;
       repeat match goal with
       | H : List.Forall2 _ (_ :: _) _ |- _ => inversion H; subst; clear H
       | H : List.Forall2 _ [] _ |- _ => inversion H; subst; clear H
       | H : has_type _ ?y |- _ => destruct y; cbn [has_type word_of_type] in H;
           [|exfalso; first [destruct H as (? & H & _); discriminate H | destruct H as [[H|H] _]; discriminate H]..]
       end|]); [..|destruct Hin].
    all: try (left; reflexivity).
    all: right.
    Ltac req r := exists r; split; [reflexivity|]; split; [reflexivity|cbn [request_fits]; auto].
    all: match goal with |- context [fn_sig ?f] => let x := eval vm_compute in (fn_sig f) in change (fn_sig f) with x end.
    all: match goal with
      | |- context [calldata "transfer(address,uint256)" [Word ?a; Word ?v]] => req (Transfer a v)
      | |- context [calldata "approve(address,uint256)" [Word ?a; Word ?v]] => req (Approve a v)
      | |- context [calldata "transferFrom(address,address,uint256)" [Word ?a; Word ?b; Word ?v]] => req (TransferFrom a b v)
      | |- context [calldata "mint(address,uint256)" [Word ?a; Word ?v]] => req (Mint a v)
      | |- context [calldata "burn(uint256)" [Word ?v]] => req (Burn v)
      | |- context [calldata "burnFrom(address,uint256)" [Word ?a; Word ?v]] => req (BurnFrom a v)
      | |- context [calldata "pause()" []] => req Pause
      | |- context [calldata "unpause()" []] => req Unpause
      end.
  Qed.

  (** *** States that calls lead to *)
  Record Good (s : Erc20Example.state) : Prop := mkGood {
    g_inv : Erc20_inv.Inv (Erc20Example.erc20 s);
    g_cap : is_u256 (Erc20Example.cap s)
  }.
  Lemma op_of_wf r : request_fits r -> is_u256 (Erc20Example.op_value (op_of r)).
  Proof. destruct r; cbn; try tauto; intros; unfold is_u256; (split; [lia|reflexivity]). Qed.
  Lemma good_step s c r : Good s -> request_fits r -> Good (Erc20Example.step s (c, op_of r)).
  Proof.
    intros [HI Hc] Hr.
    destruct (Erc20Example_props.ex_step_cases s c (op_of r)) as [->|[(t & Et & _ & _ & _ & _ & ->)|[(_ & _ & ->)|(_ & _ & ->)]]];
      try (split; assumption).
    split; [|exact Hc]. cbn [Erc20Example.erc20]. apply Erc20_inv.inv_step; [exact HI|]. cbn [snd].
    pose proof (op_of_wf r Hr) as W. destruct r; cbn in Et; inversion Et; subst; exact W.
  Qed.
  Lemma good_raw h : sane h -> forall s, Good s -> Good (raw_run C h s).
  Proof.
    induction h as [|[[c v] d] h IH]; intros Hh s Hs; [exact Hs|]. inversion Hh as [|? ? [Hb Hsz] Hh']; subst. cbn [snd] in *.
    cbn [raw_run fold_left]. apply (IH Hh'). cbn [raw_step].
    destruct (any_call c v d s Hb Hsz) as [->|(r & -> & -> & Hr)]; [exact Hs|].
    rewrite (entry_request c r s Hr). apply good_step; assumption.
  Qed.
  Lemma good_init k : is_u256 k -> Good (Erc20Example.init k).
  Proof. intros H. split; [apply Erc20_inv.inv_init|exact H]. Qed.
  Lemma good_balance s a : Good s -> is_u256 (Erc20.balance_of (Erc20Example.erc20 s) a).
  Proof.
    intros [HI _]. pose proof (Erc20_inv.bal_nonneg _ HI a). pose proof (Erc20_inv.bal_le_supply _ HI a). pose proof (Erc20_inv.inv_max _ HI).
    unfold is_u256. lia.
  Qed.
  Lemma good_supply s : Good s -> is_u256 (Erc20.total_supply (Erc20Example.erc20 s)).
  Proof. intros [HI _]. pose proof (Erc20_inv.supply_nonneg _ HI). pose proof (Erc20_inv.inv_max _ HI). unfold is_u256, Erc20.total_supply. lia. Qed.

  (** *** What the getters say is what the ledger of the model holds *)
  Definition agree (s : Erc20Example.state) (b : book) : Prop :=
    b_supply b = Erc20.total_supply (Erc20Example.erc20 s) /\
    (forall a, is_address a -> b_balance b a = Erc20.balance_of (Erc20Example.erc20 s) a) /\
    (forall o sp, is_address o -> is_address sp -> b_allowance b o sp = Erc20.allowance (Erc20Example.erc20 s) o sp) /\
    b_paused b = Pausable.paused (Erc20Example.pausable s) /\
    b_cap b = Erc20Example.cap s.
  Lemma one_word x : abi_params [Word x] = word x.
  Proof. change (abi_params [Word x]) with (word x ++ [] ++ []). rewrite !app_nil_r. reflexivity. Qed.
  Lemma ask_supply s c : entry C c 0 (calldata "totalSupply()" []) s = (Returned (word (Erc20.total_supply (Erc20Example.erc20 s))), s).
  Proof. change (@nil val) with (map Word []). call "totalSupply()"%string (@nil Z) "Erc20"%string (fn "total_supply" []). rewrite <- one_word. reflexivity. Qed.
  Lemma ask_balance s c a : is_address a ->
    entry C c 0 (calldata "balanceOf(address)" [Word a]) s = (Returned (word (Erc20.balance_of (Erc20Example.erc20 s) a)), s).
  Proof. intros H. change [Word a] with (map Word [a]). call "balanceOf(address)"%string [a] "Erc20"%string (fn "balance_of" [Address]). rewrite <- one_word. reflexivity. Qed.
  Lemma ask_allowance s c a b : is_address a -> is_address b ->
    entry C c 0 (calldata "allowance(address,address)" [Word a; Word b]) s = (Returned (word (Erc20.allowance (Erc20Example.erc20 s) a b)), s).
  Proof.
    intros H H'. change [Word a; Word b] with (map Word [a; b]). call "allowance(address,address)"%string [a; b] "Erc20"%string (fn "allowance" [Address; Address]).
    rewrite <- one_word. reflexivity.
  Qed.
  Lemma ask_paused s c : entry C c 0 (calldata "paused()" []) s = (Returned (word (of_bool (Pausable.paused (Erc20Example.pausable s)))), s).
  Proof. change (@nil val) with (map Word []). call "paused()"%string (@nil Z) "Pausable"%string (fn "paused" []). rewrite <- one_word. reflexivity. Qed.
  Lemma ask_cap s c : entry C c 0 (calldata "cap()" []) s = (Returned (word (Erc20Example.cap s)), s).
  Proof. change (@nil val) with (map Word []). call "cap()"%string (@nil Z) "Capped"%string (fn "cap" []). rewrite <- one_word. reflexivity. Qed.

  Lemma shows_agree s b : Good s -> book_fits b -> (shows (entry C) s b <-> agree s b).
  Proof.
    intros G (F1 & F2 & F3 & F4). unfold shows, agree, tells. split.
    - assert (W : forall x y (t : Erc20Example.state), is_u256 x -> is_u256 y -> (Returned (word x), t) = (Returned (word y), t) -> y = x).
      { intros x y t Hx Hy E. assert (E' : word x = word y) by congruence. symmetry. exact (word_inj _ _ Hx Hy E'). }
      intros (H1 & H2 & H3 & H4 & H5). split; [|split; [|split; [|split]]].
      + specialize (H1 0). rewrite (ask_supply s 0) in H1. apply W in H1; auto using good_supply.
      + intros a Ha. specialize (H2 a Ha 0). rewrite (ask_balance s 0 a Ha) in H2. apply W in H2; auto using good_balance.
      + intros o sp Ho Hsp. specialize (H3 o sp Ho Hsp 0). rewrite (ask_allowance s 0 o sp Ho Hsp) in H3.
        apply W in H3; auto. apply (Erc20_inv.inv_allow _ (g_inv _ G)).
      + specialize (H4 0). rewrite (ask_paused s 0) in H4. apply W in H4.
        * destruct (b_paused b), (Pausable.paused (Erc20Example.pausable s)); cbn [of_bool] in H4; congruence.
        * destruct (Pausable.paused _); split; try reflexivity; cbn; lia.
        * destruct (b_paused b); split; try reflexivity; cbn; lia.
      + specialize (H5 0). rewrite (ask_cap s 0) in H5. apply W in H5; auto. apply (g_cap _ G).
    - intros (H1 & H2 & H3 & H4 & H5). split; [|split; [|split; [|split]]].
      + intros c. rewrite (ask_supply s c), H1. reflexivity.
      + intros a Ha c. rewrite (ask_balance s c a Ha), (H2 a Ha). reflexivity.
      + intros o sp Ho Hsp c. rewrite (ask_allowance s c o sp Ho Hsp), (H3 o sp Ho Hsp). reflexivity.
      + intros c. rewrite (ask_paused s c), H4. reflexivity.
      + intros c. rewrite (ask_cap s c), H5. reflexivity.
  Qed.

  (** *** The verdict of the ideal token is the outcome of the code *)
  Definition granted (c : Z) (r : request) (b : book) : book :=
    match r with
    | Transfer to v => set_balances b (b_supply b) (moved (b_balance b) c to v)
    | Approve sp v => set_allowance b c sp v
    | TransferFrom f t v => set_balances (spent b f c v) (b_supply b) (moved (b_balance b) f t v)
    | Mint a v => set_balances b (b_supply b + v) (at_key (b_balance b) a (b_balance b a + v))
    | Burn v => set_balances b (b_supply b - v) (at_key (b_balance b) c (b_balance b c - v))
    | BurnFrom a v => set_balances (spent b a c v) (b_supply b - v) (at_key (b_balance b) a (b_balance b a - v))
    | Pause => set_paused b true
    | Unpause => set_paused b false
    end.
  Lemma outcome_ret {S E A} (m : M S E A) s : outcome (fst ((m ;;; ret tt) s)) = outcome (fst (m s)).
  Proof. mred. destruct (m s) as [[a|e|] s']; reflexivity. Qed.
  Lemma outcome_unit {E} (r : res E unit) : outcome r = r.
  Proof. destruct r as [[]|e|]; reflexivity. Qed.
  Ltac decide_all := cbn [first_failing judge running spending enough ex20_running erc20_move erc20_debit erc20_mint lift_checks map app fst snd];
    repeat match goal with
    | |- context [if ?x then _ else _] => destruct x eqn:?; cbn [first_failing judge app map lift_checks fst snd]
    end; try reflexivity; try lia.
  Lemma verdict_ok s b c r : Good s -> agree s b -> is_address c -> request_fits r ->
    ideal c r b =
    match outcome (fst (Erc20Example.exec c (op_of r) s)) with
    | Ok _ => Granted (granted c r b)
    | Err e => Denied (Some (reason_erc20_example e))
    | Panic => Denied None
    end.
  Proof.
    intros G (A1 & A2 & A3 & A4 & A5) Hc Hr.
    destruct r as [a v|a v|a d v|a v|v|a v| |]; cbn [op_of Erc20Example.exec request_fits ideal granted] in *; rewrite ?outcome_ret;
      unfold running, enough, spending.
    - destruct (Errors_props.c84_erc20_example s c c a v) as (-> & _). rewrite A4, (A2 c Hc).
      unfold ex20_running, erc20_move. decide_all.
    - unfold Erc20Example.approve, Erc20Example.on_erc20, Erc20.approve, Erc20._approve. mred. decide_all.
    - destruct (Errors_props.c84_erc20_example s c a d v) as (_ & -> & _). rewrite A4, (A2 a), (A3 a c) by tauto.
      unfold ex20_running, erc20_move, erc20_spending. decide_all.
    - destruct (Errors_props.c84_erc20_example s c c a v) as (_ & _ & _ & _ & -> & _). rewrite A4, A5, A1.
      unfold ex20_running, erc20_mint. decide_all.
    - destruct (Errors_props.c84_erc20_example s c c c v) as (_ & _ & -> & _). rewrite A4, (A2 c Hc).
      unfold ex20_running, erc20_debit. decide_all.
    - destruct (Errors_props.c84_erc20_example s c a a v) as (_ & _ & _ & -> & _). rewrite A4, (A2 a), (A3 a c) by tauto.
      unfold ex20_running, erc20_debit, erc20_spending. decide_all.
    - destruct (Errors_props.c84_erc20_example s c c c 0) as (_ & _ & _ & _ & _ & -> & _). rewrite A4.
      unfold ex20_running. decide_all.
    - destruct (Errors_props.c84_erc20_example s c c c 0) as (_ & _ & _ & _ & _ & _ & ->). rewrite A4. decide_all.
  Qed.

  Ltac fits := intros E; inversion E; subst; cbn [reason_erc20_example reason_erc20 reason_pausable numbers];
    repeat (apply List.Forall_cons; [first [solve [auto]|unfold is_u256 in *; lia]|]); apply List.Forall_nil.
  Lemma err_fits s c r e : Good s -> is_address c -> request_fits r ->
    outcome (fst (Erc20Example.exec c (op_of r) s)) = Err e -> reason_fits (reason_erc20_example e).
  Proof.
    intros G Hc Hr.
    pose proof (fun a => good_balance s a G) as Gb. pose proof (good_supply s G) as Gs. pose proof (g_cap s G) as Gc.
    pose proof (Erc20_inv.inv_allow _ (g_inv s G)) as Ga.
    assert (Z0 : is_u256 0) by (split; [lia|reflexivity]).
    assert (Ad : forall x, is_address x -> is_u256 x) by (unfold is_address, is_u256, two256; lia).
    assert (Hc' := Ad c Hc).
    unfold reason_fits.
    destruct r as [a v|a v|a d v|a v|v|a v| |]; cbn [op_of Erc20Example.exec request_fits] in *; rewrite ?outcome_ret.
    all: repeat match goal with H : _ /\ _ |- _ => destruct H end.
    all: repeat match goal with H : is_address ?x |- _ => lazymatch goal with K : is_u256 x |- _ => fail | _ => pose proof (Ad x H) end end.
    - destruct (Errors_props.c84_erc20_example s c c a v) as (-> & _).
      unfold ex20_running, erc20_move. decide_all; fits.
    - unfold Erc20Example.approve, Erc20Example.on_erc20, Erc20.approve, Erc20._approve. mred.
      decide_all; fits.
    - destruct (Errors_props.c84_erc20_example s c a d v) as (_ & -> & _).
      unfold ex20_running, erc20_move, erc20_spending. decide_all; fits.
    - destruct (Errors_props.c84_erc20_example s c c a v) as (_ & _ & _ & _ & -> & _).
      unfold ex20_running, erc20_mint. decide_all; fits.
    - destruct (Errors_props.c84_erc20_example s c c c v) as (_ & _ & -> & _).
      unfold ex20_running, erc20_debit. decide_all; fits.
    - destruct (Errors_props.c84_erc20_example s c a a v) as (_ & _ & _ & -> & _).
      unfold ex20_running, erc20_debit, erc20_spending. decide_all; fits.
    - destruct (Errors_props.c84_erc20_example s c c c 0) as (_ & _ & _ & _ & _ & -> & _).
      unfold ex20_running. decide_all; fits.
    - destruct (Errors_props.c84_erc20_example s c c c 0) as (_ & _ & _ & _ & _ & _ & ->).
      decide_all; fits.
  Qed.

  (** *** Effects *)
  Lemma ok_agree s b c r : Good s -> agree s b -> is_address c -> request_fits r ->
    outcome (fst (Erc20Example.exec c (op_of r) s)) = Ok tt -> agree (Erc20Example.step s (c, op_of r)) (granted c r b).
  Proof.
    intros G A Hc Hr Hok. pose proof A as (A1 & A2 & A3 & A4 & A5). pose proof (g_inv s G) as HI.
    pose proof (Erc20_inv.inv_zero _ HI) as Z0. pose proof (good_step s c r G Hr) as G'.
    unfold Erc20Example.step, tx in *. cbn [fst snd] in *.
    destruct (Erc20Example.exec c (op_of r) s) as [[u|e|] s'] eqn:E; cbn [outcome fst] in Hok; try discriminate. cbn [snd] in *. clear Hok.
    pose proof (Erc20_inv.inv_zero _ (g_inv _ G')) as Z1.
    destruct s as [t k [p l]]. cbn [Erc20Example.erc20 Erc20Example.cap Erc20Example.pausable Pausable.paused] in *.
    assert (Dr : forall A (m : M Erc20Example.state Erc20Example.error A) s0, (m ;;; ret tt) s0 = (Ok u, s') -> exists x, m s0 = (Ok x, s')).
    { intros A0 m s0. mred. destruct (m s0) as [[x|e|] s1]; cbn; intros K; inversion K; eauto. }
    assert (On : forall A (m : M Erc20.state Erc20.error A) x,
      Erc20Example.on_erc20 m (Erc20Example.mk t k (Pausable.mk p l)) = (Ok x, s') ->
      exists t', m t = (Ok x, t') /\ s' = Erc20Example.mk t' k (Pausable.mk p l)).
    { intros A0 m x. unfold Erc20Example.on_erc20. mred. cbn. destruct (m t) as [[y|e|] t']; cbn; intros K; inversion K; eauto. }
    assert (Cl : forall A (m : M Erc20Example.state Erc20Example.error A) x,
      (Erc20Example.when_not_paused ;;; m) (Erc20Example.mk t k (Pausable.mk p l)) = (Ok x, s') ->
      m (Erc20Example.mk t k (Pausable.mk p l)) = (Ok x, s')).
    { intros A0 m x. unfold Erc20Example.when_not_paused, Erc20Example.on_pausable, Pausable.when_not_paused. mred. destruct p; [discriminate|]. cbn. auto. }
    assert (Sp : forall f v t', (forall x y, is_address x -> is_address y -> (x, y) <> (f, c) -> Erc20.allowance t' x y = Erc20.allowance t x y) ->
      Erc20.allowance t' f c = Erc20_spec.allowance_after t f c v -> is_address f ->
      forall x y, is_address x -> is_address y -> b_allowance (spent b f c v) x y = Erc20.allowance t' x y).
    { intros f v t' K1 K2 Hf x y Hx Hy. unfold Erc20_spec.allowance_after in K2. unfold spent.
      rewrite <- (A3 f c Hf Hc) in K2. destruct (b_allowance b f c =? U256_MAX) eqn:Em.
      - destruct ((x =? f) && (y =? c)) eqn:D; [replace x with f by lia; replace y with c by lia; rewrite K2; lia|].
        rewrite K1; [apply A3; assumption|assumption..|]. intros K3. inversion K3. lia.
      - cbn [set_allowance b_allowance]. destruct ((x =? f) && (y =? c)) eqn:Ex.
        + replace x with f by lia. replace y with c by lia. symmetry. exact K2.
        + rewrite K1; [apply A3; assumption|assumption..|]. intros D. inversion D. lia. }
    assert (Mv : forall f d v t', is_address f -> is_address d -> f <> 0 -> d <> 0 -> Erc20_spec.balances_moved t t' f d v -> Erc20.balance_of t' 0 = 0 ->
      forall x, is_address x -> moved (b_balance b) f d v x = Erc20.balance_of t' x).
    { intros f d v t' Hf Hd Hf0 Hd0 K K0 x Hx. unfold moved, at_key. destruct (Z.eq_dec x 0) as [->|Hx0].
      - rewrite K0. replace (0 =? d) with false by lia. replace (0 =? f) with false by lia. rewrite (A2 0 Hx). exact Z0.
      - rewrite (K x Hx0). unfold Erc20_spec.delta. destruct (x =? d) eqn:X1, (x =? f) eqn:X2; try replace x with f by lia.
        + replace (d =? f) with true by lia. rewrite (A2 f Hf). lia.
        + replace (d =? f) with false by lia. replace x with d by lia. rewrite (A2 d Hd). lia.
        + rewrite (A2 f Hf). lia.
        + rewrite (A2 x Hx). lia. }
    assert (At : forall f y t', is_address f -> Erc20.balance_of t' f = y -> (forall x, x <> f -> Erc20.balance_of t' x = Erc20.balance_of t x) ->
      forall x, is_address x -> at_key (b_balance b) f y x = Erc20.balance_of t' x).
    { intros f y t' Hf K1 K2 x Hx. unfold at_key. destruct (x =? f) eqn:X; [replace x with f by lia; symmetry; exact K1|].
      rewrite K2 by lia. apply A2. exact Hx. }
    destruct r as [a v|a v|a d v|a v|v|a v| |]; cbn [op_of Erc20Example.exec request_fits granted] in *.
    - destruct (Dr _ _ _ E) as [x K]. apply Cl, On in K. destruct K as (t' & K & ->). destruct Hr as [Ha Hv].
      assert (x = true) as ->. { apply (flag_true (Erc20._transfer c a v) t). unfold Erc20.transfer in K. rewrite K. reflexivity. }
      destruct (Erc20_api.transfer_spec t c a v HI Hv) as (T1 & T2 & _). destruct (T2 _ K) as (B1 & B2 & B3 & _).
      rewrite K in T1. destruct (proj1 T1 eq_refl) as (N1 & N2 & _).
      split; [cbn; rewrite B3; exact A1|]. split; [|split; [|split; assumption]]; cbn [b_balance b_allowance set_balances Erc20Example.erc20].
      + apply (Mv c a v t' Hc Ha N1 N2 B1 Z1).
      + intros o sp Ho Hsp. rewrite (B2 o sp). apply A3; assumption.
    - destruct (Dr _ _ _ E) as [x K]. apply On in K. destruct K as (t' & K & ->). destruct Hr as [Ha Hv].
      destruct (Erc20_api.approve_spec t c a v) as (T1 & T2 & _).
      assert (x = true) as ->.
      { revert K. unfold Erc20.approve, Erc20._approve. mred. destruct (c =? 0); [discriminate|]. destruct (a =? 0); [discriminate|]. cbn. congruence. }
      destruct (T2 _ K) as (B1 & B2 & B3 & B4 & _).
      split; [cbn; rewrite B2; exact A1|]. split; [|split; [|split; assumption]]; cbn [b_balance b_allowance set_allowance Erc20Example.erc20].
      + intros x Hx. rewrite B1. apply A2, Hx.
      + intros x y Hx Hy. destruct ((x =? c) && (y =? a)) eqn:D.
        * replace x with c by lia. replace y with a by lia. symmetry. exact B3.
        * rewrite B4; [apply A3; assumption|]. intros K3. inversion K3. lia.
    - destruct (Dr _ _ _ E) as [x K]. apply Cl, On in K. destruct K as (t' & K & ->). destruct Hr as (Ha & Hd & Hv).
      destruct (Erc20_api.transfer_from_spec t c a d v HI Hv) as (T1 & T2 & _).
      assert (x = true) as ->.
      { revert K. unfold Erc20.transfer_from. mred. destruct (Erc20._spend_allowance a c v t) as [[[]|e|] t1]; cbn [fst snd]; try congruence.
        destruct (Erc20._transfer a d v t1) as [[[]|e|] t2]; cbn; congruence. }
      destruct (T2 _ K) as (B1 & B2 & B3 & B4 & _). rewrite K in T1. destruct (proj1 T1 eq_refl) as (N0 & N1 & N2 & _).
      assert (Eq : b_supply (spent b a c v) = b_supply b /\ b_paused (spent b a c v) = b_paused b /\ b_cap (spent b a c v) = b_cap b).
      { unfold spent. destruct (b_allowance b a c =? U256_MAX); auto. }
      destruct Eq as (_ & Q2 & Q3).
      split; [cbn; rewrite B4; exact A1|]. split; [|split; [|split; [cbn; rewrite Q2; exact A4|cbn; rewrite Q3; exact A5]]];
        cbn [b_balance b_allowance set_balances Erc20Example.erc20].
      + apply (Mv a d v t' Ha Hd N1 N2 B1 Z1).
      + apply Sp; try assumption. intros x y _ _. apply B3.
    - apply Cl in E. destruct Hr as [Ha Hv]. revert E. mred. cbn [Erc20Example.cap Erc20Example.erc20].
      destruct (Erc20.total_supply t + v <? two256); [|discriminate]. cbn [fst snd].
      destruct (k <? Erc20.total_supply t + v); [discriminate|]. intros K. apply On in K. destruct K as (t' & K & ->). destruct u.
      destruct (Erc20_api.mint_spec t a v HI Hv) as (_ & T2 & _). destruct (T2 _ K) as (B1 & B2 & B3 & B4 & _).
      split; [cbn; rewrite B3, A1; reflexivity|]. split; [|split; [|split; assumption]]; cbn [b_balance b_allowance set_balances Erc20Example.erc20].
      + apply At; try assumption. rewrite (A2 a Ha). exact B1.
      + intros o sp Ho Hsp. rewrite (B4 o sp). apply A3; assumption.
    - apply Cl, On in E. destruct E as (t' & K & ->). destruct u. unfold Erc20.burn in K.
      destruct (Erc20_api.burn_spec t c v HI Hr) as (_ & T2 & _). destruct (T2 _ K) as (B1 & B2 & B3 & B4 & _).
      split; [cbn; rewrite B3, A1; reflexivity|]. split; [|split; [|split; assumption]]; cbn [b_balance b_allowance set_balances Erc20Example.erc20].
      + apply At; try assumption. rewrite (A2 c Hc). exact B1.
      + intros o sp Ho Hsp. rewrite (B4 o sp). apply A3; assumption.
    - apply Cl, On in E. destruct E as (t' & K & ->). destruct u. destruct Hr as [Ha Hv].
      destruct (Erc20_api.burn_from_spec t c a v HI Hv) as (_ & T2). destruct (T2 _ K) as (B1 & B2 & B3 & B4 & B5 & _).
      assert (Eq : b_paused (spent b a c v) = b_paused b /\ b_cap (spent b a c v) = b_cap b).
      { unfold spent. destruct (b_allowance b a c =? U256_MAX); auto. }
      destruct Eq as (Q2 & Q3).
      split; [cbn; rewrite B3, A1; reflexivity|]. split; [|split; [|split; [cbn; rewrite Q2; exact A4|cbn; rewrite Q3; exact A5]]];
        cbn [b_balance b_allowance set_balances Erc20Example.erc20].
      + apply At; try assumption. rewrite (A2 a Ha). exact B1.
      + apply Sp; try assumption. intros x y _ _. apply B5.
    - revert E. unfold Erc20Example.pause, Erc20Example.on_pausable, Pausable.pause, Pausable.when_not_paused. mred.
      destruct p; [discriminate|]. cbn. intros E. inversion E. subst s'. repeat split; assumption.
    - revert E. unfold Erc20Example.unpause, Erc20Example.on_pausable, Pausable.unpause, Pausable.when_paused. mred.
      destruct p; [|discriminate]. cbn. intros E. inversion E. subst s'. repeat split; assumption.
  Qed.

  Lemma exposed20_interface t f : In (t, f) (exposed (blocks C)) -> In (fn_sig f, arg_types f) erc20_interface.
  Proof.
    rewrite exposed20_ok. unfold exposed20. intros Hin.
    repeat (destruct Hin as [Hin|Hin]; [injection Hin as <- <-; vm_compute; auto 20|]). destruct Hin.
  Qed.
  Lemma step_request c r s : request_fits r -> snd (entry C c 0 (request_data r) s) = Erc20Example.step s (c, op_of r).
  Proof. intros Hr. rewrite (entry_request c r s Hr). reflexivity. Qed.
  Lemma raw_typed h : sane h -> forall s, exists g, Erc20Example.hist_wf g /\ raw_run C h s = Erc20Example.run g s.
  Proof.
    induction h as [|[[c v] d] h IH]; intros Hh s; [exists []; split; [constructor|reflexivity]|].
    inversion Hh as [|? ? [Hb Hsz] Hh']; subst. cbn [snd] in *. change (raw_run C ((c, v, d) :: h) s) with (raw_run C h (snd (entry C c v d s))).
    destruct (any_call c v d s Hb Hsz) as [->|(r & -> & -> & Hr)]; [apply (IH Hh')|].
    rewrite (step_request c r s Hr). destruct (IH Hh' (Erc20Example.step s (c, op_of r))) as (g & Hg & ->).
    exists ((c, op_of r) :: g). split; [constructor; [apply op_of_wf, Hr|exact Hg]|reflexivity].
  Qed.
  Lemma follows_ok s b c r : Good s -> book_fits b -> agree s b -> is_address c -> request_fits r -> follows (entry C) s b c r.
  Proof.
    intros G Fb A Hc Hr. unfold follows. rewrite (verdict_ok s b c r G A Hc Hr).
    pose proof (entry_request c r s Hr) as E. pose proof (err_fits s c r) as Ef. pose proof (ok_agree s b c r G A Hc Hr) as Ag.
    pose proof (good_step s c r G Hr) as G'.
    unfold Erc20Example.step, tx in *. cbn [fst snd] in *.
    destruct (Erc20Example.exec c (op_of r) s) as [[[]|e|] s'] eqn:Ex; cbn [outcome fst snd] in *.
    - exists s'. specialize (Ag eq_refl). assert (Fb' : book_fits (granted c r b)).
      { destruct Ag as (B1 & B2 & B3 & B4 & B5). destruct Fb as (F1 & F2 & F3 & F4). split; [rewrite B1; apply good_supply, G'|].
        split; [rewrite B5; apply (g_cap _ G')|]. split.
        - intros a. destruct (Z_le_dec 0 a) as [H0|H0]; [destruct (Z_lt_dec a (2 ^ 160)) as [H1|H1]|].
          { rewrite B2 by (split; assumption). apply good_balance, G'. }
          all: assert (Ne : forall x, is_address x -> (a =? x) = false) by (unfold is_address; intros; lia).
          all: destruct r as [x v|x v|x y v|x v|v|x v| |]; cbn [granted set_balances set_allowance set_paused b_balance request_fits] in *; auto.
          all: unfold moved, at_key; rewrite ?Ne by tauto; auto.
        - intros o sp. destruct (Z_le_dec 0 o) as [H0|H0]; [destruct (Z_lt_dec o (2 ^ 160)) as [H1|H1]|];
            [destruct (Z_le_dec 0 sp) as [H2|H2]; [destruct (Z_lt_dec sp (2 ^ 160)) as [H3|H3]|]|..].
          { rewrite B3 by (split; assumption). apply (Erc20_inv.inv_allow _ (g_inv _ G')). }
          all: assert (Ne : forall x y, is_address x -> is_address y -> (o =? x) && (sp =? y) = false) by (unfold is_address; intros; lia).
          all: destruct r as [x v|x v|x y v|x v|v|x v| |]; cbn [granted set_balances set_allowance set_paused b_allowance request_fits] in *; auto.
          all: rewrite ?Ne by tauto; auto.
          all: unfold spent; match goal with |- context [if ?q then _ else _] => destruct q end; auto; cbn [set_allowance b_allowance];
            rewrite Ne by tauto; auto. }
      split; [exact E|]. split; [apply (shows_agree _ _ G' Fb'), Ag|exact Fb'].
    - exists (revert_erc20_example e). split; [exact E|]. apply revert_erc20_example_ok, Ef; auto.
    - exact E.
  Qed.
  Definition book_of (s : Erc20Example.state) : book :=
    mkBook (Erc20.total_supply (Erc20Example.erc20 s)) (Erc20.balance_of (Erc20Example.erc20 s)) (Erc20.allowance (Erc20Example.erc20 s))
      (Pausable.paused (Erc20Example.pausable s)) (Erc20Example.cap s).
  Lemma book_of_ok s : Good s -> book_fits (book_of s) /\ agree s (book_of s).
  Proof.
    intros G. split; [|repeat split]. split; [apply good_supply, G|]. split; [apply (g_cap _ G)|].
    split; [intros a; apply good_balance, G|apply (Erc20_inv.inv_allow _ (g_inv _ G))].
  Qed.
End erc20_example.

(** A user who reads the getters and computes with integers knows what every request will do:
    after every history of calls by anybody, with any bytes and any value, the getters show a
    ledger, and the answer to every request and the ledger shown afterwards are those of the
    ideal token. *)
Theorem c85_erc20_is_the_ideal_token :
  forall name symbol k h, is_u256 k -> sane h ->
  let call := entry (Example20 name symbol) in
  let s := raw_run (Example20 name symbol) h (Erc20Example.init k) in
  (exists b, book_fits b /\ shows call s b) /\
  (forall b c r, book_fits b -> shows call s b -> is_address c -> request_fits r -> follows call s b c r) /\
  shows call (Erc20Example.init k) (new_book k).
Proof.
  intros name symbol k h Hk Hh call s. pose proof (good_raw name symbol h Hh _ (good_init k Hk)) as G. fold s in G. split; [|split].
  - destruct (book_of_ok s G) as [F A]. exists (book_of s). split; [exact F|]. apply shows_agree; assumption.
  - intros b c r Fb Sb Hc Hr. apply (shows_agree name symbol s b G Fb) in Sb. apply follows_ok; assumption.
  - assert (F : book_fits (new_book k)) by (repeat split; cbn; try lia; apply Hk).
    apply (shows_agree name symbol _ _ (good_init k Hk) F). repeat split.
Qed.
Print Assumptions c85_erc20_is_the_ideal_token.

(** Anything but a well-formed call of a public function without value fails without a reason
    and without effect; whatever changes the state is one of the eight requests, to the letter. *)
Theorem c85_erc20_nothing_else :
  forall name symbol c v d s, List.Forall is_byte d -> size d < two256 ->
  let call := entry (Example20 name symbol) in
  (~ proper v d -> call c v d s = (Reverted [], s)) /\
  (snd (call c v d s) <> s -> exists r, v = 0 /\ d = request_data r /\ request_fits r) /\
  (forall out s', call c v d s = (Returned out, s') -> proper v d).
Proof.
  intros name symbol c v d s Hb Hsz call.
  assert (P : call c v d s = (Reverted [], s) \/ proper v d).
  { destruct (entry_cases (Example20 name symbol) c v d s (known20 name symbol) Hb Hsz) as [K|(t & f & args & Hin & Hv & Ht & Hd & _)]; [left; exact K|right].
    split; [exact Hv|]. exists (fn_sig f), (arg_types f), args. split; [apply (exposed20_interface name symbol t), Hin|]. split; assumption. }
  split; [destruct P; tauto|]. split.
  - intros Hs. destruct (any_call name symbol c v d s Hb Hsz) as [K|K]; [contradiction (Hs K)|exact K].
  - intros out s' E. destruct P as [P|P]; [congruence|exact P].
Qed.
Print Assumptions c85_erc20_nothing_else.

(** Every history of raw calls is, for the state, a history of typed ones: what C01 to C07 say
    about those holds for bytes. *)
Theorem c85_erc20_raw_histories_are_typed :
  forall name symbol h s, sane h ->
  exists g, Erc20Example.hist_wf g /\ raw_run (Example20 name symbol) h s = Erc20Example.run g s.
Proof. intros name symbol h s Hh. apply raw_typed. exact Hh. Qed.
Print Assumptions c85_erc20_raw_histories_are_typed.
Corollary c85_erc20_supply_never_exceeds_cap :
  forall name symbol k h, is_u256 k -> sane h ->
  let s := raw_run (Example20 name symbol) h (Erc20Example.init k) in
  exists supply, tells (entry (Example20 name symbol)) s "totalSupply()" [] supply /\ 0 <= supply <= k /\
                 tells (entry (Example20 name symbol)) s "cap()" [] k.
Proof.
  intros name symbol k h Hk Hh s. destruct (raw_typed name symbol h Hh (Erc20Example.init k)) as (g & Hg & E).
  destruct (Erc20Example_props.c07_supply_never_exceeds_cap k g ltac:(apply Hk) Hg) as (H1 & H2). fold s in E. rewrite <- E in H1, H2.
  exists (Erc20.total_supply (Erc20Example.erc20 s)). split; [intros c; apply ask_supply|]. split.
  - split; [|exact H2]. apply (good_supply s). unfold s. apply good_raw; [exact Hh|apply good_init, Hk].
  - intros c. rewrite (ask_cap name symbol s c), H1. reflexivity.
Qed.
Print Assumptions c85_erc20_supply_never_exceeds_cap.

(** What does not change: the name, the symbol, ten decimals (the example overrides the
    eighteen of the library), and the interfaces the contract says it supports. *)
Lemma bytes4_of id : 0 <= id < 2 ^ 32 ->
  let b := firstn 4 (word (id * 2 ^ 224)) in length b = 4%nat /\ Forall is_byte b /\ of_be b = id.
Proof.
  intros H b. assert (L : length b = 4%nat) by (unfold b; rewrite firstn_length, word_length; reflexivity).
  assert (Hw : Forall is_byte (word (id * 2 ^ 224))) by apply be_bytes_byte.
  split; [exact L|]. assert (Ap : forall l m, of_be (l ++ m) = of_be l * 256 ^ Z.of_nat (length m) + of_be m).
  { clear. intros l m. induction l as [|x l IH]; [reflexivity|]. cbn [app of_be]. rewrite IH, app_length, Nat2Z.inj_add, Z.pow_add_r by lia. ring. }
  assert (Hs : word (id * 2 ^ 224) = b ++ skipn 4 (word (id * 2 ^ 224))) by (symmetry; apply firstn_skipn).
  rewrite Hs in Hw. apply Forall_app in Hw. destruct Hw as [W1 W2]. split; [exact W1|].
  pose proof (of_be_range _ W2) as R2. assert (L2 : length (skipn 4 (word (id * 2 ^ 224))) = 28%nat) by (rewrite skipn_length, word_length; reflexivity).
  pose proof (of_be_be_bytes 32 (id * 2 ^ 224)) as E. change (be_bytes 32 (id * 2 ^ 224)) with (word (id * 2 ^ 224)) in E.
  rewrite Hs, Ap, L2, Z.mod_small in E by (change (256 ^ Z.of_nat 32) with (2 ^ 32 * 2 ^ 224); nia).
  rewrite L2 in R2. change (256 ^ Z.of_nat 28) with (2 ^ 224) in *. nia.
Qed.
Theorem c85_erc20_constants :
  forall name symbol s c,
  let call := entry (Example20 name symbol) in
  call c 0 (calldata "name()" []) s = (Returned (abi_params [Octets name]), s) /\
  call c 0 (calldata "symbol()" []) s = (Returned (abi_params [Octets symbol]), s) /\
  call c 0 (calldata "decimals()" []) s = (Returned (word 10), s) /\
  (forall id, 0 <= id < 2 ^ 32 -> exists yes : bool,
     call c 0 (calldata "supportsInterface(bytes4)" [Word (id * 2 ^ 224)]) s = (Returned (word (if yes then 1 else 0)), s) /\
     (yes = true <-> In id [0x36372b07; 0xa219a025; 0x01ffc9a7])).
Proof.
  intros name symbol s c call.
  assert (Cn : forall sig t f, k_fits sig = true -> find_fn_k Pub.Erc20Example (k sig) = Some (t, f) -> arg_types f = [] ->
    call c 0 (calldata sig []) s = finish (Example20 name symbol) (body_of (code (Example20 name symbol)) t (rust_name f) [] c s) s).
  { intros sig t f K1 K2 K3. apply (call_request name symbol sig [] c s t f K1 K2); [rewrite K3; constructor|reflexivity]. }
  split; [|split; [|split]].
  - rewrite (Cn "name()"%string "Erc20Metadata"%string (fn "name" [])); [reflexivity|vm_compute; reflexivity..|reflexivity].
  - rewrite (Cn "symbol()"%string "Erc20Metadata"%string (fn "symbol" [])); [reflexivity|vm_compute; reflexivity..|reflexivity].
  - rewrite (Cn "decimals()"%string "Erc20Example"%string (fn "decimals" [])); [|vm_compute; reflexivity..|reflexivity].
    rewrite <- one_word. reflexivity.
  - intros id Hid. exists (Introspection.Erc20Example (firstn 4 (word (id * 2 ^ 224)))). split.
    + unfold call. change [Word (id * 2 ^ 224)] with (map Word [id * 2 ^ 224]).
      rewrite (call_request name symbol "supportsInterface(bytes4)"%string [id * 2 ^ 224] c s "Erc20Example"%string (fn "supports_interface" [FixedBytes4])).
      * rewrite <- one_word. generalize (id * 2 ^ 224). intros w.
        change (body_of _ _ _ _ c s) with (@gets Erc20Example.state Erc20Example.error (list val)
          (fun _ => [Word (of_bool (Introspection.Erc20Example (firstn 4 (word w))))]) s).
        destruct (Introspection.Erc20Example (firstn 4 (word w))); reflexivity.
      * vm_compute. reflexivity.
      * vm_compute. reflexivity.
      * apply List.Forall2_cons; [|constructor]. cbn [has_type word_of_type]. exists id. split; [exact Hid|reflexivity].
      * reflexivity.
    + destruct (bytes4_of id Hid) as (B1 & B2 & B3). destruct Introspection_props.c70_examples as (X & _).
      rewrite (X _ B1 B2), B3. reflexivity.
Qed.
Print Assumptions c85_erc20_constants.

(** ** The library as a client of the library's token *)
Definition call_fits (c : SafeErc20.token_call) : Prop :=
  match c with
  | SafeErc20.CTransfer a v | SafeErc20.CApprove a v => is_address a /\ is_u256 v
  | SafeErc20.CTransferFrom a b v => is_address a /\ is_address b /\ is_u256 v
  | SafeErc20.CAllowance a b => is_address a /\ is_address b
  | SafeErc20.CBalanceOf a => is_address a
  end.
Lemma known_token : all_known (blocks Token) = true.
Proof. vm_compute. reflexivity. Qed.
Lemma token_request sig l c s t f :
  k_fits sig = true -> find_fn_k [Pub.Erc20] (k sig) = Some (t, f) ->
  List.Forall2 has_type (arg_types f) (map Word l) -> size l < 10 ->
  entry Token c 0 (calldata sig (map Word l)) s = finish Token (body_of (code Token) t (rust_name f) (map Word l) c s) s.
Proof.
  intros H1 H2 H3 H4. apply entry_calldata; auto using known_token, abi_words_bytes.
  rewrite abi_words_size. transitivity 320; [lia|reflexivity].
Qed.
Lemma call_data_sig nm ts l : solidity_call nm ts l = calldata (signature nm ts) (map Word l).
Proof. unfold solidity_call, calldata, function_selector, sig_selector. reflexivity. Qed.
(** The calls of SafeErc20, of the wrapper and of the vault, as bytes to a contract that is the
    library's token: what comes back is what the models of those callers take for granted. *)
Theorem c85_token_answers_the_library :
  forall this u c, call_fits c ->
  match Erc20World.honest_call this c u with
  | Some (d, u') => entry Token this 0 (call_data c) u = (Returned d, u')
  | None => exists d, entry Token this 0 (call_data c) u = (Reverted d, u)
  end.
Proof.
  intros this u c Hc.
  assert (Fl : forall (m : M Erc20.state Erc20.error bool),
    match (match m u with (Ok b, u') => Some (word (Z.b2z b), u') | _ => None end) with
    | Some (d, u') => finish Token (flag m u) u = (Returned d, u')
    | None => exists d, finish Token (flag m u) u = (Reverted d, u)
    end).
  { intros m. unfold flag. mred. destruct (m u) as [[b|e|] u']; cbn [finish].
    - rewrite one_word. destruct b; reflexivity.
    - eexists. reflexivity.
    - eexists. reflexivity. }
  Ltac tok th u sg l f := rewrite (token_request sg l th u "Erc20"%string f);
    [|vm_compute; reflexivity|vm_compute; reflexivity|
      repeat (apply List.Forall2_cons || apply List.Forall2_nil); cbn [has_type word_of_type]; tauto|reflexivity].
  destruct c as [a v|a b v|a v|a b|a]; cbn [call_fits] in Hc; cbn [Erc20World.honest_call].
  - cbn [call_data]. rewrite call_data_sig. replace (signature "transfer" [Address; U256]) with "transfer(address,uint256)"%string by (vm_compute; reflexivity).
    tok this u "transfer(address,uint256)"%string [a; v] (fn "transfer" [Address; U256]).
    exact (Fl (Erc20.transfer this a v)).
  - cbn [call_data]. rewrite call_data_sig. replace (signature "transferFrom" [Address; Address; U256]) with "transferFrom(address,address,uint256)"%string by (vm_compute; reflexivity).
    tok this u "transferFrom(address,address,uint256)"%string [a; b; v] (fn "transfer_from" [Address; Address; U256]).
    exact (Fl (Erc20.transfer_from this a b v)).
  - cbn [call_data]. rewrite call_data_sig. replace (signature "approve" [Address; U256]) with "approve(address,uint256)"%string by (vm_compute; reflexivity).
    tok this u "approve(address,uint256)"%string [a; v] (fn "approve" [Address; U256]).
    exact (Fl (Erc20.approve this a v)).
  - cbn [call_data]. rewrite call_data_sig. replace (signature "allowance" [Address; Address]) with "allowance(address,address)"%string by (vm_compute; reflexivity).
    tok this u "allowance(address,address)"%string [a; b] (fn "allowance" [Address; Address]).
    rewrite <- one_word. reflexivity.
  - cbn [call_data]. rewrite call_data_sig. replace (signature "balanceOf" [Address]) with "balanceOf(address)"%string by (vm_compute; reflexivity).
    tok this u "balanceOf(address)"%string [a] (fn "balance_of" [Address]).
    rewrite <- one_word. reflexivity.
Qed.
Print Assumptions c85_token_answers_the_library.

(** ** The hypotheses hold: a history by bytes *)
Lemma request_data_sane r : List.Forall is_byte (request_data r) /\ size (request_data r) < two256.
Proof.
  assert (W : forall sig l, size l < 10 -> List.Forall is_byte (calldata sig (map Word l)) /\ size (calldata sig (map Word l)) < two256).
  { intros sig l Hl. unfold calldata. split.
    - apply List.Forall_app. split; [apply be_bytes_byte|apply abi_words_bytes].
    - unfold size. rewrite app_length, be_bytes_length, Nat2Z.inj_add.
      pose proof (abi_words_size l) as K. unfold size in K. rewrite K. fold (size l). transitivity 400; [lia|reflexivity]. }
  destruct r as [a v|a v|a b v|a v|v|a v| |]; unfold request_data.
  - apply (W "transfer(address,uint256)"%string [a; v]). reflexivity.
  - apply (W "approve(address,uint256)"%string [a; v]). reflexivity.
  - apply (W "transferFrom(address,address,uint256)"%string [a; b; v]). reflexivity.
  - apply (W "mint(address,uint256)"%string [a; v]). reflexivity.
  - apply (W "burn(uint256)"%string [v]). reflexivity.
  - apply (W "burnFrom(address,uint256)"%string [a; v]). reflexivity.
  - apply (W "pause()"%string []). reflexivity.
  - apply (W "unpause()"%string []). reflexivity.
Qed.
Definition sends (l : list (Z * request)) : list (Z * Z * list Z) := map (fun cr => (fst cr, 0, request_data (snd cr))) l.
Lemma sends_sane l : sane (sends l).
Proof. induction l as [|cr l IH]; constructor; [apply request_data_sane|exact IH]. Qed.
Lemma sends_run name symbol l : List.Forall (fun cr => request_fits (snd cr)) l -> forall s,
  raw_run (Example20 name symbol) (sends l) s = Erc20Example.run (map (fun cr => (fst cr, op_of (snd cr))) l) s.
Proof.
  induction 1 as [|[c r] l Hr Hl IH]; intros s; [reflexivity|]. cbn [snd] in Hr.
  change (raw_run (Example20 name symbol) (sends l) (snd (entry (Example20 name symbol) c 0 (request_data r) s)) =
          Erc20Example.run (map (fun cr => (fst cr, op_of (snd cr))) l) (Erc20Example.step s (c, op_of r))).
  rewrite (step_request name symbol c r s Hr). apply IH.
Qed.
Definition h85 : list (Z * request) :=
  [(1, Mint 1 100); (1, Transfer 2 30); (2, Approve 3 20); (3, TransferFrom 2 4 5); (3, Burn 1); (9, Mint 9 1000)].
Example c85_nonvacuous :
  let call := entry (Example20 [65] [66]) in
  let s := raw_run (Example20 [65] [66]) (sends h85) (Erc20Example.init 1000) in
  sane (sends h85) /\
  tells call s "totalSupply()" [] 100 /\ tells call s "balanceOf(address)" [Word 2] 25 /\
  tells call s "allowance(address,address)" [Word 2; Word 3] 15 /\
  (exists d, call 9 0 (request_data (Mint 9 1000)) s = (Reverted d, s) /\ decode_reason d = Some (ERC20ExceededCap 1100 1000)) /\
  (exists s', call 2 0 (request_data (Burn 25)) s = (Returned [], s') /\ tells call s' "balanceOf(address)" [Word 2] 0) /\
  call 2 1 (request_data (Burn 25)) s = (Reverted [], s) /\
  call 2 0 [1; 2; 3] s = (Reverted [], s).
Proof.
  intros call s. assert (Hk : is_u256 1000) by (split; [lia|reflexivity]).
  assert (Hf : List.Forall (fun cr => request_fits (snd cr)) h85).
  { unfold h85, request_fits, is_address, is_u256. repeat (apply List.Forall_cons || apply List.Forall_nil); cbn [snd]; repeat split; discriminate. }
  assert (Sa := sends_sane h85).
  assert (E : s = Erc20Example.run (map (fun cr => (fst cr, op_of (snd cr))) h85) (Erc20Example.init 1000)) by (apply sends_run, Hf).
  assert (G : Good s) by (apply good_raw; [exact Sa|apply good_init, Hk]).
  assert (T1 : Erc20.total_supply (Erc20Example.erc20 s) = 100) by (rewrite E; vm_compute; reflexivity).
  assert (T2 : Erc20.balance_of (Erc20Example.erc20 s) 2 = 25) by (rewrite E; vm_compute; reflexivity).
  assert (T3 : Erc20.allowance (Erc20Example.erc20 s) 2 3 = 15) by (rewrite E; vm_compute; reflexivity).
  assert (T4 : Pausable.paused (Erc20Example.pausable s) = false) by (rewrite E; vm_compute; reflexivity).
  assert (T5 : Erc20Example.cap s = 1000) by (rewrite E; vm_compute; reflexivity).
  clearbody s. clear E. destruct (book_of_ok s G) as [Fb Ab].
  assert (A2 : is_address 2) by (split; [lia|reflexivity]). assert (A3 : is_address 3) by (split; [lia|reflexivity]).
  assert (A9 : is_address 9) by (split; [lia|reflexivity]).
  split; [exact Sa|]. split; [intros c; refine (eq_trans (ask_supply [65] [66] s c) _); rewrite T1; reflexivity|].
  split; [intros c; refine (eq_trans (ask_balance [65] [66] s c 2 A2) _); rewrite T2; reflexivity|].
  split; [intros c; refine (eq_trans (ask_allowance [65] [66] s c 2 3 A2 A3) _); rewrite T3; reflexivity|]. split; [|split; [|split]].
  - pose proof (follows_ok [65] [66] s (book_of s) 9 (Mint 9 1000) G Fb Ab A9 (conj A9 Hk)) as F. unfold follows in F.
    cbn [ideal running app book_of b_paused b_supply b_cap judge] in F. rewrite T1, T4, T5 in F. exact F.
  - assert (H25 : is_u256 25) by (split; [lia|reflexivity]).
    pose proof (follows_ok [65] [66] s (book_of s) 2 (Burn 25) G Fb Ab A2 H25) as F. unfold follows in F.
    cbn [ideal running enough app book_of b_paused b_supply b_balance b_cap judge] in F. rewrite T2, T4 in F.
    destruct F as (s' & F1 & (_ & F2 & _) & _). exists s'. split; [exact F1|]. exact (F2 2 A2).
  - destruct (c85_erc20_nothing_else [65] [66] 2 1 (request_data (Burn 25)) s) as (F & _); [apply request_data_sane..|].
    apply F. intros [K _]. discriminate K.
  - reflexivity.
Qed.
