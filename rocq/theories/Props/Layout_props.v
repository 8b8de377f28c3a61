(** C82: storage layout. *)
From Verif.Base Require Import Prelude Bytes.
From Verif.Model Require Import Layout.
From Verif.Spec Require Import Layout_spec.
From Verif.Proofs Require Import Layout_lemmas.
From Coq Require Import String List.
Open Scope string_scope.
Open Scope Z_scope.
#[global] Open Scope list_scope.

(** Values take the bytes Solidity gives to their types; everything else starts a slot. *)
Theorem c82_value_sizes :
  (forall n, 0 <= n -> slot_bytes (Val (Uint (8 * n))) = n) /\
  slot_bytes (Val Address) = 20 /\ slot_bytes (Val Bool) = 1 /\ slot_bytes (Val Bytes32) = 32 /\
  forall t, is_value t = false -> slot_bytes t = 32.
Proof.
  split; [|repeat split; try reflexivity; intros t; destruct t; cbn; congruence].
  intros n Hn. cbn [slot_bytes vbytes]. rewrite Z.mul_comm. apply Z.div_mul. discriminate.
Qed.
Print Assumptions c82_value_sizes.

(** ** For every contract: the layout is Solidity's *)
Theorem c82_solidity_rules hash fs p :
  wf (Struct fs) -> inhabited (Struct fs) ->
  option_map from_right (resolve hash (Struct fs) p) = sol_resolve hash (Struct fs) p.
Proof. intros Hw Hi. apply sol_resolve_ok; eauto. Qed.
Print Assumptions c82_solidity_rules.

(** ** For every contract: two places never share a byte, unless the hashes on the way to them
    nearly collide *)
Theorem c82_no_aliasing hash fs K p q l m :
  wf (Struct fs) -> K <= two256 -> p <> q -> proper p -> proper q ->
  within hash K (Struct fs) p -> within hash K (Struct fs) q ->
  resolve hash (Struct fs) p = Some l -> resolve hash (Struct fs) q = Some m ->
  is_cell (l_type l) -> is_cell (l_type m) -> share_bytes l m ->
  collision hash K (hashed hash (Struct fs) p ++ hashed hash (Struct fs) q).
Proof. intros. eapply no_aliasing; eauto. Qed.
Print Assumptions c82_no_aliasing.

(** Places reached by field names alone share nothing, whatever the hash. *)
Theorem c82_fields_disjoint hash fs names names' l m :
  wf (Struct fs) -> names <> names' -> required (Struct fs) <= two256 ->
  resolve hash (Struct fs) (Root names) = Some l -> resolve hash (Struct fs) (Root names') = Some m ->
  is_cell (l_type l) -> is_cell (l_type m) -> ~ share_bytes l m.
Proof.
  intros Hw Hne Hr R1 R2 C1 C2 Sh.
  assert (G : forall nm x, resolve hash (Struct fs) (Root nm) = Some x -> within hash two256 (Struct fs) (Root nm)).
  { intros nm x R. unfold within. cbn [offsets]. rewrite R. cbn [app]. constructor; [|constructor].
    cbn [resolve] in R.
    destruct (at_base_good 0 (Struct fs) 0 0 nm x Hw ltac:(lia) ltac:(cbn; lia) ltac:(lia) R) as (_ & _ & t & s & o & D & ->).
    destruct (descend_spec nm (Struct fs) 0 0 t s o Hw ltac:(lia) ltac:(cbn; lia) D) as (W & _ & _ & _ & O).
    cbn [l_slot]. pose proof (wf_bytes t W).
    assert (Oc : occ t s o s o).
    { destruct (struct_dec t) as [[gs ->]|Hc]; [cbn [occ]; pose proof (required_pos gs); lia|].
      destruct t; try (cbn [occ]; lia). destruct Hc. }
    apply O in Oc. cbn [occ] in Oc. lia. }
  assert (C : collision hash two256 []).
  { apply (c82_no_aliasing hash fs two256 (Root names) (Root names') l m); auto; try lia; try exact I; eauto; congruence. }
  destruct C as (x & [] & _).
Qed.
Print Assumptions c82_fields_disjoint.

(** Writing a value and reading it back, and reading its neighbours. *)
Theorem c82_store_load w slot off v m :
  1 <= w -> 0 <= off -> off + w <= 32 -> 0 <= v < 2 ^ (8 * w) ->
  load w slot off (store w slot off v m) = v /\
  forall w' slot' off', 1 <= w' -> 0 <= off' -> off' + w' <= 32 ->
    slot' <> slot \/ off' + w' <= off \/ off + w <= off' ->
    load w' slot' off' (store w slot off v m) = load w' slot' off' m.
Proof. intros. split; [apply load_store_same; auto|]. intros. apply load_store_other; auto. Qed.
Print Assumptions c82_store_load.

(** So storage is a map from places to values: after any sequence of writes a place reads as what was
    last written to it, or as before, unless hashes on the way to the places nearly collide. *)
Theorem c82_storage_is_a_map hash fs K ws p m :
  wf (Struct fs) -> K <= two256 ->
  Forall (fun w => proper (fst w) /\ within hash K (Struct fs) (fst w) /\ fits hash (Struct fs) w) ws ->
  (forall v, last_written p ws v ->
     read hash (Struct fs) p (run_writes hash (Struct fs) ws m) = Some v \/
     collision hash K (flat_map (fun w => hashed hash (Struct fs) (fst w)) ws)) /\
  (forall l, never p ws -> proper p -> within hash K (Struct fs) p ->
     resolve hash (Struct fs) p = Some l -> is_cell (l_type l) ->
     read hash (Struct fs) p (run_writes hash (Struct fs) ws m) = read hash (Struct fs) p m \/
     collision hash K (hashed hash (Struct fs) p ++ flat_map (fun w => hashed hash (Struct fs) (fst w)) ws)).
Proof.
  intros Hw HK F. split.
  - intros v L. eapply last_run; eauto.
  - intros l N Pp Wp R Cl. eapply never_run; eauto.
Qed.
Print Assumptions c82_storage_is_a_map.

(** ** The contracts of the repository *)
Ltac wf_tac := cbn [wf map fst vbytes]; repeat first [apply conj | exact I | apply List.NoDup_nil | apply List.NoDup_cons]; try (vm_compute; intuition congruence).
Theorem c82_examples_wf : Forall (fun '(_, t) => wf t /\ (exists fs, t = Struct fs) /\ required t <= 12) Structs.examples.
Proof.
  unfold Structs.examples. repeat (apply List.Forall_cons || apply List.Forall_nil);
    (split; [|split; [eexists; reflexivity|vm_compute; discriminate]]); wf_tac.
Qed.
Print Assumptions c82_examples_wf.

(** So no two places of an example share bytes, short of a near-collision of Keccak. *)
Theorem c82_examples_no_aliasing hash name t K p q l m :
  In (name, t) Structs.examples ->
  K <= two256 -> p <> q -> proper p -> proper q -> within hash K t p -> within hash K t q ->
  resolve hash t p = Some l -> resolve hash t q = Some m ->
  is_cell (l_type l) -> is_cell (l_type m) -> share_bytes l m ->
  collision hash K (hashed hash t p ++ hashed hash t q).
Proof.
  intros Hin. pose proof c82_examples_wf as W. rewrite Forall_forall in W.
  destruct (W _ Hin) as (Hw & [fs ->] & _). apply c82_no_aliasing. exact Hw.
Qed.
Print Assumptions c82_examples_no_aliasing.

(** The cells of an example do not depend on how the SDK counts a partly used slot in front of a
    struct. *)
Theorem c82_either_count :
  Forall (fun '(_, t) => cells true 10 t 0 0 = cells false 10 t 0 0) Structs.examples.
Proof. unfold Structs.examples. repeat (apply List.Forall_cons || apply List.Forall_nil); vm_compute; reflexivity. Qed.
Print Assumptions c82_either_count.

(** ** Constructors: each variable that a constructor.sol touches is, by Solidity's rules, where the
    Rust contract keeps the field that is meant, and of the same type. *)
Definition agrees (decls : fields) (t : ty) (var : string) (path : list string) : Prop :=
  exists u u' slot lo, sol_descend (Struct decls) 0 0 [var] = Some (u, slot, lo) /\
    descend t 0 0 path = Some (u', slot, 32 - lo - slot_bytes u') /\ same_type u u' = true.
Definition agreesb (decls : fields) (t : ty) (var : string) (path : list string) : bool :=
  match sol_descend (Struct decls) 0 0 [var], descend t 0 0 path with
  | Some (u, s, lo), Some (u', s', o) => (s =? s') && (o =? 32 - lo - slot_bytes u') && same_type u u'
  | _, _ => false
  end.
Lemma agreesb_ok decls t var path : agreesb decls t var path = true -> agrees decls t var path.
Proof.
  unfold agreesb, agrees. destruct (sol_descend _ _ _ _) as [[[u s] lo]|]; [|discriminate].
  destruct (descend _ _ _ _) as [[[u' s'] o]|]; [|discriminate]. intros E.
  apply andb_prop in E. destruct E as [E E3]. apply andb_prop in E. destruct E as [E1 E2].
  apply Z.eqb_eq in E1, E2. subst. eexists _, _, _, _. split; [reflexivity|]. split; [reflexivity|exact E3].
Qed.
Definition constructorb (d : string * fields) : bool :=
  match lookup (fst d) Structs.examples, lookup (fst d) Sol.written with
  | Some t, Some vars => forallb (fun v => agreesb (snd d) t (fst v) (snd v)) vars
  | _, _ => false
  end.
Lemma constructors_checked : forallb constructorb Sol.declarations = true.
Proof. vm_compute. reflexivity. Qed.
Theorem c82_constructors name decls :
  In (name, decls) Sol.declarations ->
  exists t vars, lookup name Structs.examples = Some t /\ lookup name Sol.written = Some vars /\
    Forall (fun '(var, path) => agrees decls t var path) vars.
Proof.
  intros Hin. pose proof constructors_checked as C. rewrite forallb_forall in C. specialize (C _ Hin).
  unfold constructorb in C. cbn [fst snd] in C.
  destruct (lookup name Structs.examples) as [t|]; [|discriminate].
  destruct (lookup name Sol.written) as [vars|]; [|discriminate].
  exists t, vars. split; [reflexivity|]. split; [reflexivity|].
  rewrite forallb_forall in C. apply Forall_forall. intros [var path] Hv. apply agreesb_ok. exact (C _ Hv).
Qed.
Print Assumptions c82_constructors.

(** Every example with a constructor is listed. *)
Example c82_constructors_listed :
  map fst Sol.declarations =
  ["access-control"; "erc1155-metadata-uri"; "erc1155"; "erc20-flash-mint"; "erc20-permit"; "erc20-wrapper"; "erc20";
   "erc4626"; "erc721-consecutive"; "erc721-metadata"; "erc721-wrapper"; "erc721"; "ownable-two-step"; "ownable";
   "vesting-wallet"].
Proof. reflexivity. Qed.

(** The constructors that write behind a hash: a role's member, a checkpoint, a balance. *)
Definition decls_of (name : string) : ty :=
  Struct (match lookup name Sol.declarations with Some d => d | None => [] end).
Theorem c82_role_entry hash role account :
  option_map from_right
    (resolve hash Structs.AccessControlExample
       (Then (Then (Root ["access"; "roles"]) (Key role) ["has_role"]) (Key account) [])) =
  sol_resolve hash (decls_of "access-control") (Then (Then (Root ["_roles"]) (Key role) ["hasRole"]) (Key account) []).
Proof. reflexivity. Qed.
Print Assumptions c82_role_entry.
Theorem c82_consecutive_entries hash i owner :
  let rust := Root ["erc721_consecutive"; "sequential_ownership"; "checkpoints"] in
  let sol := Root ["_checkpoints"] in
  let here p := option_map from_right (resolve hash Structs.Erc721ConsecutiveExample p) in
  let there p := sol_resolve hash (decls_of "erc721-consecutive") p in
  here (Then rust (Idx i) ["key"]) = there (Then sol (Idx i) ["_key"]) /\
  here (Then rust (Idx i) ["value"]) = there (Then sol (Idx i) ["_value"]) /\
  here (Then (Root ["erc721_consecutive"; "erc721"; "balances"]) (Key owner) []) =
    there (Then (Root ["_balances"]) (Key owner) []) /\
  here (Then rust (Idx i) ["key"]) <> None /\ here (Then rust (Idx i) ["value"]) <> None.
Proof.
  cbv zeta.
  assert (A : words Structs.Checkpoint * i / density Structs.Checkpoint = i).
  { change (words Structs.Checkpoint) with 1. change (density Structs.Checkpoint) with 1. rewrite Z.div_1_r. lia. }
  assert (B : i * sol_size (Struct [("_key", Val (Uint 96)); ("_value", Val (Uint 160))]) = i).
  { change (sol_size _) with 1. lia. }
  cbn [resolve sol_resolve]. 
  change (at_base 0 (descend Structs.Erc721ConsecutiveExample 0 0 ["erc721_consecutive"; "sequential_ownership"; "checkpoints"]))
    with (Some (Loc (Vec Structs.Checkpoint) 0 4 0)).
  change (from_slot 0 (sol_descend (decls_of "erc721-consecutive") 0 0 ["_checkpoints"]))
    with (Some (Vec (Struct [("_key", Val (Uint 96)); ("_value", Val (Uint 160))]), 4, 0)).
  cbn [take l_type]. unfold sol_element. cbn [is_value]. rewrite A, B.
  change (slot_of (Loc (Vec Structs.Checkpoint) 0 4 0)) with 4.
  set (h := hash (word 4)).
  repeat split; try (intros C; discriminate C); reflexivity.
Qed.
Print Assumptions c82_consecutive_entries.

(** ** The declarations as a whole
    "The variables declared in a constructor.sol are the fields of the Rust contract, in the same
    cells and with the same types." *)
Definition same_cells (decls : fields) (t : ty) : bool :=
  let a := map snd (cells true 10 (Struct decls) 0 0) in
  let b := map snd (cells true 10 t 0 0) in
  (List.length a =? List.length b)%nat &&
  forallb (fun '((u, s, o), (u', s', o')) => same_type u u' && (s =? s') && (o =? o')) (combine a b).
(** False for three examples: erc20 declares a mapping of nonces in slot 7 that the Rust contract does
    not have, and both erc1155 examples declare [_balances] with the keys in the other order, so that
    the entries of the same account and token are in different slots. *)
Theorem c82_declarations_refuted :
  map fst (filter (fun '(name, d) => negb (same_cells d (match lookup name Structs.examples with Some t => t | None => Str end)))
                  Sol.declarations) = ["erc1155-metadata-uri"; "erc1155"; "erc20"].
Proof. vm_compute. reflexivity. Qed.
Print Assumptions c82_declarations_refuted.
Theorem c82_erc1155_balances_refuted hash account id :
  exists s s', sol_resolve hash (decls_of "erc1155")
      (Then (Then (Root ["_balances"]) (Key account) []) (Key id) []) = Some (Val (Uint 256), s, 0) /\
    option_map from_right (resolve hash Structs.Erc1155Example
      (Then (Then (Root ["erc1155"; "balances"]) (Key id) []) (Key account) [])) = Some (Val (Uint 256), s', 0) /\
    s = hash (word id ++ word (hash (word account ++ word 0) mod two256)) mod two256 /\
    s' = hash (word account ++ word (hash (word id ++ word 0) mod two256)) mod two256.
Proof.
  eexists _, _. split; [reflexivity|]. split; [reflexivity|]. 
  unfold slot_of. cbn [l_base l_slot]. rewrite !Z.add_0_r. split; reflexivity.
Qed.
Print Assumptions c82_erc1155_balances_refuted.
Theorem c82_erc20_nonces_refuted hash :
  sol_resolve hash (decls_of "erc20") (Root ["_nonces"]) = Some (Map Address (Val (Uint 256)), 7, 0) /\
  Forall (fun '(_, (_, s, _)) => s < 7) (cells true 10 Structs.Erc20Example 0 0).
Proof. split; [reflexivity|]. vm_compute. repeat (apply List.Forall_cons || apply List.Forall_nil); reflexivity. Qed.
Print Assumptions c82_erc20_nonces_refuted.

(** ** The premises are met, and the collisions are real *)
Example c82_vesting_cells :
  map (fun '(names, (_, s, o)) => (last names "", s, o)) (cells true 10 Structs.VestingWalletExample 0 0) =
  [("owner", 0, 12); ("released", 1, 0); ("erc20_released", 2, 0); ("start", 3, 24); ("duration", 3, 16)].
Proof. reflexivity. Qed.
Example c82_paths :
  let p := Then (Root ["erc20"; "balances"]) (Key 1) [] in
  let q := Then (Root ["erc20"; "balances"]) (Key 2) [] in
  let t := Structs.Erc20Example in
  let bad := fun _ : list Z => 100 in
  proper p /\ proper q /\ within bad 20 t p /\ within bad 20 t q /\
  (exists l m, resolve bad t p = Some l /\ resolve bad t q = Some m /\ share_bytes l m) /\
  (forall hash, 0 <= hash (word 1 ++ word 0) < two256 -> 0 <= hash (word 2 ++ word 0) < two256 ->
     hash (word 1 ++ word 0) <> hash (word 2 ++ word 0) ->
     exists l m, resolve hash t p = Some l /\ resolve hash t q = Some m /\ ~ share_bytes l m).
Proof.
  cbv zeta.
  split; [cbn; unfold is_u256, two256; lia|]. split; [cbn; unfold is_u256, two256; lia|].
  split; [vm_compute; repeat constructor|]. split; [vm_compute; repeat constructor|].
  split.
  - eexists _, _. split; [reflexivity|]. split; [reflexivity|]. vm_compute. auto.
  - intros hash H1 H2 Hne. eexists _, _. split; [reflexivity|]. split; [reflexivity|]. intros [E _].
    unfold slot_of in E. cbn [l_base l_slot] in E.
    match type of E with (hash (_ ++ word ?x) + _) mod _ = _ => change x with 0 in E end.
    rewrite !Z.add_0_r, !Z.mod_small in E by assumption. exact (Hne E).
Qed.
Example c82_vesting_writes :
  let start := Root ["vesting_wallet"; "start"] in
  let duration := Root ["vesting_wallet"; "duration"] in
  let owner := Root ["vesting_wallet"; "ownable"; "owner"] in
  let t := Structs.VestingWalletExample in
  let h := fun _ : list Z => 0 in
  let ws := [(owner, 7); (start, 1000); (duration, 50); (start, 2000)] in
  let m := run_writes h t ws (fun _ => 0) in
  Forall (fun w => proper (fst w) /\ within h 12 t (fst w) /\ fits h t w) ws /\
  read h t start m = Some 2000 /\ read h t duration m = Some 50 /\ read h t owner m = Some 7 /\
  m 3 = 50 * 2 ^ 64 + 2000.
Proof.
  cbv zeta. split; [|vm_compute; auto].
  repeat (apply List.Forall_cons || apply List.Forall_nil);
    (split; [exact I|]; split; [vm_compute; repeat constructor|]);
    (eexists; split; [reflexivity|]; split; [exact I|vm_compute; split; [discriminate|reflexivity]]).
Qed.
