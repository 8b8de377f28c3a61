(** Executable Keccak-256 (alloy's keccak256, tiny_keccak v256). The library's code only
    calls it; theorems quantify over an arbitrary hash function, and this reference
    implementation serves to check the model against test vectors of the repository and to
    compute function selectors. A lane is the list of its 64 bits, least significant
    first. *)
From Verif.Base Require Import Prelude Bytes.
From Coq Require Import String Ascii.
#[global] Open Scope Z_scope.

Definition lane := list bool.
Definition nthl (l : list lane) (i : nat) : lane := nth i l [].
Fixpoint lxor (a b : lane) : lane :=
  match a, b with x :: a', y :: b' => xorb x y :: lxor a' b' | _, _ => [] end.
Fixpoint lxor5 (a b c d e : lane) : lane :=
  match a, b, c, d, e with
  | x :: a', y :: b', z :: c', v :: d', w :: e' => xorb x (xorb y (xorb z (xorb v w))) :: lxor5 a' b' c' d' e'
  | _, _, _, _, _ => []
  end.
(** a xor (not b and c) *)
Fixpoint lchi (a b c : lane) : lane :=
  match a, b, c with
  | x :: a', y :: b', z :: c' => (if y then x else xorb x z) :: lchi a' b' c'
  | _, _, _ => []
  end.
Definition rotl (n : nat) (a : lane) : lane := skipn (64 - n) a ++ firstn (64 - n) a.
Fixpoint zbits (n : nat) (z : Z) : lane :=
  match n with O => [] | S n' => Z.odd z :: zbits n' (Z.div2 z) end.
Definition round_constants : list Z :=
  [0x0000000000000001; 0x0000000000008082; 0x800000000000808A; 0x8000000080008000;
   0x000000000000808B; 0x0000000080000001; 0x8000000080008081; 0x8000000000008009;
   0x000000000000008A; 0x0000000000000088; 0x0000000080008009; 0x000000008000000A;
   0x000000008000808B; 0x800000000000008B; 0x8000000000008089; 0x8000000000008003;
   0x8000000000008002; 0x8000000000000080; 0x000000000000800A; 0x800000008000000A;
   0x8000000080008081; 0x8000000000008080; 0x0000000080000001; 0x8000000080008008].
(** rotation offsets, index x + 5 y *)
Definition rotations : list nat :=
  [0; 1; 62; 28; 27;  36; 44; 6; 55; 20;  3; 10; 43; 25; 39;  41; 45; 15; 21; 8;  18; 2; 61; 56; 14]%nat.
Definition idx (x y : nat) : nat := (x mod 5 + 5 * (y mod 5))%nat.
Definition coords : list (nat * nat) :=
  flat_map (fun y => map (fun x => (x, y)) (seq 0 5)) (seq 0 5).
(** lane (X, Y) after rho and pi is lane ((X + 3 Y) mod 5, X) rotated: index and offset *)
Definition rho_pi : list (nat * nat) := Eval compute in
  map (fun '(x, y) => let i := idx (x + 3 * y) x in (i, nth i rotations 0%nat)) coords.
(** the three lanes combined by chi *)
Definition chi_idx : list (nat * nat * nat) := Eval compute in
  map (fun '(x, y) => (idx x y, idx (x + 1) y, idx (x + 2) y)) coords.
Definition theta_idx : list (nat * nat) := Eval compute in
  map (fun '(x, y) => (idx x y, x)) coords.
Definition keccak_round (rc : Z) (a : list lane) : list lane :=
  let c := map (fun x => lxor5 (nthl a x) (nthl a (5 + x)) (nthl a (10 + x)) (nthl a (15 + x)) (nthl a (20 + x)))
             (seq 0 5) in
  let d := map (fun '(p, n) => lxor (nthl c p) (rotl 1 (nthl c n))) [(4, 1); (0, 2); (1, 3); (2, 4); (3, 0)]%nat in
  let a1 := map (fun '(i, x) => lxor (nthl a i) (nthl d x)) theta_idx in
  let b := map (fun '(i, r) => rotl r (nthl a1 i)) rho_pi in
  let a2 := map (fun '(i, j, k) => lchi (nthl b i) (nthl b j) (nthl b k)) chi_idx in
  match a2 with [] => [] | z :: r => lxor z (zbits 64 rc) :: r end.
Definition keccak_f (a : list lane) : list lane := fold_left (fun a rc => keccak_round rc a) round_constants a.
Fixpoint lanes (n : nat) (l : list Z) : list lane :=
  match n with O => [] | S n' => flat_map (zbits 8) (firstn 8 l) :: lanes n' (skipn 8 l) end.
Definition absorb_block (a : list lane) (blk : list Z) : list lane :=
  let ls := lanes 17 blk in
  keccak_f (map (fun i => if (i <? 17)%nat then lxor (nthl a i) (nthl ls i) else nthl a i) (seq 0 25)).
Definition pad (l : list Z) : list Z :=
  let k := (136 - (List.length l) mod 136)%nat in
  match k with
  | 1%nat => l ++ [0x81]
  | _ => l ++ [1] ++ repeat 0 (k - 2) ++ [0x80]
  end.
Fixpoint absorb_all (n : nat) (a : list lane) (l : list Z) : list lane :=
  match n with O => a | S n' => absorb_all n' (absorb_block a (firstn 136 l)) (skipn 136 l) end.
Fixpoint bval (l : lane) : Z := match l with [] => 0 | b :: r => if b then Z.succ_double (bval r) else Z.double (bval r) end.
Fixpoint bytes_of_lane (n : nat) (l : lane) : list Z :=
  match n with O => [] | S n' => bval (firstn 8 l) :: bytes_of_lane n' (skipn 8 l) end.
Lemma bval_range l : 0 <= bval l < 2 ^ Z.of_nat (List.length l).
Proof.
  induction l as [|b l IH]; [cbn; lia|]. cbn [bval List.length].
  rewrite Nat2Z.inj_succ, Z.pow_succ_r by lia. destruct b; rewrite ?Z.succ_double_spec, ?Z.double_spec; lia.
Qed.
Lemma bytes_of_lane_bytes n : forall l, Forall is_byte (bytes_of_lane n l).
Proof.
  induction n as [|n IH]; intros l; [constructor|]. cbn [bytes_of_lane]. constructor; [|apply IH].
  unfold is_byte. pose proof (bval_range (firstn 8 l)) as H.
  assert (2 ^ Z.of_nat (List.length (firstn 8 l)) <= 2 ^ 8); [|lia].
  apply Z.pow_le_mono_r; [lia|]. rewrite firstn_length. lia.
Qed.
Lemma bytes_of_lane_length n : forall l, List.length (bytes_of_lane n l) = n.
Proof. induction n as [|n IH]; intros l; [reflexivity|]. cbn [bytes_of_lane List.length]. rewrite IH. reflexivity. Qed.
Definition keccak256 (l : list Z) : Z :=
  let p := pad l in
  let a := absorb_all (List.length p / 136)%nat (repeat (repeat false 64) 25) p in
  of_be (flat_map (fun i => bytes_of_lane 8 (nthl a i)) (seq 0 4)).
Definition bytes_of_string (s : string) : list Z :=
  map (fun c => Z.of_nat (nat_of_ascii c)) (list_ascii_of_string s).

(** Published vectors. *)
Example keccak_empty : keccak256 [] = 0xc5d2460186f7233c927e7db2dcc703c0e500b653ca82273b7bfad8045d85a470.
Proof. vm_compute. reflexivity. Qed.
Example keccak_erc20_transfer_selector :
  keccak256 (bytes_of_string "transfer(address,uint256)") / 2 ^ 224 = 0xa9059cbb.
Proof. vm_compute. reflexivity. Qed.
