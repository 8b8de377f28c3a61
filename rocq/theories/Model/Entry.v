(** Model of a contract as its callers see it: bytes in, bytes out. A call is the sender, the
    value sent along and the calldata; the answer is return data or revert data.

    [#[entrypoint]] and [#[public]] of the Stylus SDK (0.8.4) generate this; they are not part
    of the repository and are modelled as documented: a call with fewer than four bytes, with
    an unknown selector, with a value to a function that is not [#[payable]] (none is), or
    with arguments that do not decode fails without data. Arguments are decoded by
    [abi_decode_params(.., true)] of alloy-sol-types 0.8.20, which reads the values, checks
    them against their types, encodes them again and compares with the input. A panic fails
    without data; a failed call leaves the state as it was. The contents of a [String] must be
    UTF-8 (Model/Utf8.v). *)
From Verif.Base Require Import Prelude Bytes Keccak.
From Coq Require Import String List.
From Verif.Model Require Import Introspection Router Utf8.
From Verif.Model Require SolAbi.
Import SolAbi.
#[global] Open Scope Z_scope.
Local Open Scope string_scope.
Local Open Scope list_scope.
Local Open Scope Z_scope.

(** * Decoding of arguments *)
Definition size (d : list Z) : Z := Z.of_nat (length d).
Definition slice (d : list Z) (off n : Z) : list Z := firstn (Z.to_nat n) (skipn (Z.to_nat off) d).
Definition read_word (d : list Z) (off : Z) : option Z :=
  if off + 32 <=? size d then Some (of_be (slice d off 32)) else None.
Fixpoint read_words (n : nat) (d : list Z) (off : Z) : option (list Z) :=
  match n with
  | O => Some []
  | S n' => match read_word d off, read_words n' d (off + 32) with
            | Some w, Some l => Some (w :: l)
            | _, _ => None
            end
  end.
(** A value of a dynamic type at an offset: its length and its contents. *)
Definition read_octets (d : list Z) (off : Z) : option val :=
  match read_word d off with
  | Some n => if off + 32 + n <=? size d then Some (Octets (slice d (off + 32) n)) else None
  | None => None
  end.
Definition read_array (d : list Z) (off : Z) : option val :=
  match read_word d off with
  | Some n => if off + 32 + 32 * n <=? size d then option_map Words (read_words (Z.to_nat n) d (off + 32)) else None
  | None => None
  end.
(** A value whose head is at an offset. *)
Definition read_val (t : abi_type) (d : list Z) (off : Z) : option val :=
  match read_word d off with
  | Some w =>
      match t with
      | Bytes | String_ => read_octets d w
      | Vec _ => read_array d w
      | _ => Some (Word w)
      end
  | None => None
  end.
Fixpoint read_params (ts : list abi_type) (d : list Z) (off : Z) : option (list val) :=
  match ts with
  | [] => Some []
  | t :: ts' => match read_val t d off, read_params ts' d (off + 32) with
                | Some a, Some l => Some (a :: l)
                | _, _ => None
                end
  end.
(** Whether a word is a value of a static type. *)
Definition in_type (t : abi_type) (v : Z) : bool :=
  match t with
  | Address => v <? 2 ^ 160
  | U256 | B256 => true
  | u64 => v <? 2 ^ 64
  | u8 => v <? 2 ^ 8
  | bool_ => v <? 2
  | FixedBytes4 => v mod 2 ^ 224 =? 0
  | _ => false
  end.
Definition type_check (t : abi_type) (a : val) : bool :=
  match t, a with
  | Bytes, Octets _ => true
  | String_, Octets d => from_utf8 d
  | Vec t', Words l => forallb (in_type t') l
  | _, Word v => in_type t v
  | _, _ => false
  end.
Fixpoint type_checks (ts : list abi_type) (l : list val) : bool :=
  match ts, l with
  | [], [] => true
  | t :: ts', a :: l' => type_check t a && type_checks ts' l'
  | _, _ => false
  end.
Definition decode_params (ts : list abi_type) (d : list Z) : option (list val) :=
  match read_params ts d 0 with
  | Some l => if type_checks ts l && (if list_eq_dec Z.eq_dec (abi_params l) d then true else false) then Some l else None
  | None => None
  end.

(** * The entry point *)
Inductive answer := Returned (data : list Z) | Reverted (data : list Z).
(** The function that handles a selector, with the type it belongs to: [Router.route] with the
    types of the arguments. *)
Fixpoint find_in_block (t : string) (fs : list trait_fn) (sel : Z) : option (string * trait_fn) :=
  match fs with
  | [] => None
  | f :: fs' => if selector f =? sel then Some (t, f) else find_in_block t fs' sel
  end.
Fixpoint find_fn (bs : list block) (sel : Z) : option (string * trait_fn) :=
  match bs with
  | [] => None
  | b :: bs' => match find_in_block (type_name b) (functions b) sel with
                | Some r => Some r
                | None => find_fn bs' sel
                end
  end.

(** The functions by type and Rust name: arguments, sender, result. *)
Definition body (S E : Type) : Type := list val -> Z -> M S E (list val).
Definition bodies (S E : Type) : Type := list (string * string * body S E).
Fixpoint body_of {S E} (l : bodies S E) (t f : string) : body S E :=
  match l with
  | [] => fun _ _ => panic
  | (t', f', b) :: l' => if String.eqb t t' && String.eqb f f' then b else body_of l' t f
  end.
Record contract (S E : Type) := mkContract {
  blocks : list block;
  code : bodies S E;
  revert_data : E -> list Z
}.
Arguments blocks {S E}. Arguments code {S E}. Arguments revert_data {S E}.

Definition finish {S E} (C : contract S E) (r : res E (list val) * S) (s : S) : answer * S :=
  match r with
  | (Ok l, s') => (Returned (abi_params l), s')
  | (Err e, _) => (Reverted (revert_data C e), s)
  | (Panic, _) => (Reverted [], s)
  end.
Definition entry {S E} (C : contract S E) (sender value : Z) (input : list Z) (s : S) : answer * S :=
  if (length input <? 4)%nat then (Reverted [], s) else
  match find_fn (blocks C) (of_be (firstn 4 input)) with
  | None => (Reverted [], s)
  | Some (t, f) =>
      if negb (value =? 0) then (Reverted [], s) else
      match decode_params (arg_types f) (skipn 4 input) with
      | None => (Reverted [], s)
      | Some args => finish C (body_of (code C) t (rust_name f) args sender s) s
      end
  end.
(** A history of calls: sender, value, calldata. *)
Definition raw_step {S E} (C : contract S E) (s : S) (c : Z * Z * list Z) : S :=
  let '(sender, value, input) := c in snd (entry C sender value input s).
Definition raw_run {S E} (C : contract S E) (h : list (Z * Z * list Z)) (s : S) : S := fold_left (raw_step C) h s.

(** * Writing function bodies *)
Definition read1 {S E} (f : S -> list val) : body S E := fun args _ => match args with [] => gets f | _ => panic end.
Definition read_w {S E} (f : Z -> S -> list val) : body S E :=
  fun args _ => match args with [Word a] => gets (f a) | _ => panic end.
Definition read_ww {S E} (f : Z -> Z -> S -> list val) : body S E :=
  fun args _ => match args with [Word a; Word b] => gets (f a b) | _ => panic end.
Definition do_0 {S E} (f : Z -> M S E (list val)) : body S E :=
  fun args c => match args with [] => f c | _ => panic end.
Definition do_w {S E} (f : Z -> Z -> M S E (list val)) : body S E :=
  fun args c => match args with [Word a] => f c a | _ => panic end.
Definition do_ww {S E} (f : Z -> Z -> Z -> M S E (list val)) : body S E :=
  fun args c => match args with [Word a; Word b] => f c a b | _ => panic end.
Definition do_www {S E} (f : Z -> Z -> Z -> Z -> M S E (list val)) : body S E :=
  fun args c => match args with [Word a; Word b; Word d] => f c a b d | _ => panic end.
(** Results: nothing, a flag. *)
Definition nothing {S E} (m : M S E unit) : M S E (list val) := m ;;; ret [].
Definition flag {S E} (m : M S E bool) : M S E (list val) := b <~ m ;; ret [Word (of_bool b)].
