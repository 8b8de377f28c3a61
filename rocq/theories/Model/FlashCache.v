(** [flash_loan] with the storage accessors of the Stylus SDK as they are.

    A [StorageU256] of the SDK (0.8.4) remembers the word it last read or wrote: it asks the
    storage once and then answers from memory, as long as the accessor lives. To keep that
    safe the SDK wants a call to borrow the whole contract ([TopLevelStorage]), so that no
    accessor survives a call. flash_mint.rs:136-139 declares [Erc20FlashMint] to be top-level
    storage ([unsafe impl]), so [Call::new_in(self)] at line 333 borrows only that part, and
    the accessor [erc20.total_supply] (erc20/mod.rs:138), which [erc20: &mut Erc20] keeps
    alive, has the supply written by [_mint] at line 329 when the callback returns. Balances
    and allowances are in [StorageMap]s, whose accessors are made anew for every access.
    A call back into the contract runs with accessors of its own.

    Model/FlashMint.v reads the storage every time; this file differs from it in the line
    marked below. *)
From Verif.Base Require Import Prelude Maps.
From Verif.Model Require Erc20.
From Verif.Model Require Import FlashMint.
#[global] Open Scope Z_scope.

Section with_env.
  Context (e : env).
  (** flash_mint.rs:308-364 *)
  Definition flash_loan_cached (on_flash_loan : M20 Z) (receiver token value : Z) : M20 bool :=
    max_loan <~ gets (max_flash_loan e token) ;;                          (* 316 *)
    fail_if (max_loan <? value) (ExceededMaxLoan max_loan) ;;;            (* 317-321 *)
    flash_fee e token value ;;;                                           (* 323 *)
    fail_if (negb (has_code e receiver)) (InvalidReceiver receiver) ;;;   (* 324-328 *)
    map_err ErrErc20 (Erc20._mint receiver value) ;;;                     (* 329 *)
    cached <~ gets Erc20.total_supply ;;
    loan_return <~ on_flash_loan ;;                                       (* 330-342 *)
    modify (Erc20.set_supply cached) ;;;                                  (* what the accessor holds *)
    fail_if (negb (loan_return =? callback_value e)) (InvalidReceiver receiver) ;;; (* 343-347 *)
    settle e receiver value ;;;
    ret true.
  (** What [settle] goes on to write is the supply less what it burns ([sub_assign_unchecked] in
      [_update]), so the storage holds a function of the remembered supply in the end; if
      [settle] fails, the call is undone. *)

  Fixpoint exec_cached (c : call) {struct c} : M20 unit :=
    match c with
    | Plain caller o => map_err ErrErc20 (Erc20.exec caller o)
    | Flash _ receiver token value body fin =>
        Erc20.ignore (flash_loan_cached
          (fun s => match fin with
                    | Reverts => (Err (InvalidReceiver receiver), s)
                    | Returns v => (Ok v, calls_cached body s)
                    end) receiver token value)
    end
  with calls_cached (cs : calls) (s : Erc20.state) {struct cs} : Erc20.state :=
    match cs with
    | CNil => s
    | CCons c cs' => calls_cached cs' (snd (tx (exec_cached c) s))
    end.
  Definition run_cached (l : list call) (s : Erc20.state) : Erc20.state :=
    fold_left (fun s c => snd (tx (exec_cached c) s)) l s.
End with_env.
