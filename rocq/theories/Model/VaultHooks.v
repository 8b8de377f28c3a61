(** The ERC-4626 vault over an asset that hands control to other contracts during its
    transfers (ERC-777 hooks), with the vault built with the Stylus [reentrant] feature, so
    that the contracts called may call the vault again (contracts/src/token/erc20/extensions/
    erc4626.rs:1127-1212, and the comments at 1135-1142 and 1192-1199). *)
From Verif.Base Require Import Prelude.
From Verif.Model Require Erc20 SafeErc20 Erc20World Erc4626.
Import SafeErc20 Erc20World Erc4626.
#[global] Open Scope Z_scope.

(** The honest asset, running [pre] before and [post] after every transfer. [balanceOf] and
    [allowance] are views and run no hook. *)
Definition hooked (this asset : Z) (pre post : world -> world) : ext world :=
  mkext world this (fun a => a =? asset)
    (fun target c w =>
       match c with
       | CTransfer _ _ | CTransferFrom _ _ _ =>
           match raw_call (honest_ext this asset) target c (pre w) with
           | Some (d, w') => Some (d, post w')
           | None => None
           end
       | _ => raw_call (honest_ext this asset) target c w
       end).

(** A call, together with the calls made from within it: [pre] while the asset runs the
    sender's hook, before it moves anything; [post] while it runs the recipient's hook,
    afterwards. Those calls nest in the same way. *)
Inductive rcall := RCall (c : call) (pre post : list rcall).

Section vault.
  Context (this asset offset : Z).

  (** One call with everything it gives rise to. A call that fails is rolled back; the
      contract that made it carries on. (A hook that reverts makes the transfer fail, hence
      the vault's call: such a call leaves no trace, like one left out of the list.) *)
  Fixpoint rstep (w : world) (r : rcall) {struct r} : world :=
    match r with
    | RCall c pre post =>
        let before := fold_left rstep pre in
        let after := fold_left rstep post in
        match c with
        | Asset cl o =>
            snd (tx (fun w1 =>
              match map_err ErrErc20 (on_asset (Erc20.exec cl o)) (before w1) with
              | (Ok u, w2) => (Ok u, after w2)
              | other => other
              end) w)
        | _ => snd (tx (exec (hooked this asset before after) asset offset c) w)
        end
    end.
  Definition rrun (h : list rcall) (w : world) : world := fold_left rstep h w.
End vault.
