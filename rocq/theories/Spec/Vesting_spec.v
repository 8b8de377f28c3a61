(** Specification vocabulary for the vesting wallet. *)
From Verif.Base Require Import Prelude Maps.
From Verif.Model Require Ownable Erc20 SafeErc20 Erc20World Vesting.
From Verif.Spec Require Import Erc20_spec World_spec Erc4626_spec.
From stdpp Require Import gmap.
Import Vesting.
#[global] Open Scope Z_scope.

Section spec.
  Context (this token start duration : Z).

  (** [v] is the vested part of [total] at time [t]. *)
  Definition vested (total t v : Z) : Prop :=
    (t < start /\ v = 0) \/
    (start <= t < start + duration /\ is_floor (total * (t - start)) duration v) \/
    (start <= t /\ start + duration <= t /\ v = total).

  (** Native money that entered / left the wallet so far. *)
  Fixpoint received (l : list (Z * Z * Z)) : Z :=
    match l with
    | [] => 0
    | (f, t, v) :: l' => (if t =? this then v else 0) + received l'
    end.
  Fixpoint paid_out (l : list (Z * Z * Z)) : Z :=
    match l with
    | [] => 0
    | (f, t, v) :: l' => (if f =? this then v else 0) + paid_out l'
    end.

  Notation W := (world Erc20World.world).
  Definition total_in (w : W) : Z := received (transfers (nat_ w)).
  Definition total_out (w : W) : Z := paid_out (transfers (nat_ w)).
  Definition eth_balance (w : W) : Z := balance_of (nat_ w) this.
  Definition token_balance (w : W) : Z := asset_bal (toks w) this.
  Definition owner (w : W) : Z := Ownable.owner (own (wal w)).

  (** Realistic actions: money and token calls are made by others, amounts are 256-bit
      words. (Ownership may go to any address, also to the wallet itself.) *)
  Fixpoint act_wf (a : act) : Prop :=
    match a with
    | ReleaseEth p => prog_wf p
    | ReleaseToken _ => True
    | Own _ _ => True
    | Send f t v => f <> this
    | Token c o => c <> this /\ Erc20.op_wf o /\ third_party_op o
    end
  with prog_wf (p : prog) : Prop :=
    match p with Then _ a p' => act_wf a /\ prog_wf p' | _ => True end.
  Definition call_wf (c : call) : Prop :=
    match c with Do a => act_wf a | Wait d => 0 <= d end.

  (** A freshly deployed wallet with owner [o] at time [t0], on a chain with any
      distribution of native currency. *)
  Definition initial (w : W) : Prop :=
    exists o t0 m, 0 <= t0 /\ mnonneg m /\ msum m < two256 /\ mget m this = 0 /\
      w = mkw (mkwal (Ownable.mk o []) 0 ∅ []) (mknat m []) t0 Erc20World.winit.
  Definition reachable (w : W) : Prop :=
    exists w0 h, initial w0 /\ Forall call_wf h /\ w = run this token start duration h w0.
End spec.
