(** Vocabulary for external condensers. *)

From Coq Require Import ZArith List Bool Reals.
From Verif Require Import Num Base Types Logic HeatSrc Step Spec SpecState SpecDist SpecEnergy SpecStep.
Import ListNotations.
Local Open Scope R_scope.

(** a shut-off logic that stops heating when some water is warmer than a value *)
Definition stopsHot (l : logic R) : Prop :=
  match l with
  | TempLogic _ d _ _ c _ _ => c = CGreater /\ (d_type d = DWeighted -> goodDist (d_w d))
  | SoCLogic _ _ _ _ _ _ _ _ => False
  end.

(** a condenser that takes water from the bottom of a tank of [n] nodes and returns it at the top *)
Definition wholeHeight (n : nat) (h : hsrc R) : Prop :=
  h_extOut h = 0%Z /\ h_extIn h = (Z.of_nat n - 1)%Z.

(** number of passes that heat a tank of [n] nodes from [lo] to [sp]: one for every ten thousandth of a degree
    of every node, one for every node, and two *)
Definition passes (n : nat) (sp lo : R) : R := INR n * (1 + (sp - lo) * 10000) + 2.

(** the external condensers of a unit finish their loops within [fuel] passes: multi-pass ones have ports at
    existing nodes and a flow; single-pass ones take water from the bottom of a tank of at least twelve nodes, return it
    at the top and are stopped by hot water, and have positive output ([D]) from a temperature [lo] with [Q] up to the setpoint *)
Definition extReady (fuel : nat) (D Q : R -> Prop) (w : hpwh R) : Prop :=
  forall h, In h (w_hs w) -> h_type h = TCompressor -> h_config h = External ->
  let n := length (t_Ts (w_tank w)) in
  if h_multipass h then
    (0 <= h_extOut h <= h_extIn h)%Z /\ (h_extIn h < Z.of_nat n)%Z /\
    h_mpFlow h * (w_minStep w * 60) / t_nodeVol (w_tank w) <= INR fuel
  else
    wholeHeight n h /\ (12 <= n)%nat /\ Forall stopsHot (h_shutOff h) /\
    exists lo, (forall c, lo <= c <= w_setpoint w -> D c) /\ Q lo /\ passes n (w_setpoint w) lo <= INR fuel.
