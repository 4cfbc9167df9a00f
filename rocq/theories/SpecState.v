(** Predicates on model states used in the statements of the properties. *)

From Coq Require Import ZArith List Bool Reals.
From Verif Require Import Num Base Units Types Spec.
Import ListNotations.
Local Open Scope R_scope.

(** a tank whose derived sizes agree with its volume (what the size computation establishes) *)
Record wf_tank (t : tank R) : Prop := {
  wf_n : (0 < length (t_Ts t))%nat;
  wf_vol : 0 < t_volume t;
  wf_nodeVol : t_nodeVol t = t_volume t / INR (length (t_Ts t));
  wf_nodeCp : t_nodeCp t = CPWATER * DENSITYWATER * t_nodeVol t
}.

(** both inlets are at existing nodes *)
Definition ports_ok (t : tank R) : Prop :=
  (0 <= t_inlet t < Z.of_nat (length (t_Ts t)))%Z /\ (0 <= t_inlet2 t < Z.of_nat (length (t_Ts t)))%Z.

(** only node temperatures and the outlet temperature may differ *)
Definition sameTank (t t' : tank R) : Prop :=
  length (t_Ts t') = length (t_Ts t) /\ t' = set_t_outletT (t_outletT t') (set_t_Ts (t_Ts t') t).

(** heat (kJ) stored in the tank: density * heat capacity * volume of a node * sum of temperatures *)
Definition tankHeat (t : tank R) : R :=
  CPWATER * DENSITYWATER * (t_volume t / INR (length (t_Ts t))) * Rsum (t_Ts t).
