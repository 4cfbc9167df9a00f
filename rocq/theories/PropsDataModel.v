(** Properties of writing a simulator to the data model and reading it back.  Statements only; proofs in DataModelFacts.v. *)

From Coq Require Import ZArith String List Bool Reals Lra Lia Floats.
From Verif Require Import Num FNum Base Units Utils Types TankM Logic HeatSrc Step Setters Perf DataModel Spec SpecDist.
From Verif Require Import RList FrameProofs SimFrame ControlProofs DistFacts PerfFacts StepEnergy SeqProofs Example.
From Verif Require Import DataModelFacts.
Import ListNotations.
Local Open Scope R_scope.

(** A temperature logic read back from what was written for it makes the same decisions: it is met in
    the same states, has the same limit and asks for the same fraction of a step.  Its description and
    its mark as an entering-water high-temperature shutoff are not kept. *)
Theorem C67_temperature_logic : forall desc (d : distribution R) dp isAbs c hts stby,
  l_isValid (TempLogic desc d dp isAbs c hts stby) = true ->
  exists label d', logicMake (logicTo (TempLogic desc d dp isAbs c hts stby)) = Ok (Some (TempLogic label d' dp isAbs c false stby)) /\
    sameDecisions (TempLogic desc d dp isAbs c hts stby) (TempLogic label d' dp isAbs c false stby).
Proof. exact C67_temperature_logic_fact. Qed.
Print Assumptions C67_temperature_logic.

Example C67_example :
  l_isValid (TempLogic "fourth sixth" (mkdist DWeighted [(1 / 3, 0); (2 / 3, 2); (1, 1)]) (dF_TO_dC 20) false CLess false true) = true /\
  exists l', logicMake (logicTo (TempLogic "fourth sixth" (mkdist DWeighted [(1 / 3, 0); (2 / 3, 2); (1, 1)]) (dF_TO_dC 20) false CLess false true)) = Ok (Some l') /\
    l' <> TempLogic "fourth sixth" (mkdist DWeighted [(1 / 3, 0); (2 / 3, 2); (1, 1)]) (dF_TO_dC 20) false CLess false true.
Proof. exact C67_example_fact. Qed.

(** A state-of-charge logic is not kept: whatever its settings, what is read back has the target 0, a
    hysteresis fraction of -0.05, the comparison "less than" and no constant mains temperature.  In no
    state with a charge of at least zero is it met. *)
Theorem C67_charge_logic : forall desc (dp hyst tMin : R) cm mains c stby,
  exists l', logicMake (logicTo (SoCLogic desc dp hyst tMin cm mains c stby)) = Ok (Some l') /\
    (forall w, l_comparison w l' = - (5 / 100)) /\ l_cmp l' = CLess /\
    (forall w, 0 <= w_SoC w -> l_met w l' <> Ok true).
Proof. exact C67_charge_logic_fact. Qed.
Print Assumptions C67_charge_logic.

(** So the natural claim is false for charge logics: one that calls for heat does not after the round trip. *)
Theorem C67_charge_refuted : exists (l l' : logic R) w,
  logicMake (logicTo l) = Ok (Some l') /\ l_isValid l = true /\ l_met w l = Ok true /\ l_met w l' = Ok false.
Proof. exact C67_charge_refuted_fact. Qed.
Print Assumptions C67_charge_refuted.

(** A tank read back into any tank has the volume, the loss coefficients and the heat exchanger of the
    one written, and mixes on draws like it; the remaining members are those of the tank read into. *)
Theorem C68_tank : forall (t t0 : tank R), let t' := tankFrom (tankTo t) t0 in
  t_volume t' = t_volume t /\ t_UA t' = t_UA t /\ t_fitUA t' = t_fitUA t /\
  (t_mixesOnDraw t' = true <-> t_mixesOnDraw t = true /\ 0 < t_mixBelowFrac t) /\
  (t_mixesOnDraw t = true -> t_mixBelowFrac t' = t_mixBelowFrac t) /\
  t_hasHX t' = t_hasHX t /\ (t_hasHX t = true -> t_hxEff t' = t_hxEff t) /\
  t_Ts t' = t_Ts t0 /\ t_fixed t' = t_fixed t0 /\ t_inlet t' = t_inlet t0 /\ t_inlet2 t' = t_inlet2 t0 /\
  t_doMix t' = t_doMix t0 /\ t_doCond t' = t_doCond t0 /\ t_nodeVol t' = t_nodeVol t0 /\ t_nodeCp t' = t_nodeCp t0.
Proof. exact C68_tank_fact. Qed.
Print Assumptions C68_tank.

(** The fraction of a tank that does not mix on draws is not kept. *)
Theorem C68_fraction_refuted : exists t : tank R, t_mixBelowFrac (tankFrom (tankTo t) t) <> t_mixBelowFrac t.
Proof. exact C68_fraction_refuted_fact. Qed.
Print Assumptions C68_fraction_refuted.

(** In doubles the volume of a 67 gallon tank in litres does not survive the conversion to cubic metres and back. *)
Theorem C68_volume_refuted : exists t : tank float, neqb (t_volume (tankFrom (tankTo t) t)) (t_volume t) = false /\
  nltb (nofZ 253) (t_volume t) = true /\ nltb (t_volume t) (nofZ 254) = true.
Proof. exact C68_volume_refuted_fact. Qed.
Print Assumptions C68_volume_refuted.
