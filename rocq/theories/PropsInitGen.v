(** Properties of the procedure that sets up a generic heat-pump water heater.  Statements only; proofs in InitGenFacts.v. *)

From Coq Require Import ZArith String List Bool Reals Lra Lia Floats Sorting.Sorted.
From Verif Require Import Num FNum Base Units Utils Types TankM Logic HeatSrc Step Setters Config Perf Rating Fitter DataModel Init Spec SpecState SpecDist SpecEnergy SpecStep.
From Verif Require Import RList FrameProofs SimFrame MixProofs DistProofs TankFacts ControlProofs SeqProofs WholeStep Progress StepProgress EnergyFacts SettersFacts SourcesFacts ConfigFacts PerfFacts InitsFacts Example.
From Verif Require Import InitGenFacts.
Import ListNotations.
Local Open Scope R_scope.

(** C94: the generic heat pump is set up for every positive volume and every energy factor but -1.92 (where COPs are scaled by zero);
    a volume that is not positive is reported, leaving three heat sources without links between them and the old volume. *)
Theorem C94_accepts : forall jt jb jc vol EF resUse (w : hpwh R),
  (0 < vol /\ EF <> -192 / 100 <-> exists w', initGeneric jt jb jc vol EF resUse w = (Ok tt, w')) /\
  (vol <= 0 -> exists e w', initGeneric jt jb jc vol EF resUse w = (Err e, w') /\ map h_type (w_hs w') = [TResistance; TResistance; TCompressor] /\
     Forall (fun h => h_backup h = None /\ h_followed h = None) (w_hs w') /\ t_volume (w_tank w') = t_volume (w_tank w)).
Proof. exact C94_accepts_fact. Qed.
Print Assumptions C94_accepts.

(** The energy factor changes the efficiency and not the capacity: at every air and water temperature the output of the compressor is
    that of the underlying map, and its COP is 70% of the map's at an energy factor of 2, 95% at 3.4 and linear in between and beyond. *)
Theorem C94_performance : forall jt jb jc vol EF resUse (w w' : hpwh R), initGeneric jt jb jc vol EF resUse w = (Ok tt, w') ->
  exists a b c, w_hs w' = [a; b; c] /\ h_type a = TResistance /\ h_type b = TResistance /\ h_type c = TCompressor /\ h_config c = Wrapped /\
  h_power a = 45 / 10 /\ h_power b = 4 /\ h_minT c = 65 / 9 /\ h_maxT c = 440 / 9 /\
  forall (v : hpwh R) air water, exists p, getPerformance v c air water = Ok p /\
    let u := 9 / 5 * air + 32 in let x := 9 / 5 * water + 32 in
    let cop := lin2 (54977772 / 10000000) (-243008 / 10000000) (7207307 / 1000000) (-335265 / 10000000) u x in
    let inp := lin2 (187064124 / 1000000) (1939747 / 1000000) (1480418 / 10000) (2553291 / 1000000) u x in
    let f := 70 / 100 + (95 / 100 - 70 / 100) * ((EF - 2) / (34 / 10 - 2)) in
    p_out p = cop * inp /\ p_cop p = f * cop /\ f * p_in p = inp.
Proof. exact C94_performance_fact. Qed.
Print Assumptions C94_performance.

(** No energy factor is rejected: below -1.92 the compressor heats with a negative power. *)
Theorem C94_positive_power_refuted : exists jt jb jc vol EF resUse (w w' : hpwh R) c p, initGeneric jt jb jc vol EF resUse w = (Ok tt, w') /\
  nth_error (w_hs w') 2 = Some c /\ getPerformance w' c 20 20 = Ok p /\ 0 < p_out p /\ p_in p < 0 /\ p_cop p < 0.
Proof. exact C94_positive_power_refuted_fact. Qed.
Print Assumptions C94_positive_power_refuted.

(** With air between 45 F and 120 F (65/9 C to 440/9 C), inside its operating range, and inlet and ambient temperatures between 0 C and 60 C, a unit of a litre or more,
    whatever its energy factor, completes every run of steps in which water is drawn, keeps its water between 0 C and 60 C throughout, and balances. *)
Theorem C94_runs : forall jt jb jc vol EF resUse (w w' : hpwh R), initGeneric jt jb jc vol EF resUse w = (Ok tt, w') -> 1 <= vol ->
  forall fuel rows, (144 < fuel)%nat ->
  (forall r, In r rows -> 0 <= r_draw r /\ r_draw r * 12 / vol <= INR fuel /\ 65 / 9 <= r_ext r <= 440 / 9 /\ 0 <= r_amb r <= 60 /\ 0 <= r_inletT r <= 60) -> Rsum (map r_draw rows) <> 0 ->
  exists ws wl w2, SeqProofs.runs fuel rows w' ws wl /\ runNSteps fuel rows w' = (Ok tt, w2) /\ Forall (fun v => within 0 60 (t_Ts (w_tank v))) ws /\
    tankHeat (w_tank w2) = tankHeat (w_tank w')
      + CPWATER * DENSITYWATER * (Rsum (map (fun r => r_draw r * r_inletT r) rows) - t_outletT (w_tank w2) * Rsum (map r_draw rows))
      + 3600 * Rsum (map h_eOut (w_hs w2)) - 3600 * w_stbyE w2.
Proof. exact C94_runs_fact. Qed.
Print Assumptions C94_runs.

Example C94_example : forall jt jb jc (w : hpwh R), exists w' w2, initGeneric jt jb jc 190 2 10 w = (Ok tt, w') /\
  runNSteps 145 [mkrow (T:=R) 10 3 20 20 0%Z; mkrow 15 5 20 12 0%Z] w' = (Ok tt, w2).
Proof. exact C94_example_fact. Qed.
