(** Properties of the procedures that set units up.  Statements only; proofs in InitsFacts.v. *)

From Coq Require Import ZArith String List Bool Reals Lra Lia Floats Sorting.Sorted.
From Verif Require Import Num FNum Base Units Utils Types TankM Logic HeatSrc Step Setters Config Perf Rating Fitter DataModel Init Spec SpecState SpecDist SpecEnergy SpecStep.
From Verif Require Import RList FrameProofs SimFrame MixProofs DistProofs TankFacts ControlProofs SeqProofs WholeStep Progress StepProgress EnergyFacts SettersFacts SourcesFacts ConfigFacts PerfFacts Example.
From Verif Require Import InitsFacts.
Import ListNotations.
Local Open Scope R_scope.

(** C89: setting up a resistance tank succeeds exactly if the lower element has at least 550 W, the upper one not less than 0 W, and
    energy factor and volume are positive; otherwise an exception is thrown. *)
Theorem C89_accepts : forall jt jb vol EF upper lower (w : hpwh R),
  (550 <= lower /\ 0 <= upper /\ 0 < EF /\ 0 < vol -> exists w', initResistanceTank jt jb vol EF upper lower w = (Ok tt, w')) /\
  (~ (550 <= lower /\ 0 <= upper /\ 0 < EF /\ 0 < vol) -> exists e w', initResistanceTank jt jb vol EF upper lower w = (Err e, w')).
Proof. exact C89_accepts_fact. Qed.
Print Assumptions C89_accepts.

(** its result: the settings common to all procedures, and one or two elements of the given power (kW). *)
Theorem C89_result : forall jt jb vol EF upper lower (w w' : hpwh R), initResistanceTank jt jb vol EF upper lower w = (Ok tt, w') ->
  freshUnit vol (t_UA (w_tank w')) (w_hs w') w' /\ w_canScale w' = false /\
  map h_type (w_hs w') = (if Rlt_dec 0 upper then [TResistance; TResistance] else [TResistance]) /\
  map h_power (w_hs w') = (if Rlt_dec 0 upper then [upper / 1000; lower / 1000] else [lower / 1000]) /\
  map h_vip (w_hs w') = (if Rlt_dec 0 upper then [true; false] else [false]) /\
  map h_followed (w_hs w') = (if Rlt_dec 0 upper then [Some 1%nat; None] else [None]) /\
  Forall (fun h => h_on h = false /\ h_backup h = None /\ h_companion h = None /\ h_shutOff h = []) (w_hs w').
Proof. exact C89_result_fact. Qed.
Print Assumptions C89_result.

Example C89_example : (forall jt jb (w : hpwh R), exists w', initResistanceTank_default jt jb w = (Ok tt, w')) /\
  (forall jt jb (w : hpwh R), exists e w', initResistanceTank jt jb 180 (95 / 100) 4500 500 w = (Err e, w')).
Proof. exact C89_example_fact. Qed.

(** C90: the heat loss coefficient of the tank reproduces the energy factor asked for: in Btu/h-F it solves
    1/EF = 1/0.98 + 67.5 UA (24/41094 - 1/(0.98 P)), P the power of the lower element in Btu/h; an energy factor of 0.98 or more
    means no losses at all. *)
Theorem C90_energy_factor : forall jt jb vol EF upper lower (w w' : hpwh R), initResistanceTank jt jb vol EF upper lower w = (Ok tt, w') ->
  let UA := t_UA (w_tank w') * (9478 / 10000) / (18 / 10) in let P := lower * (341443 / 100000) in
  0 <= UA /\
  (EF <= 98 / 100 -> 1 / EF = 1 / (98 / 100) + 675 / 10 * UA * (24 / 41094 - 1 / (98 / 100 * P))) /\
  (98 / 100 <= EF -> UA = 0) /\ (UA = 0 -> 98 / 100 <= EF).
Proof. exact C90_energy_factor_fact. Qed.
Print Assumptions C90_energy_factor.

(** ... and a higher energy factor never means higher losses. *)
Theorem C90_monotone : forall jt jb vol EF1 EF2 upper lower (w w1 w2 : hpwh R), EF1 <= EF2 ->
  initResistanceTank jt jb vol EF1 upper lower w = (Ok tt, w1) -> initResistanceTank jt jb vol EF2 upper lower w = (Ok tt, w2) ->
  t_UA (w_tank w2) <= t_UA (w_tank w1).
Proof. exact C90_monotone_fact. Qed.
Print Assumptions C90_monotone.

Example C90_example : forall jt jb (w w' : hpwh R), initResistanceTank jt jb 180 (98 / 110) 4500 4500 w = (Ok tt, w') ->
  29 / 10 * (18 / 10) / (9478 / 10000) < t_UA (w_tank w') < 295 / 100 * (18 / 10) / (9478 / 10000).
Proof. exact C90_example_fact. Qed.

(** C91: right after the set-up, a tank of a litre or more completes every step of operation whatever the ambient and outside air,
    the draw and the demand response signal, and the heat of its water changes by exactly what the elements delivered less the
    losses and the drawn heat. The inlet temperature need not have been given: the water drawn is then replaced by water of -1 C. *)
Theorem C91_step : forall jt jb vol EF upper lower (w w' : hpwh R), initResistanceTank jt jb vol EF upper lower w = (Ok tt, w') -> 1 <= vol ->
  w_haveInletT w' = false /\
  forall fuel x, (144 < fuel)%nat -> (0 < i_draw x -> i_vol2 x <= i_draw x) -> i_draw x * 12 / vol <= INR fuel -> extraList x = [] ->
  exists w2, runOneStep fuel x w' = (Ok tt, w2) /\
    tankHeat (w_tank w2) = tankHeat (w_tank w') + drawnHeat false (i_draw x) (-1) (i_vol2 x) (i_inT2 x) (t_outletT (w_tank w2))
      + 3600 * Rsum (map h_eOut (w_hs w2)) - 3600 * w_stbyE w2 /\
    Forall (fun h => 0 <= h_eOut h) (w_hs w2).
Proof. exact C91_step_fact. Qed.
Print Assumptions C91_step.

(** ... and so does every run of steps in which water is drawn, with the inlet temperatures of the rows. *)
Theorem C91_run : forall jt jb vol EF upper lower (w w' : hpwh R), initResistanceTank jt jb vol EF upper lower w = (Ok tt, w') -> 1 <= vol ->
  forall fuel rows, (144 < fuel)%nat -> (forall r, In r rows -> 0 <= r_draw r /\ r_draw r * 12 / vol <= INR fuel) -> Rsum (map r_draw rows) <> 0 ->
  exists w2, runNSteps fuel rows w' = (Ok tt, w2) /\
    tankHeat (w_tank w2) = tankHeat (w_tank w')
      + CPWATER * DENSITYWATER * (Rsum (map (fun r => r_draw r * r_inletT r) rows) - t_outletT (w_tank w2) * Rsum (map r_draw rows))
      + 3600 * Rsum (map h_eOut (w_hs w2)) - 3600 * w_stbyE w2.
Proof. exact C91_run_fact. Qed.
Print Assumptions C91_run.

(** C30: over a whole run of steps with ambient and inlet temperatures between [lo] and [hi], the water of a calm unit stays
    between [lo] and [hi] at the end of every step. *)
Theorem C30_run_range : forall fuel D lo hi rows (w wl : hpwh R) ws, (forall air, In air (map r_ext rows) -> unitOK air D w) -> (forall c, lo <= c <= hi -> D c) ->
  calmUnit lo hi w -> w_doDepress w = false -> (forall r, In r rows -> lo <= r_amb r <= hi /\ lo <= r_inletT r <= hi) ->
  SeqProofs.runs fuel rows w ws wl -> Forall (fun v => within lo hi (t_Ts (w_tank v))) ws.
Proof. exact C30_run_range_fact. Qed.
Print Assumptions C30_run_range.

(** ... and while ambient and inlet temperatures stay between [lo] and [hi], a range containing the setpoint of 127 F (475/9 C),
    so does all the water at the end of every step of the run; the losses must not exceed 100 kJ/h-C per litre. *)
Theorem C91_range : forall jt jb vol EF upper lower (w w' : hpwh R), initResistanceTank jt jb vol EF upper lower w = (Ok tt, w') ->
  t_UA (w_tank w') <= 100 * vol ->
  forall fuel rows ws wl lo hi, lo <= 475 / 9 <= hi -> (forall r, In r rows -> lo <= r_amb r <= hi /\ lo <= r_inletT r <= hi) ->
  SeqProofs.runs fuel rows w' ws wl -> Forall (fun v => within lo hi (t_Ts (w_tank v))) ws.
Proof. exact C91_range_fact. Qed.
Print Assumptions C91_range.

Example C91_example : forall jt jb (w : hpwh R), exists w' w2, initResistanceTank jt jb 180 (98 / 110) 4500 4500 w = (Ok tt, w') /\
  runNSteps 145 [mkrow (T:=R) 10 3 20 20 0%Z; mkrow 15 5 20 20 0%Z] w' = (Ok tt, w2) /\ t_UA (w_tank w') <= 100 * 180.
Proof. exact C91_example_fact. Qed.

(** C92: a rejected set-up is not undone: the unit has lost its heat sources (and, unless the volume was the reason, its nodes),
    yet still answers that it has a compressor if it had one; asking about the compressor or about a new setpoint then reads a
    heat source that does not exist. *)
Theorem C92_rejected : forall jt jb vol EF upper lower e (w w' : hpwh R), initResistanceTank jt jb vol EF upper lower w = (Err e, w') ->
  w_hs w' = [] /\ hasCompressor w' = hasCompressor w /\ (550 <= lower -> 0 <= upper -> 0 < EF -> vol <= 0) /\ (~ (550 <= lower /\ 0 <= upper /\ 0 < EF) -> t_Ts (w_tank w') = []) /\
  (hasCompressor w = true -> (forall u, exists m, getMaxCompressorSetpoint u w' = UB m) /\ forall new, exists m, isNewSetpointPossible new U_C w' = UB m).
Proof. exact C92_rejected_fact. Qed.
Print Assumptions C92_rejected.

(** so the natural reading - a unit that answers that it has a compressor also tells its highest setpoint - fails. *)
Theorem C92_compressor_known_refuted : exists jt jb vol EF upper lower e (w w' : hpwh R), initResistanceTank jt jb vol EF upper lower w = (Err e, w') /\
  hasCompressor w' = true /\ ~ exists x, getMaxCompressorSetpoint U_C w' = Ok x.
Proof. exact C92_compressor_known_refuted_fact. Qed.
Print Assumptions C92_compressor_known_refuted.

(** C93: the generic resistance tank is accepted exactly for non-negative powers, not both zero, a positive R-value and a positive volume. *)
Theorem C93_accepts : forall jt jb vol Rv upper lower (w : hpwh R),
  let ok := 0 <= lower /\ 0 <= upper /\ 0 < Rv /\ 0 < vol /\ (0 < upper \/ 0 < lower) in
  (ok -> exists w', initResistanceTankGeneric jt jb vol Rv upper lower w = (Ok tt, w')) /\
  (~ ok -> exists e w', initResistanceTankGeneric jt jb vol Rv upper lower w = (Err e, w') /\ w_hs w' = []).
Proof. exact C93_accepts_fact. Qed.
Print Assumptions C93_accepts.

(** the tank loses, per degree and square metre of its surface, what the R-value says (UA in kJ/h-C, 3.6 kJ/h per W); it has an
    element for each positive power, the upper one followed by the lower one, and its size may be changed. *)
Theorem C93_result : forall jt jb vol Rv upper lower (w w' : hpwh R), initResistanceTankGeneric jt jb vol Rv upper lower w = (Ok tt, w') ->
  freshUnit vol (t_UA (w_tank w')) (w_hs w') w' /\ w_canScale w' = true /\
  t_UA (w_tank w') * Rv = surfaceArea_m2 vol * (36 / 10) /\
  map h_power (w_hs w') = ((if Rlt_dec 0 upper then [upper / 1000] else []) ++ (if Rlt_dec 0 lower then [lower / 1000] else []))%list /\
  Forall (fun h => h_type h = TResistance /\ h_on h = false) (w_hs w') /\
  forall air D, unitOK air D w' /\ unitReady air D w'.
Proof. exact C93_result_fact. Qed.
Print Assumptions C93_result.

Example C93_example : forall jt jb (w : hpwh R), (exists w', initResistanceTankGeneric jt jb 200 2 0 3000 w = (Ok tt, w')) /\ (exists e w', initResistanceTankGeneric jt jb 200 2 0 0 w = (Err e, w')).
Proof. exact C93_example_fact. Qed.
