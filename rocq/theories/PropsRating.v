(** Properties of the standard test procedures.  Statements only; proofs in RatingFacts.v. *)

From Coq Require Import ZArith String List Bool Reals Lra Lia Floats Sorting.Sorted.
From Verif Require Import Num FNum Base Units Utils Types TankM Logic HeatSrc Step Setters Rating Spec SpecState SpecDist SpecStep.
From Verif Require Import RList FrameProofs SimFrame MixProofs DistProofs TankFacts ControlProofs StepEnergy EnergyFacts SettersFacts SeqProofs Example.
From Verif Require Import RatingFacts.
Import ListNotations.
Local Open Scope R_scope.

(** The minutes of a completed 24-hour test carry out the pattern of the designation: preceded by at
    least an hour without draws, 1441 minutes (0 to 1440) draw what [serves] prescribes. *)
Theorem C64_schedule : forall k fuel c d (w w' : hpwh R) s, 0 < t_volume (w_tank w) -> run24hrTest k fuel c d w = (Ok s, w') ->
  exists pre rows rest, ts_rows s = pre ++ rows /\ (60 <= length pre)%nat /\ Forall (fun r => td_draw r = 0) pre /\
    length rows = 1441%nat /\ map td_time rows = map Z.of_nat (seq 0 1441) /\
    serves (t_volume (w_tank w)) 0 true (pattern d) (map td_draw rows) rest.
Proof. exact C64_schedule_fact. Qed.
Print Assumptions C64_schedule.

(** If the tank holds at least a quarter of a gallon, every draw is completed and the volume removed is
    the daily volume of the standard: 10, 38, 55 or 84 gallons. *)
Theorem C64_total : forall k fuel c d (w w' : hpwh R) s, litre (1 / 4) <= t_volume (w_tank w) -> run24hrTest k fuel c d w = (Ok s, w') ->
  ts_removed s = litre (dailyGallons d).
Proof. exact C64_total_fact. Qed.
Print Assumptions C64_total.

(** No minute draws less than nothing or more than the tank holds; before any minute, no more has been
    drawn than the draws due before that minute amount to; and the total never exceeds 1441 tank volumes,
    so a tank of less than a 1441st of the daily volume does not complete the pattern. *)
Theorem C64_limits : forall k fuel c d (w w' : hpwh R) s, 0 < t_volume (w_tank w) -> run24hrTest k fuel c d w = (Ok s, w') ->
  exists pre rows, ts_rows s = pre ++ rows /\ length rows = 1441%nat /\
    Forall (fun r => 0 <= td_draw r <= t_volume (w_tank w)) rows /\
    (forall t, Rsum (firstn t (map td_draw rows)) <= dueBefore t (pattern d)) /\
    ts_removed s = Rsum (map td_draw rows) /\ ts_removed s <= 1441 * t_volume (w_tank w).
Proof. exact C64_limits_fact. Qed.
Print Assumptions C64_limits.

(** A completed test in floating-point arithmetic: the example unit, the smallest pattern. *)
Example C64_example : exists s w', run24hrTest 1000 100 conf_UEF VerySmall (exUnit (T:=float) (map fofZ [50; 50; 50; 50]%Z)) = (Ok s, w') /\
  length (ts_rows s) = 1501%nat /\ ts_qualifies s = true /\ PrimFloat.ltb (ts_removed s) 37.875 = true /\ PrimFloat.ltb 37.75 (ts_removed s) = true /\
  firstn 5 (map (fun r => PrimFloat.ltb 3.75 (td_draw r)) (skipn 60 (ts_rows s))) = [true; true; false; false; false].
Proof. exact C64_example_fact. Qed.

(** The designation found is the class of the volume found, boundary values belonging to the larger
    class. *)
Theorem C65_designation : forall k fuel (w w' : hpwh R) d v, findFirstHourRating k fuel w = (Ok (d, v), w') -> class_of v d.
Proof. exact C65_designation_fact. Qed.
Print Assumptions C65_designation.

(** The class is unique and grows with the volume. *)
Theorem C65_monotone : forall u v d e, class_of u d -> class_of v e -> (u <= v -> (rank d <= rank e)%nat) /\ (u = v -> d = e).
Proof. exact C65_monotone_fact. Qed.
Print Assumptions C65_monotone.

(** The volume of a completed rating.  The minutes of the rating take [hourRate] with the compressor
    locked out (mode 1), or nothing (mode 0).  Of all minutes of drawing the one in which a draw ends is
    not counted.  The last draw counts with a weight computed from the average outlet temperature of
    everything drawn so far ([drawnT]), not of that draw alone, and compares it with the same average at
    the end of the previous draw. *)
Theorem C65_volume : forall k fuel (w w' : hpwh R) d v, 0 < t_volume (w_tank w) -> findFirstHourRating k fuel w = (Ok (d, v), w') ->
  exists w2 vs ws, ran fuel conf_UEF w2 vs ws w' /\ (61 <= length vs)%nat /\
    Forall (fun x => x = (hourRate (t_volume (w_tank w)), 1%Z) \/ x = (0, 0%Z)) vs /\ ratedEnd (hourRate (t_volume (w_tank w))) v vs ws.
Proof. exact C65_volume_fact. Qed.
Print Assumptions C65_volume.

(** A unit that is not interrupted in its first draw for an hour is rated at its minute rate times the
    minutes of the draw; with at least 1.25 gallons it is in the largest class.  So a unit in a smaller
    class had a minute without drawing. *)
Theorem C65_sustained : forall k fuel (w w' : hpwh R) d v, litre (5 / 4) <= t_volume (w_tank w) -> findFirstHourRating k fuel w = (Ok (d, v), w') ->
  exists w2 vs ws, ran fuel conf_UEF w2 vs ws w' /\ (d <> High -> In (0, 0%Z) vs) /\ (v < litre 75 -> d <> High).
Proof. exact C65_sustained_fact. Qed.
Print Assumptions C65_sustained.

(** A completed rating in floating-point arithmetic. *)
Example C65_example : exists v w', findFirstHourRating 1000 100 (exUnit (T:=float) (map fofZ [50; 50; 50; 50]%Z)) = (Ok (Low, v), w') /\
  PrimFloat.ltb 149 v = true /\ PrimFloat.ltb v 150 = true.
Proof. exact C65_example_fact. Qed.

(** The record of a completed 24-hour test: at least an hour of minutes without draws, ending with no
    source engaged, numbered so that the last of them is minute -1, and then the minutes 0 to 1440.  Each
    row is what can be read off the unit after a step with that row's draw, with demand response mode 0
    throughout; the last hour is treated like the others.  The rows before minute 0 report an outlet
    temperature of 0. *)
Theorem C75_record : forall k fuel c d (w w' : hpwh R) s, run24hrTest k fuel c d w = (Ok s, w') ->
  exists w0 w1 pre rows ws0 ws, ts_rows s = pre ++ rows /\ (60 <= length pre)%nat /\ length rows = 1441%nat /\
    minutes fuel c (fun _ => 0) (- Z.of_nat (length pre)) w0 pre ws0 w1 /\ Forall (fun r => td_draw r = 0) pre /\ (forall h, In h (w_hs w1) -> h_on h = false) /\
    minutes fuel c outletOf 0 w1 rows ws w' /\ (forall r, In r (ts_rows s) -> td_dr r = 0%Z).
Proof. exact C75_record_fact. Qed.
Print Assumptions C75_record.

(** The totals are sums over the rows from minute 0 on: volume, heat delivered, energy used (which is
    all counted as electricity) and the average outlet temperature, weighted by the draws.  The average
    inlet temperature is the inlet temperature of the test.  The test counts as qualifying only if the
    unit heated in some minute. *)
Theorem C75_totals : forall k fuel c d (w w' : hpwh R) s, run24hrTest k fuel c d w = (Ok s, w') ->
  exists w1 pre rows ws, ts_rows s = pre ++ rows /\ minutes fuel c outletOf 0 w1 rows ws w' /\ length rows = 1441%nat /\
    ts_removed s = sumOver td_draw rows /\ ts_removed s <> 0 /\ ts_delivered s = sumOver rowDelivered rows /\
    ts_used s = sumOver rowUsed rows /\ ts_el s = ts_used s /\ ts_fossil s = 0 /\
    ts_avgOut s * ts_removed s = sumOver (fun r => td_draw r * td_outlet r) rows /\ ts_avgIn s = tc_inlet c /\ ts_designation s = d /\
    (ts_qualifies s = true -> exists v, In v ws /\ w_heating v = true).
Proof. exact C75_totals_fact. Qed.
Print Assumptions C75_totals.

(** The first recovery period ends in a minute [e] that is not heating and comes after a heating one;
    its volume, energy and heat delivered are the sums over the minutes 0 to [e], and the heat stored is that of warming the tank from its temperature before minute 0 to that
    after minute [e] - 1.  If the period never ends, the sums cover the whole day, no heat is counted as
    stored or delivered and the efficiency is 0. *)
Theorem C76_recovery : forall k fuel c d (w w' : hpwh R) s, run24hrTest k fuel c d w = (Ok s, w') ->
  exists w1 pre rows ws e, ts_rows s = pre ++ rows /\ minutes fuel c outletOf 0 w1 rows ws w' /\ length rows = 1441%nat /\
    let period := firstn (S e) rows in
    ts_recVol s = sumOver td_draw period /\ ts_recUsed s = sumOver rowUsed period /\
    ((ts_recEnd s = 0 /\ (1440 <= e)%nat /\ ts_recStored s = 0 /\ ts_recDelivered s = 0 /\ ts_recEff s = 0) \/
     (ts_recEnd s = INR e /\ (1 <= e <= 1440)%nat /\ ts_recDelivered s = sumOver rowDelivered period /\
      (exists v u, nth_error ws e = Some v /\ w_heating v = false /\ In u (firstn e ws) /\ w_heating u = true) /\
      (exists v, nth_error ws (e - 1) = Some v /\ ts_recStored s = waterHeat (t_volume (w_tank w)) (tankT v - tankT w1)))).
Proof. exact C76_recovery_fact. Qed.
Print Assumptions C76_recovery.

(** The recovery efficiency is the heat stored and delivered per energy used. *)
Theorem C76_efficiency : forall k fuel c d (w w' : hpwh R) s, run24hrTest k fuel c d w = (Ok s, w') ->
  (0 < ts_recUsed s -> ts_recEff s * ts_recUsed s = ts_recStored s + ts_recDelivered s) /\ (ts_recUsed s <= 0 -> ts_recEff s = 0).
Proof. exact C76_efficiency_fact. Qed.
Print Assumptions C76_efficiency.

(** The figures of the summary.  Energy consumed is the energy used less what the tank gained, at the
    recovery efficiency; the modified consumption replaces the heating energy of the test by that of the
    standard's temperature rise of 75 degrees Fahrenheit, and adjusts for the ambient temperature; the
    energy factor is the heat of the standard rise per modified consumption, and 0 if that is not
    positive.  All electricity: the annual electric energy is the annual energy. *)
Theorem C77_figures : forall k fuel c d (w w' : hpwh R) s, run24hrTest k fuel c d w = (Ok s, w') ->
  exists w1 pre rows ws, ts_rows s = pre ++ rows /\ length rows = 1441%nat /\ minutes fuel c outletOf 0 w1 rows ws w' /\
    ts_consumed s = ts_used s - perEff (waterHeat (t_volume (w_tank w)) (tankT w' - tankT w1)) (ts_recEff s) /\
    ts_heating s = perEff (ts_delivered s) (ts_recEff s) /\ ts_standard s = perEff (standardHeat (ts_removed s)) (ts_recEff s) /\
    ts_adjusted s = ts_consumed s - (355 / 18 - tc_amb c) * ts_stbyUA s * ts_noDrawTime s /\
    ts_modified s = ts_adjusted s + (ts_standard s - ts_heating s) /\
    (0 < ts_modified s -> ts_EF s * ts_modified s = standardHeat (ts_removed s)) /\ (ts_modified s <= 0 -> ts_EF s = 0) /\
    (0 < ts_used s -> ts_annualEl s = ts_annual s) /\ (ts_EF s <= 0 -> ts_annual s = 0).
Proof. exact C77_figures_fact. Qed.
Print Assumptions C77_figures.

(** Under the conditions of the uniform energy factor the ambient adjustment vanishes. *)
Theorem C77_no_adjustment : forall k fuel d (w w' : hpwh R) s, run24hrTest k fuel conf_UEF d w = (Ok s, w') -> ts_adjusted s = ts_consumed s.
Proof. exact C77_no_adjustment_fact. Qed.
Print Assumptions C77_no_adjustment.

(** The annual energy is meant to be that of 365 days of the day's volume warmed by 67 degrees
    Fahrenheit, at the energy factor.  It never is: 67 degrees are converted as a temperature, not as a
    difference, which makes 35 degrees of them. *)
Theorem C77_annual_refuted : forall k fuel c d (w w' : hpwh R) s, run24hrTest k fuel c d w = (Ok s, w') -> 0 < ts_EF s -> 0 < ts_removed s ->
  ts_annual s * ts_EF s = 35 / 67 * (365 * waterHeat (ts_removed s) (67 * 5 / 9)) /\ ts_annual s * ts_EF s < 365 * waterHeat (ts_removed s) (67 * 5 / 9).
Proof. exact C77_annual_refuted_fact. Qed.
Print Assumptions C77_annual_refuted.

(** In the example test the energy factor and the annual energy come out as positive, and the annual
    energy is little more than half of what it is meant to be. *)
Example C77_example : exists s w', run24hrTest 1000 100 conf_UEF VerySmall (exUnit (T:=float) (map fofZ [50; 50; 50; 50]%Z)) = (Ok s, w') /\
  PrimFloat.ltb 1.5 (ts_EF s) = true /\ PrimFloat.ltb 2.5 (ts_recEff s) = true /\ PrimFloat.ltb 690000 (ts_annual s) = true /\ PrimFloat.ltb (ts_annual s) 700000 = true /\
  PrimFloat.ltb 1300000 (365 * (4.125 * ts_removed s * (67 * 5 / 9)) / ts_EF s)%float = true.
Proof. exact C77_example_fact. Qed.

(** The standby period.  If the first recovery ends in minute [r], the period begins in minute [r] + 6,
    whatever the unit is doing then, and ends after minute [e], at most 479 minutes later; the energy is
    that of the minutes after the first.  The duration is a minute less than the period, so it can be
    minus a minute.  If no period begins, the duration is reported as 1439 minutes and the start
    temperature as 0. *)
Theorem C78_standby : forall k fuel c d (w w' : hpwh R) s, run24hrTest k fuel c d w = (Ok s, w') ->
  exists pre rows, ts_rows s = pre ++ rows /\ length rows = 1441%nat /\
  ((60 * ts_stbyDuration s = 1439 /\ ts_stbyStartT s = 0 /\ ts_stbyUsed s = 0) \/
   exists r m e, ts_recEnd s = INR r /\ m = (r + 6)%nat /\ (m <= e <= m + 479)%nat /\ (e <= 1440)%nat /\ 60 * ts_stbyDuration s = INR e - INR m - 1 /\
     ts_stbyUsed s = sumOver rowUsed (firstn (e - m) (skipn (S m) rows))) /\
  (0 < ts_stbyDuration s -> 0 < ts_recEff s -> ts_stbyLoss s * ts_stbyDuration s = ts_stbyUsed s - waterHeat (t_volume (w_tank w)) (ts_stbyEndT s - ts_stbyStartT s) / ts_recEff s).
Proof. exact C78_standby_fact. Qed.
Print Assumptions C78_standby.

(** In the example test the standby period runs from minute 106 to minute 494, and a gallon is drawn in
    minute 480: a draw that takes a single minute does not end the period. *)
Example C78_draw_refuted : exists s w' r, run24hrTest 1000 100 conf_UEF VerySmall (exUnit (T:=float) (map fofZ [50; 50; 50; 50]%Z)) = (Ok s, w') /\
  PrimFloat.eqb (ts_recEnd s) 100 = true /\ PrimFloat.eqb (60 * ts_stbyDuration s) (494 - 106 - 1)%float = true /\
  nth_error (ts_rows s) (60 + 480) = Some r /\ td_time r = 480%Z /\ PrimFloat.ltb 3.75 (td_draw r) = true.
Proof. exact C78_draw_refuted_fact. Qed.

(** A unit without heat sources, such as a storage tank, never completes the preparation, so neither a
    test nor a rating of it comes to an end, however many minutes are simulated. *)
Theorem C79_never_ready : forall k fuel c d (w : hpwh R), w_hs w = [] ->
  (forall r, fst (prepareForTest k fuel c w) <> Ok r) /\ (forall r, fst (findFirstHourRating k fuel w) <> Ok r) /\ (forall r, fst (run24hrTest k fuel c d w) <> Ok r).
Proof. exact C79_never_ready_fact. Qed.
Print Assumptions C79_never_ready.

(** The steps themselves are completed: 200 minutes of preparing a storage tank in floating point. *)
Example C79_example : exists w', prepareForTest 200 100 conf_UEF (set_w_storage true (set_w_compIx (-1) (set_w_hs [] (exUnit (T:=float) (map fofZ [50; 50; 50; 50]%Z))))) = (NoFuel, w') /\ w_hs w' = [].
Proof. exact C79_example_fact. Qed.

(** A completed step leaves the setpoint as it was, although it may be changed within the step, if it is
    above absolute zero. *)
Theorem C80_step : forall fuel inlet x (w w' : hpwh R), runOneStepInlet fuel inlet x w = (Ok tt, w') -> - (27315 / 100) < w_setpoint w -> w_setpoint w' = w_setpoint w.
Proof. exact C80_step_fact. Qed.
Print Assumptions C80_step.

(** Rating or testing a unit leaves it at the setpoint of the test, which is also that of every row. *)
Theorem C80_rating : forall k fuel (w w' : hpwh R) r, 0 < t_volume (w_tank w) -> findFirstHourRating k fuel w = (Ok r, w') -> exists sp, testSet w sp /\ (- (27315 / 100) < sp -> w_setpoint w' = sp).
Proof. exact C80_rating_fact. Qed.
Print Assumptions C80_rating.

Theorem C80_test : forall k fuel c d (w w' : hpwh R) s, run24hrTest k fuel c d w = (Ok s, w') ->
  exists sp, testSet w sp /\ (- (27315 / 100) < sp -> w_setpoint w' = sp /\ Forall (fun r => td_setpoint r = sp) (ts_rows s)).
Proof. exact C80_test_fact. Qed.
Print Assumptions C80_test.

(** The example unit has the setpoint 55 before a rating and 51 2/3 after it. *)
Example C80_example : exists r w', findFirstHourRating 1000 100 (exUnit (T:=float) (map fofZ [50; 50; 50; 50]%Z)) = (Ok r, w') /\
  PrimFloat.eqb (w_setpoint (exUnit (T:=float) (map fofZ [50; 50; 50; 50]%Z))) 55 = true /\ PrimFloat.ltb 51.625 (w_setpoint w') = true /\ PrimFloat.ltb (w_setpoint w') 51.75 = true.
Proof. exact C80_example_fact. Qed.
