(** Steps and runs of units with external condensers complete.  Statements only; proofs in ExtRunFacts.v. *)

From Coq Require Import ZArith String List Bool Reals Lra Lia Floats.
From Verif Require Import Num FNum Base Units Utils Types TankM Logic HeatSrc Step Report Cli Spec SpecState SpecDist SpecEnergy SpecStep SpecExt.
From Verif Require Import RList FrameProofs SimFrame MixProofs DrawProofs TankProofs StandbyProofs HeatProofs ControlProofs SeqProofs.
From Verif Require Import CsvFacts.
From Verif Require Import DistProofs EnergyProofs ExtProofs StepEnergy WholeStep AvgProofs Progress ExtProgress SPProgress StepProgress RunsFacts EnergyFacts SinglePassFacts CommandFacts Example.
From Verif Require Import ExtRunFacts.
Import ListNotations.
Local Open Scope R_scope.

(** C101: a step of a sound and ready unit completes also when its compressor heats the water outside the tank, at one pass or at many, and leaves the setpoint as it was. *)
Theorem C101_step_completes : forall fuel x D (w : hpwh R), unitOK (sourceAir w x) D w -> covered D x w -> unitReadyX True (sourceAir w x) D w ->
  extReady fuel D (fun lo => calm lo (w_setpoint w) x w) w ->
  0 < w_minStep w -> (w_doDepress w = true -> w_minStep w = 1) ->
  (0 < i_draw x -> i_vol2 x <= i_draw x) -> t_mixBelowFrac (w_tank w) <= 1 ->
  (t_doCond (w_tank w) = true -> condTau (w_tank w) (w_secStep w) <= 1) ->
  extraList x = [] ->
  (length (t_Ts (w_tank w)) * length (t_Ts (w_tank w)) < fuel)%nat -> i_draw x / t_nodeVol (w_tank w) <= INR fuel ->
  exists w', runOneStep fuel x w = (Ok tt, w') /\ w_setpoint w' = w_setpoint w.
Proof. exact C101_step_completes_fact. Qed.
Print Assumptions C101_step_completes.

(** C101: so does a run of any number of steps, and its heat is accounted for. *)
Theorem C101_run_completes : forall fuel D rows (w : hpwh R), w_doDepress w = false -> 0 < w_minStep w -> coveredRun D rows w ->
  (forall r, In r rows -> unitOK (r_ext r) D w /\ unitReadyX True (r_ext r) D w /\ 0 <= r_draw r /\ r_draw r / t_nodeVol (w_tank w) <= INR fuel) ->
  extReady fuel D (fun lo => calmRun rows lo (w_setpoint w) w) w ->
  Rsum (map r_draw rows) <> 0 ->
  t_mixBelowFrac (w_tank w) <= 1 -> (t_doCond (w_tank w) = true -> condTau (w_tank w) (w_secStep w) <= 1) ->
  (length (t_Ts (w_tank w)) * length (t_Ts (w_tank w)) < fuel)%nat ->
  exists w', runNSteps fuel rows w = (Ok tt, w') /\
    tankHeat (w_tank w') = tankHeat (w_tank w)
      + CPWATER * DENSITYWATER * (Rsum (map (fun r => r_draw r * r_inletT r) rows) - t_outletT (w_tank w') * Rsum (map r_draw rows))
      + 3600 * Rsum (map h_eOut (w_hs w')) - 3600 * w_stbyE w'.
Proof. exact C101_run_completes_fact. Qed.
Print Assumptions C101_run_completes.

(** C101: a tank of 24 nodes at 20 degrees, heated by one pass through the condenser, over three steps with draws. *)
Example C101_run_example : exists fuel w', runNSteps fuel exRowsR (exSPUnit (exOff 60) exTsS) = (Ok tt, w').
Proof. exact C101_run_example_fact. Qed.

Example C101_step_example : exists fuel w', runOneStep fuel (exIn 8 20 0) (exSPUnit (exOff 60) exTsS) = (Ok tt, w').
Proof. exact C101_step_example_fact. Qed.

(** C101: the run command completes for the same unit, whatever the number of minutes below 500000. *)
Example C101_command_example : forall n, (0 < n < 500000)%Z -> exists fuel cols cells s w',
  simulate fuel (exConf n) (exSPUnit (exOff 60) exTsS) = (Ok s, w') /\ lp_lines s = LHead cols :: map LRow cells /\
  tableOf fuel cols 0 (exSPUnit (exOff 60) exTsS) (repeat exRow1 (Z.to_nat n)) cells w'.
Proof. exact C101_command_example_fact. Qed.

Example C101_multi_pass_example : exists w', runNSteps 100 exRowsR exMPUnit = (Ok tt, w').
Proof. exact C101_multi_pass_example_fact. Qed.
