(** The command "hpwh run": its loop completes, and the file it writes holds one line for each minute or day..  Statements only; proofs in CommandFacts.v. *)

From Coq Require Import ZArith String List Bool Reals Lra Lia Floats.
From Verif Require Import Num FNum Base Units Utils Types TankM Logic HeatSrc Step Setters Config Perf Rating Fitter DataModel Report Cli Init Spec SpecState SpecDist SpecEnergy SpecStep SpecExt.
From Verif Require Import RList FrameProofs SimFrame MixProofs DistProofs TankFacts ControlProofs StepEnergy SeqProofs WholeStep Progress StepProgress EnergyFacts SettersFacts DistFacts RatingFacts SourcesFacts ConfigFacts PerfFacts InitsFacts InitGenFacts CsvFacts ScheduleFacts Example.
From Verif Require Import CommandFacts.
Import ListNotations.
Local Open Scope R_scope.
Local Open Scope monad_scope.

(** C97: with the schedules of a ready unit, the loop of a run of less than 500000 minutes completes: no minute reports an unbalanced tank or a heat source that ran for too long.  The file
    is a heading and one line for each minute, showing the record of the state after its step. *)
Theorem C97_minutes : forall fuel c D rows (w : hpwh R) mp, plainConf c -> (rc_minutes c < 500000)%Z -> length rows = Z.to_nat (rc_minutes c) ->
  (forall i r, nth_error rows i = Some r -> schedAt c i r) -> cmdReady fuel D rows w -> isExternalMultipass w = Ok mp ->
  exists cols cells s w', simulate fuel c w = (Ok s, w') /\ lp_lines s = LHead cols :: map LRow cells /\
    NoDup cols /\ (forall x, In x cols <-> listed false mp (w_usesSoC w) (length (w_hs w)) x) /\ tableOf fuel cols 0 w rows cells w'.
Proof. exact C97_minutes_fact. Qed.
Print Assumptions C97_minutes.

(** C98: from 500000 minutes on the file has one line for each whole day, with the energies of its minutes summed for each of up to three heat sources; the minutes of an unfinished last day are
    left out.  At exactly 500000 minutes the heading is that of the table of minutes. *)
Theorem C98_days : forall fuel c D rows (w : hpwh R) mp, plainConf c -> (500000 <= rc_minutes c)%Z -> length rows = Z.to_nat (rc_minutes c) ->
  (forall i r, nth_error rows i = Some r -> schedAt c i r) -> cmdReady fuel D rows w -> isExternalMultipass w = Ok mp -> (length (w_hs w) <= 3)%nat ->
  exists hd ls ws s w', simulate fuel c w = (Ok s, w') /\ lp_lines s = hd :: ls /\ stepsFrom fuel rows w ws /\ dayLines (length (w_hs w)) 0 ws ls /\ Z.of_nat (length ls) = (rc_minutes c / 1440)%Z /\
    ((500000 < rc_minutes c)%Z -> hd = LDayHead (length (w_hs w))) /\ (rc_minutes c = 500000%Z -> exists cols, hd = LHead cols).
Proof. exact C98_days_fact. Qed.
Print Assumptions C98_days.

(** Units with more than three heat sources cannot be run for so long: the sums are kept in arrays of three, and the first minute writes beyond them. *)
Theorem C98_four_sources : forall fuel c D rows (w : hpwh R) mp, plainConf c -> (500000 <= rc_minutes c)%Z -> length rows = Z.to_nat (rc_minutes c) ->
  (forall i r, nth_error rows i = Some r -> schedAt c i r) -> cmdReady fuel D rows w -> isExternalMultipass w = Ok mp -> (3 < length (w_hs w))%nat ->
  exists e w', simulate fuel c w = (UB e, w').
Proof. exact C98_four_sources_fact. Qed.
Print Assumptions C98_four_sources.

(** Units without compressor cannot be run, however long, nor can units controlled by the state of charge without a schedule of it. *)
Theorem C97_no_compressor : forall fuel c (w w' : hpwh R) s, (0 < rc_minutes c)%Z -> simulate fuel c w = (Ok s, w') -> (0 <= w_compIx w)%Z.
Proof. exact C97_no_compressor_fact. Qed.
Print Assumptions C97_no_compressor.

Theorem C97_no_soc_schedule : forall fuel c (w w' : hpwh R) s, (0 < rc_minutes c)%Z -> rc_useSoC c = true -> simulate fuel c w = (Ok s, w') -> (Z.to_nat (rc_minutes c) <= length (rc_soc c))%nat.
Proof. exact C97_no_soc_schedule_fact. Qed.
Print Assumptions C97_no_soc_schedule.

(** C99: a run that is given nothing but its length and the five schedules, for less than 500000 minutes, completes for every ready unit, with the table of its minutes. *)
Theorem C99_command : forall fuel itp large air meas n f0 f1 f2 f3 f4 s0 s1 s2 s3 s4 D rows (w : hpwh R), air <= 0 -> (0 < n < 500000)%Z ->
  readSchedule f0 (Z.to_nat n) = Ok (true, s0) -> readSchedule f1 (Z.to_nat n) = Ok (true, s1) -> readSchedule f2 (Z.to_nat n) = Ok (true, s2) ->
  readSchedule f3 (Z.to_nat n) = Ok (true, s3) -> readSchedule f4 (Z.to_nat n) = Ok (true, s4) ->
  length rows = Z.to_nat n -> (forall i r, nth_error rows i = Some r -> schedAt (mkconf n s0 s1 s2 s3 s4 [] [] false None large) i r) ->
  cmdReady fuel D rows w ->
  exists cols cells s w1 w', runCmd fuel itp large air meas [ILength n] f0 f1 f2 f3 f4 None None w = (Ok s, w') /\ lp_lines s = LHead cols :: map LRow cells /\
    NoDup cols /\ w_tank w1 = w_tank w /\ w_hs w1 = w_hs w /\ w_setpoint w1 = w_setpoint w /\ tableOf fuel cols 0 w1 rows cells w'.
Proof. exact C99_command_fact. Qed.
Print Assumptions C99_command.

(** A file of measured temperatures can never be used: reading it fails for every file, and changes nothing. *)
Theorem C99_measured : forall file (w : hpwh R), (exists e, setTankFromMeasured file w = (Err e, w)) /\
  forall fuel itp large air infos f0 f1 f2 f3 f4 f5 f6 s w',
    0 < se_setpoint (fold_left addInfo infos settings0) -> se_init (fold_left addInfo infos settings0) = None ->
    runCmd fuel itp large air (Some file) infos f0 f1 f2 f3 f4 f5 f6 w <> (Ok s, w').
Proof. exact C99_measured_fact. Qed.
Print Assumptions C99_measured.

Theorem C99_start_ignored : forall fuel itp large air meas infos f0 f1 f2 f3 f4 f5 f6 (w : hpwh R), se_setpoint (fold_left addInfo infos settings0) <= 0 ->
  runCmd fuel itp large air meas infos f0 f1 f2 f3 f4 f5 f6 w = runCmd fuel itp large air None (filter notInitial infos) f0 f1 f2 f3 f4 f5 f6 w.
Proof. exact C99_start_ignored_fact. Qed.
Print Assumptions C99_start_ignored.

(** The value of "-a" is converted from Fahrenheit, though it is named and described as Celsius: a run with it is one whose schedule of ambient temperatures is constant at the converted value. *)
Theorem C99_air : forall fuel c i a (w : hpwh R), rc_air c = Some a ->
  minute fuel c i w = minute fuel (mkconf (rc_minutes c) (rc_inlet c) (rc_draw c) (repeat ((a - 32) * 5 / 9) (S i)) (rc_ext c) (rc_dr c) (rc_setpoint c) (rc_soc c) (rc_useSoC c) None (rc_large c)) i w.
Proof. exact C99_air_fact. Qed.
Print Assumptions C99_air.

(** In particular, the generic heat pump of a litre or more completes every such run with outdoor temperatures within 45-120 F, and ambient and inlet temperatures within 0-60 C. *)
Theorem C99_generic : forall jt jb jc vol EF resUse (w w' : hpwh R), initGeneric jt jb jc vol EF resUse w = (Ok tt, w') -> 1 <= vol ->
  forall fuel itp large air meas n f0 f1 f2 f3 f4 s0 s1 s2 s3 s4 rows, air <= 0 -> (0 < n < 500000)%Z -> (144 < fuel)%nat ->
  readSchedule f0 (Z.to_nat n) = Ok (true, s0) -> readSchedule f1 (Z.to_nat n) = Ok (true, s1) -> readSchedule f2 (Z.to_nat n) = Ok (true, s2) ->
  readSchedule f3 (Z.to_nat n) = Ok (true, s3) -> readSchedule f4 (Z.to_nat n) = Ok (true, s4) ->
  length rows = Z.to_nat n -> (forall i r, nth_error rows i = Some r -> schedAt (mkconf n s0 s1 s2 s3 s4 [] [] false None large) i r) ->
  (forall r, In r rows -> 0 <= r_draw r /\ r_draw r * 12 / vol <= INR fuel /\ 65 / 9 <= r_ext r <= 440 / 9 /\ 0 <= r_amb r <= 60 /\ 0 <= r_inletT r <= 60) ->
  exists cols cells s w1 w2, runCmd fuel itp large air meas [ILength n] f0 f1 f2 f3 f4 None None w' = (Ok s, w2) /\ lp_lines s = LHead cols :: map LRow cells /\
    w_tank w1 = w_tank w' /\ w_hs w1 = w_hs w' /\ tableOf fuel cols 0 w1 rows cells w2.
Proof. exact C99_generic_fact. Qed.
Print Assumptions C99_generic.

Example C97_example : exists cells cols s w', simulate 100 (exConf 1440) (exUnit (T:=R) [20; 30; 45; 50]) = (Ok s, w') /\ lp_lines s = LHead cols :: map LRow cells /\
  tableOf 100 cols 0 (exUnit (T:=R) [20; 30; 45; 50]) (repeat exRow1 (Z.to_nat 1440)) cells w'.
Proof. exact C97_example_fact. Qed.

Example C98_example : exists hd ls s w', simulate 100 (exConf 525600) (exUnit (T:=R) [20; 30; 45; 50]) = (Ok s, w') /\ lp_lines s = hd :: ls /\ length ls = 365%nat.
Proof. exact C98_example_fact. Qed.

Example C99_example : forall jt jb jc itp (w : hpwh R), exists w' s w2, initGeneric jt jb jc 190 2 10 w = (Ok tt, w') /\
  (let f v := Some (mksched (Some v) None []) in runCmd 145 itp false (-1000) None [ILength 1440] (f 10) (f 1) (f 20) (f 15) (f 0) None None w' = (Ok s, w2)) /\ length (lp_lines s) = 1441%nat.
Proof. exact C99_example_fact. Qed.
