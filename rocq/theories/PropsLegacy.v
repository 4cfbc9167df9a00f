(** Properties of the preset units with integrated heat sources.  Statements only; proofs in LegacyFacts.v. *)

From Coq Require Import ZArith QArith Qreals String List Bool Reals Lra Lia Floats Sorting.Sorted.
From Verif Require Import Num FNum Base Units Utils Types TankM Logic HeatSrc Step Setters Config Perf Rating Fitter DataModel Init Legacy LegacyTable Spec SpecState SpecDist SpecEnergy SpecStep.
From Verif Require Import RList FrameProofs SimFrame MixProofs DistProofs TankFacts ControlProofs SeqProofs WholeStep Progress StepProgress EnergyFacts SettersFacts SourcesFacts ConfigFacts PerfFacts InitsFacts InitGenFacts Example.
From Verif Require Import LegacyFacts.
Import ListNotations.
Local Open Scope R_scope.

(** Every preset is accepted, whatever state the object was in and whatever the uninitialised members of the new heat sources hold. *)
Theorem C102_accepts : forall m junk (w : hpwh R), exists w', initLegacy (lpresetOf m) junk w = (Ok tt, w').
Proof. exact C102_accepts_fact. Qed.
Print Assumptions C102_accepts.

(** What the user gets: a tank of 12 or 24 equal nodes of one temperature, the setpoint except for two presets; nothing heats; every heat source can be engaged, by its own logic or as the backup of
    one that has logic; no condenser is external, and every compressor cools its surroundings when that is enabled. *)
Theorem C102_result : forall m junk (w w' : hpwh R), initLegacy (lpresetOf m) junk w = (Ok tt, w') ->
  (length (t_Ts (w_tank w')) = 12%nat \/ length (t_Ts (w_tank w')) = 24%nat) /\ 100 <= t_volume (w_tank w') /\ t_nodeVol (w_tank w') * INR (length (t_Ts (w_tank w'))) = t_volume (w_tank w') /\
  0 <= t_UA (w_tank w') <= 5 * t_volume (w_tank w') /\
  (exists c, (forall x, In x (t_Ts (w_tank w')) -> x = c) /\ (m <> M_StorageTank -> m <> M_AquaThermAire -> c = w_setpoint w')) /\
  w_minStep w' = 1 /\ w_heating w' = false /\ w_doDepress w' = false /\
  (forall i h, nth_error (w_hs w') i = Some h -> h_on h = false /\ h_config h <> External /\ h_depresses h = (match h_type h with TCompressor => true | TResistance => false end) /\
     (h_turnOn h <> [] \/ exists b, In b (w_hs w') /\ h_backup b = Some i /\ h_turnOn b <> [])).
Proof. exact C102_result_fact. Qed.
Print Assumptions C102_result.

(** Two of them in numbers: a unit of the sixty-four with 24 nodes, and one without a compressor. *)
Example C102_example : forall junk (w : hpwh R), exists w1 w2,
  initLegacy (lpresetOf M_AOSmithHPTU50) junk w = (Ok tt, w1) /\ length (t_Ts (w_tank w1)) = 24%nat /\ map h_type (w_hs w1) = [TResistance; TResistance; TCompressor] /\ w_setpoint w1 = 475 / 9 /\
  initLegacy (lpresetOf M_restankHugeUA) junk w = (Ok tt, w2) /\ t_volume (w_tank w2) = 120 /\ t_UA (w_tank w2) = 500 /\ map h_type (w_hs w2) = [TResistance; TResistance].
Proof. exact C102_example_fact. Qed.

(** The compressor of a preset delivers heat for electricity wherever it is meant to run: air inside its limits, water from 0 to 60 C (66 C for the one preset with a higher setpoint). *)
Theorem C103_maps : forall m junk (w w' : hpwh R), m <> M_StorageTank -> m <> M_AquaThermAire -> initLegacy (lpresetOf m) junk w = (Ok tt, w') ->
  forall (u : hpwh R) c air cond, In c (w_hs w') -> h_type c = TCompressor -> h_minT c <= air <= h_maxT c -> air <= topAir m -> 0 <= cond <= topWater m ->
  exists q, getPerformance u c air cond = Ok q /\ 0 < p_in q /\ 0 < p_cop q /\ p_out q = p_cop q * p_in q.
Proof. exact C103_maps_fact. Qed.
Print Assumptions C103_maps.

(** Every run of such a preset that keeps to those temperatures completes; its water stays in the range; and heat is accounted for. *)
Theorem C103_runs : forall m junk (w w' : hpwh R), m <> M_StorageTank -> m <> M_AquaThermAire -> initLegacy (lpresetOf m) junk w = (Ok tt, w') ->
  forall fuel rows, (576 < fuel)%nat ->
  (forall r, In r rows -> 0 <= r_draw r /\ r_draw r * INR (length (t_Ts (w_tank w'))) / t_volume (w_tank w') <= INR fuel /\ r_ext r <= topAir m /\
    (forall c, In c (w_hs w') -> h_type c = TCompressor -> h_minT c <= r_ext r <= h_maxT c) /\ 0 <= r_amb r <= topWater m /\ 0 <= r_inletT r <= topWater m) -> Rsum (map r_draw rows) <> 0 ->
  exists ws wl w2, SeqProofs.runs fuel rows w' ws wl /\ runNSteps fuel rows w' = (Ok tt, w2) /\ Forall (fun v => within 0 (topWater m) (t_Ts (w_tank v))) ws /\
    tankHeat (w_tank w2) = tankHeat (w_tank w')
      + CPWATER * DENSITYWATER * (Rsum (map (fun r => r_draw r * r_inletT r) rows) - t_outletT (w_tank w2) * Rsum (map r_draw rows))
      + 3600 * Rsum (map h_eOut (w_hs w2)) - 3600 * w_stbyE w2.
Proof. exact C103_runs_fact. Qed.
Print Assumptions C103_runs.

Example C103_example : forall junk (w : hpwh R), exists w' w2, initLegacy (lpresetOf M_Rheem2020Prem50) junk w = (Ok tt, w') /\
  (exists c, In c (w_hs w') /\ h_type c = TCompressor) /\
  runNSteps 600 [mkrow (T:=R) 10 3 20 20 0%Z; mkrow 15 5 20 12 0%Z] w' = (Ok tt, w2).
Proof. exact C103_example_fact. Qed.

Theorem C104_heats_refuted : exists m, ~ heatsAtSetpoint m.
Proof. exact C104_heats_refuted_fact. Qed.
Print Assumptions C104_heats_refuted.

(** Nor does it hold up to the highest setpoint a compressor is declared for: Rheem2020Prem50 with water at its maximum of 160 F and air at its lower limit of 37 F. *)
Theorem C104_maxSetpoint_refuted : exists m junk (w w' : hpwh R) c q, initLegacy (lpresetOf m) junk w = (Ok tt, w') /\ In c (w_hs w') /\ h_type c = TCompressor /\
  getPerformance w' c (h_minT c) (h_maxSet c) = Ok q /\ 0 < p_in q /\ p_out q < 0.
Proof. exact C104_maxSetpoint_refuted_fact. Qed.
Print Assumptions C104_maxSetpoint_refuted.

(** AquaThermAire: with water at the freezing point the compressor is predicted to return electricity. *)
Theorem C104_input_refuted : exists m junk (w w' : hpwh R) c air q, initLegacy (lpresetOf m) junk w = (Ok tt, w') /\ In c (w_hs w') /\ h_type c = TCompressor /\ h_minT c <= air <= h_maxT c /\
  getPerformance w' c air 0 = Ok q /\ p_in q < 0.
Proof. exact C104_input_refuted_fact. Qed.
Print Assumptions C104_input_refuted.

(** A branch that turns off the cooling of the surroundings by its compressor (Stiebel220E) does so in vain. *)
Theorem C104_depresses_refuted : ~ (forall m junk (w w' : hpwh R), initLegacy (lpresetOf m) junk w = (Ok tt, w') ->
  forall i s c b h, nth_error (lp_hs (lpresetOf m)) i = Some s -> ls_kind s = LCondenser c -> lc_depress c = Some b -> nth_error (w_hs w') i = Some h -> h_depresses h = b).
Proof. exact C104_depresses_refuted_fact. Qed.
Print Assumptions C104_depresses_refuted.

(** Two sizes of one product: the 80-gallon preset of the GE 2014 unit in its standard mode has the map and the lower air limit of the 50-gallon one, but neither its upper limit of 120 F nor its hysteresis. *)
Theorem C104_sizes : forall junk (w w50 w80 : hpwh R), initLegacy (lpresetOf M_GE2014STDMode_50) junk w = (Ok tt, w50) -> initLegacy (lpresetOf M_GE2014STDMode_80) junk w = (Ok tt, w80) ->
  exists a b, nth_error (w_hs w50) 2 = Some a /\ nth_error (w_hs w80) 2 = Some b /\ h_type a = TCompressor /\ h_type b = TCompressor /\ h_eval a = h_eval b /\ h_minT a = h_minT b /\
    h_maxT a = 440 / 9 /\ h_maxT b = 100 /\ h_hyst a = 10 / 9 /\ h_hyst b = 0.
Proof. exact C104_sizes_fact. Qed.
Print Assumptions C104_sizes.

Example C104_sizes_example : forall junk (w : hpwh R), exists w50 w80, initLegacy (lpresetOf M_GE2014STDMode_50) junk w = (Ok tt, w50) /\ initLegacy (lpresetOf M_GE2014STDMode_80) junk w = (Ok tt, w80).
Proof. exact C104_sizes_example_fact. Qed.

(** The bottom element of GenericUEF217 starts when the third sixth of the tank is 60 F converted as a temperature, 15.6 K, below the setpoint; every other such threshold is converted as a difference. *)
Theorem C104_threshold : forall junk (w w' : hpwh R), initLegacy (lpresetOf M_GenericUEF217) junk w = (Ok tt, w') ->
  exists b s d, nth_error (w_hs w') 1 = Some b /\ h_turnOn b = [TempLogic s d (140 / 9) false CLess false false] /\ dF_TO_dC 60 = 100 / 3.
Proof. exact C104_threshold_fact. Qed.
Print Assumptions C104_threshold.

Example C104_threshold_example : forall junk (w : hpwh R), exists w', initLegacy (lpresetOf M_GenericUEF217) junk w = (Ok tt, w').
Proof. exact C104_threshold_example_fact. Qed.
