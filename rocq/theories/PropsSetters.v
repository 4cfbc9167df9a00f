(** Properties of setters, unit conversions, geometry and capacity queries.  Statements only; proofs in SettersFacts.v. *)

From Coq Require Import ZArith String List Bool Reals Lra Lia Permutation Floats.
From Verif Require Import Num FNum Base Units Utils Types TankM Logic HeatSrc Step Setters Spec SpecState SpecDist.
From Verif Require Import RList FrameProofs SimFrame MixProofs TankProofs DrawProofs DistProofs TankFacts StepEnergy ControlProofs SeqProofs ControlFacts Example.
From Verif Require Import SettersFacts.
Import ListNotations.
Local Open Scope R_scope.

(** Setting the setpoint either stores exactly the requested value and changes nothing else, or fails and changes nothing. *)
Theorem C31_all_or_nothing : forall new u (w : hpwh R),
  (exists c, celsius new u = Some c /\ setSetpoint new u w = (Ok tt, set_w_setpoint c w)) \/
  ((forall r, fst (setSetpoint new u w) <> Ok r) /\ snd (setSetpoint new u w) = w).
Proof. exact C31_all_or_nothing_fact. Qed.
Print Assumptions C31_all_or_nothing.

(** It succeeds exactly when the feasibility query accepts the value. *)
Theorem C31_when : forall new u (w : hpwh R),
  (exists w', setSetpoint new u w = (Ok tt, w')) <-> (exists mx, isNewSetpointPossible new u w = Ok (true, mx)).
Proof. exact C31_when_fact. Qed.
Print Assumptions C31_when.

(** Reading the setpoint back in the units it was set in returns it. *)
Theorem C31_read_back : forall new u (w w' : hpwh R), setSetpoint new u w = (Ok tt, w') -> getSetpoint u w' = Ok new.
Proof. exact C31_read_back_fact. Qed.
Print Assumptions C31_read_back.

Example C31_example : exists w', setSetpoint 122 U_F (exUnit (T:=R) [20; 20; 20; 20]) = (Ok tt, w') /\ w_setpoint w' = 50.
Proof. exact C31_example_fact. Qed.

(** For a model with a compressor or an element and without fixed setpoint: if a setpoint is refused, the reported maximum and everything below it is accepted, with the same maximum. *)
Theorem C32_maximum_is_accepted : forall new u (w : hpwh R) mx x, w_setFixed w = false ->
  (-1 <= w_lowIx w)%Z -> ((0 <= w_compIx w)%Z \/ (0 <= w_lowIx w)%Z) ->
  isNewSetpointPossible new u w = Ok (false, mx) -> x <= mx -> isNewSetpointPossible x u w = Ok (true, mx).
Proof. exact C32_maximum_is_accepted_fact. Qed.
Print Assumptions C32_maximum_is_accepted.

(** The accepted setpoints are exactly those up to the maximum and its tolerance 1e-9 C. *)
Theorem C32_accepted_range : forall new (w : hpwh R), w_setFixed w = false -> (-1 <= w_lowIx w)%Z -> (-1 <= w_compIx w < Z.of_nat (length (w_hs w)))%Z ->
  ((0 <= w_lowIx w)%Z -> isNewSetpointPossible new U_C w = Ok (if Rle_dec new (100 + 1 / 1000000000) then true else false, 100)) /\
  (w_lowIx w = (-1)%Z -> forall h, nth_error (w_hs w) (Z.to_nat (w_compIx w)) = Some h -> (0 <= w_compIx w)%Z ->
     isNewSetpointPossible new U_C w = Ok (if Rle_dec new (h_maxSet h - h_shxHot h + 1 / 1000000000) then true else false, h_maxSet h - h_shxHot h)) /\
  (w_lowIx w = (-1)%Z -> w_compIx w = (-1)%Z -> exists mx, isNewSetpointPossible new U_C w = Ok (w_storage w, mx)).
Proof. exact C32_accepted_range_fact. Qed.
Print Assumptions C32_accepted_range.

(** For a model that has neither compressor nor elements and is not a storage tank the query reports absolute zero as maximum and refuses that too. *)
Theorem C32_no_source_refuted : exists (w : hpwh R) mx, w_setFixed w = false /\ isNewSetpointPossible 50 U_C w = Ok (false, mx) /\ isNewSetpointPossible mx U_C w = Ok (false, mx).
Proof. exact C32_no_source_refuted_fact. Qed.
Print Assumptions C32_no_source_refuted.

Example C32_example : let w := set_w_lowIx (-1) (exUnit (T:=R) [20; 20; 20; 20]) in
  w_setFixed w = false /\ w_compIx w = 2%Z /\ exists h, nth_error (w_hs w) 2 = Some h /\ h_maxSet h = 60.
Proof. exact C32_example_fact. Qed.

(** No sequence of setpoint changes, single or multiple steps, capacity queries and capacity changes, successful or not, changes a fixed setpoint. *)
Theorem C33_fixed_setpoint : forall fuel ops (w : hpwh R), w_setFixed w = true ->
  w_setFixed (fold_left (fun v op => perform fuel op v) ops w) = true /\
  w_setpoint (fold_left (fun v op => perform fuel op v) ops w) = w_setpoint w.
Proof. exact C33_fixed_setpoint_fact. Qed.
Print Assumptions C33_fixed_setpoint.

(** The only value that can be set is the one already stored. *)
Theorem C33_only_same_value : forall new u (w w' : hpwh R), w_setFixed w = true -> setSetpoint new u w = (Ok tt, w') ->
  celsius new u = Some (w_setpoint w) /\ w' = w.
Proof. exact C33_only_same_value_fact. Qed.
Print Assumptions C33_only_same_value.

Example C33_example : w_setFixed (set_w_setFixed true (exUnit (T:=R) [20; 20; 20; 20])) = true /\
  w_setpoint (perform 5 (OpSetpoint 40 U_C) (exUnit (T:=R) [20; 20; 20; 20])) = 40.
Proof. exact C33_example_fact. Qed.

(** Each of these setters called with other units than it supports raises an error and changes nothing. *)
Theorem C34_rejected_without_effect : forall (w : hpwh R) x xs u force which,
  (~ In u [U_C; U_F] -> (exists e, setSetpoint x u w = (Err e, w)) /\ (exists e, setTankLayerTemperatures xs u w = (Err e, w))) /\
  (~ In u [U_L; U_GAL] -> (exists e, setTankSize x u force w = (Err e, w)) /\ (exists e, setTankSize_adjustUA x u force w = (Err e, w))) /\
  (~ In u [U_kJperHrC; U_BTUperHrF] -> (exists e, setUA x u w = (Err e, w)) /\ (exists e, setFittingsUA x u w = (Err e, w))) /\
  (~ In u [U_KW; U_BTUperHr] -> exists e, setResistanceCapacity x which u w = (Err e, w)).
Proof. exact C34_rejected_without_effect_fact. Qed.
Print Assumptions C34_rejected_without_effect.

(** The maximum-depression setter raises an error too, but has stored the value by then. *)
Theorem C34_depression_stored_before_error : forall (w : hpwh R) x u, ~ In u [U_C; U_F] ->
  exists e, setMaxTempDepression x u w = (Err e, set_w_maxDep x w).
Proof. exact C34_depression_stored_before_error_fact. Qed.
Print Assumptions C34_depression_stored_before_error.

(** So the natural claim fails for that setter: an error leaves a changed model. *)
Theorem C34_depression_refuted : exists (w w' : hpwh R) x u e, setMaxTempDepression x u w = (Err e, w') /\ w_maxDep w' <> w_maxDep w.
Proof. exact C34_depression_refuted_fact. Qed.
Print Assumptions C34_depression_refuted.

(** With supported units a setter that has no other condition succeeds and changes the one quantity. *)
Theorem C34_accepted : forall (w : hpwh R) x,
  setUA x U_kJperHrC w = (Ok tt, set_w_tank (set_t_UA x (w_tank w)) w) /\
  setUA x U_BTUperHrF w = (Ok tt, set_w_tank (set_t_UA (x * (9 / 5) / (9478 / 10000)) (w_tank w)) w) /\
  setFittingsUA x U_kJperHrC w = (Ok tt, set_w_tank (set_t_fitUA x (w_tank w)) w) /\
  setFittingsUA x U_BTUperHrF w = (Ok tt, set_w_tank (set_t_fitUA (x * (9 / 5) / (9478 / 10000)) (w_tank w)) w) /\
  setMaxTempDepression x U_C w = (Ok tt, set_w_maxDep x w).
Proof. exact C34_accepted_fact. Qed.
Print Assumptions C34_accepted.

Example C34_example : ~ In U_KW [U_C; U_F] /\ ~ In U_C [U_L; U_GAL].
Proof. exact C34_example_fact. Qed.

(** Each conversion is undone by its counterpart, in both directions. *)
Theorem C35_inverse_pairs : forall x : R,
  F_TO_C (C_TO_F x) = x /\ C_TO_F (F_TO_C x) = x /\ K_TO_C (C_TO_K x) = x /\ C_TO_K (K_TO_C x) = x /\
  K_TO_F (F_TO_K x) = x /\ F_TO_K (K_TO_F x) = x /\ dF_TO_dC (dC_TO_dF x) = x /\ dC_TO_dF (dF_TO_dC x) = x /\
  KWH_TO_BTU (BTU_TO_KWH x) = x /\ BTU_TO_KWH (KWH_TO_BTU x) = x /\ KWH_TO_KJ (KJ_TO_KWH x) = x /\ KJ_TO_KWH (KWH_TO_KJ x) = x /\
  BTU_TO_KJ (KWH_TO_BTU x) = KWH_TO_KJ x /\
  GAL_TO_L (L_TO_GAL x) = x /\ L_TO_GAL (GAL_TO_L x) = x /\ FT_TO_M (M_TO_FT x) = x /\ M_TO_FT (FT_TO_M x) = x /\
  FT2_TO_M2 (M2_TO_FT2 x) = x /\ M2_TO_FT2 (FT2_TO_M2 x) = x /\ GPM_TO_LPS (LPS_TO_GPM x) = x /\ LPS_TO_GPM (GPM_TO_LPS x) = x /\
  KW_TO_W (W_TO_KW x) = x /\ W_TO_KW (KW_TO_W x) = x /\ W_TO_BTUperH x = KWH_TO_BTU (W_TO_KW x).
Proof. exact C35_inverse_pairs_fact. Qed.
Print Assumptions C35_inverse_pairs.

(** They anchor at the physical fixed points. *)
Theorem C35_fixed_points : (F_TO_C 212 : R) = 100 /\ (F_TO_C 32 : R) = 0 /\ (F_TO_C (-40) : R) = -40 /\ (K_TO_C 0 : R) = - (27315 / 100) /\
  (KWH_TO_KJ 1 : R) = 3600 /\ (dF_TO_dC 9 : R) = 5 /\ (GAL_TO_L 1 : R) = 378541 / 100000.
Proof. exact C35_fixed_points_fact. Qed.
Print Assumptions C35_fixed_points.

(** They keep the order. *)
Theorem C35_order_preserving : forall x y : R, x < y ->
  F_TO_C x < F_TO_C y /\ C_TO_F x < C_TO_F y /\ K_TO_C x < K_TO_C y /\ C_TO_K x < C_TO_K y /\ dF_TO_dC x < dF_TO_dC y /\ dC_TO_dF x < dC_TO_dF y /\
  KWH_TO_BTU x < KWH_TO_BTU y /\ BTU_TO_KWH x < BTU_TO_KWH y /\ KWH_TO_KJ x < KWH_TO_KJ y /\ KJ_TO_KWH x < KJ_TO_KWH y /\
  GAL_TO_L x < GAL_TO_L y /\ L_TO_GAL x < L_TO_GAL y /\ FT_TO_M x < FT_TO_M y /\ M_TO_FT x < M_TO_FT y /\
  FT2_TO_M2 x < FT2_TO_M2 y /\ M2_TO_FT2 x < M2_TO_FT2 y /\ GPM_TO_LPS x < GPM_TO_LPS y /\ LPS_TO_GPM x < LPS_TO_GPM y /\ UAf_TO_UAc x < UAf_TO_UAc y.
Proof. exact C35_order_preserving_fact. Qed.
Print Assumptions C35_order_preserving.

(** Converting a temperature difference equals the difference of converted temperatures. *)
Theorem C35_differences : forall x y : R, F_TO_C x - F_TO_C y = dF_TO_dC (x - y) /\ C_TO_F x - C_TO_F y = dC_TO_dF (x - y) /\ K_TO_C x - K_TO_C y = x - y.
Proof. exact C35_differences_fact. Qed.
Print Assumptions C35_differences.

(** What is set in some units is read back in those units: UA, fittings UA and tank size; and getters in other units agree. *)
Theorem C35_set_and_get : forall (w w' : hpwh R) x u,
  (setUA x u w = (Ok tt, w') -> getUA u w' = Ok x) /\
  (setFittingsUA x u w = (Ok tt, w') -> getFittingsUA u w' = Ok x) /\
  (forall force, setTankSize x u force w = (Ok tt, w') -> getTankSize u w' = Ok x).
Proof. exact C35_set_and_get_fact. Qed.
Print Assumptions C35_set_and_get.

Example C35_example : exists w' : hpwh R, setUA 5 U_BTUperHrF (exUnit (T:=R) [20; 20; 20; 20]) = (Ok tt, w') /\ getUA U_BTUperHrF w' = Ok 5.
Proof. exact C35_example_fact. Qed.

(** A maximum depression in Fahrenheit is converted as a temperature: 32 F counts as no depression at all and less becomes negative. *)
Theorem C36_converted_as_temperature : forall (w : hpwh R) d,
  setMaxTempDepression d U_F w = (Ok tt, set_w_maxDep ((d - 32) * 5 / 9) w) /\
  (0 <= d < 32 -> w_maxDep (snd (setMaxTempDepression d U_F w)) < 0) /\
  w_maxDep (snd (setMaxTempDepression d U_F w)) <> d * 5 / 9.
Proof. exact C36_converted_as_temperature_fact. Qed.
Print Assumptions C36_converted_as_temperature.

(** After that, a step in which the compressor runs raises the tracked temperature above ambient instead of lowering it. *)
Theorem C36_running_compressor_warms : forall fuel d (x : stepIn (T:=R)) (w w' : hpwh R),
  0 <= d < 32 -> w_doDepress w = true -> w_locT w = i_amb x ->
  runOneStep fuel x (snd (setMaxTempDepression d U_F w)) = (Ok tt, w') ->
  existsb (fun h => h_on h && negb (h_locked h) && h_depresses h)%bool (w_hs w') = true ->
  i_amb x < w_locT w' <= i_amb x + (32 - d) * 5 / 9.
Proof. exact C36_running_compressor_warms_fact. Qed.
Print Assumptions C36_running_compressor_warms.

(** The same depression given in Celsius lowers it. *)
Theorem C36_celsius_cools : forall fuel d (x : stepIn (T:=R)) (w w' : hpwh R),
  0 < d -> w_doDepress w = true -> w_locT w = i_amb x ->
  runOneStep fuel x (snd (setMaxTempDepression d U_C w)) = (Ok tt, w') ->
  existsb (fun h => h_on h && negb (h_locked h) && h_depresses h)%bool (w_hs w') = true ->
  i_amb x - d <= w_locT w' < i_amb x.
Proof. exact C36_celsius_cools_fact. Qed.
Print Assumptions C36_celsius_cools.

Example C36_example : exists w',
  runOneStep (T:=float) 100 (mkin (fofZ 5) (fofZ 20) (fofZ 20) 0 (fofZ 0) (fofZ 0) None) (snd (setMaxTempDepression (fofZ 4) U_F
    (set_w_haveInletT true (set_w_inletT (fofZ 10) (exDep float FNum (map fofZ [20; 30; 45; 50]%Z)))))) = (Ok tt, w') /\
  existsb (fun h => h_on h && negb (h_locked h) && h_depresses h)%bool (w_hs w') = true /\ PrimFloat.ltb (fofZ 20) (w_locT w') = true.
Proof. exact C36_example_fact. Qed.

(** Radius and surface area reported for a volume are those of one and the same cylinder of that volume with height 4.75 radii. *)
Theorem C37_one_cylinder : forall vol : R, 0 < vol -> exists r, cylinder vol r /\
  tankRadius_m vol = r / (32808 / 10000) /\
  surfaceArea_m2 vol = (2 * (314159 / 100000 * (r * r)) + 2 * (314159 / 100000) * r * (475 / 100 * r)) / (32808 / 10000) / (32808 / 10000).
Proof. exact C37_one_cylinder_fact. Qed.
Print Assumptions C37_one_cylinder.

(** That cylinder is unique, and both quantities increase with the volume. *)
Theorem C37_monotone : forall v1 v2 : R, 0 < v1 < v2 ->
  tankRadius_m v1 < tankRadius_m v2 /\ surfaceArea_m2 v1 < surfaceArea_m2 v2 /\ 0 < tankRadius_m v1 /\ 0 < surfaceArea_m2 v1.
Proof. exact C37_monotone_fact. Qed.
Print Assumptions C37_monotone.

Theorem C37_cylinder_unique : forall vol r1 r2, cylinder vol r1 -> cylinder vol r2 -> r1 = r2.
Proof. exact C37_cylinder_unique_fact. Qed.
Print Assumptions C37_cylinder_unique.

(** After the size constants are computed, top plus bottom plus side fraction is one, and they are the shares of the cylinder's surface; nodes share volume and height equally. *)
Theorem C37_size_constants : forall t : tank R, 0 < t_volume t -> t_Ts t <> [] ->
  let t' := calcSizeConstants t in
  2 * t_fracTop t' + t_fracSide t' = 1 /\ 0 < t_fracTop t' /\ 0 < t_fracSide t' /\
  t_fracTop t' * (2 * (1 + 475 / 100)) = 1 /\
  INR (length (t_Ts t)) * t_nodeVol t' = t_volume t /\
  INR (length (t_Ts t)) * t_nodeHeight t' = 475 / 100 * tankRadius_m (t_volume t) /\
  t_nodeCp t' = CPWATER * DENSITYWATER * t_nodeVol t'.
Proof. exact C37_size_constants_fact. Qed.
Print Assumptions C37_size_constants.

(** The radius in metres is reported as such; in feet it is too small by the square of the feet-per-metre factor. *)
Theorem C37_radius_in_feet : forall (w : hpwh R),
  getTankRadius U_M w = tankRadius_m (t_volume (w_tank w)) /\
  getTankRadius U_FT w = M_TO_FT (tankRadius_m (t_volume (w_tank w))) / (32808 / 10000 * (32808 / 10000)).
Proof. exact C37_radius_in_feet_fact. Qed.
Print Assumptions C37_radius_in_feet.

(** So a radius reported in feet is never the true one. *)
Theorem C37_radius_in_feet_refuted : exists w : hpwh R, 0 < t_volume (w_tank w) /\ getTankRadius U_FT w <> M_TO_FT (getTankRadius U_M w).
Proof. exact C37_radius_in_feet_refuted_fact. Qed.
Print Assumptions C37_radius_in_feet_refuted.

Example C37_example : cylinder (314159 / 100000 * (475 / 100) * (2831685 / 100000)) 1.
Proof. exact C37_example_fact. Qed.

(** A resize with UA adjustment keeps UA per surface area, stores the volume, and touches neither temperatures nor anything outside the tank. *)
Theorem C38_keeps_U : forall (w w' : hpwh R) v u force, 0 < t_volume (w_tank w) -> setTankSize_adjustUA v u force w = (Ok tt, w') ->
  litres v u = Some (t_volume (w_tank w')) /\ 0 < t_volume (w_tank w') /\
  t_UA (w_tank w') / surfaceArea_m2 (t_volume (w_tank w')) = t_UA (w_tank w) / surfaceArea_m2 (t_volume (w_tank w)) /\
  t_Ts (w_tank w') = t_Ts (w_tank w) /\ t_fitUA (w_tank w') = t_fitUA (w_tank w) /\ w' = set_w_tank (w_tank w') w.
Proof. exact C38_keeps_U_fact. Qed.
Print Assumptions C38_keeps_U.

(** It is rejected exactly for unsupported units, fixed-size models unless forced, and volumes that are not positive; then nothing changes. *)
Theorem C38_rejected_unchanged : forall (w : hpwh R) v u force,
  (exists e, setTankSize_adjustUA v u force w = (Err e, w)) <->
  (litres v u = None \/ (t_fixed (w_tank w) = true /\ force = false) \/ exists l, litres v u = Some l /\ l <= 0).
Proof. exact C38_rejected_unchanged_fact. Qed.
Print Assumptions C38_rejected_unchanged.

(** The plain resize keeps UA itself. *)
Theorem C38_plain_resize_keeps_UA : forall (w w' : hpwh R) v u force, setTankSize v u force w = (Ok tt, w') ->
  litres v u = Some (t_volume (w_tank w')) /\ t_UA (w_tank w') = t_UA (w_tank w) /\ t_Ts (w_tank w') = t_Ts (w_tank w) /\ w' = set_w_tank (w_tank w') w.
Proof. exact C38_plain_resize_keeps_UA_fact. Qed.
Print Assumptions C38_plain_resize_keeps_UA.

Example C38_example : exists w' : hpwh R, setTankSize_adjustUA 100 U_GAL true (exUnit (T:=R) [20; 20; 20; 20]) = (Ok tt, w').
Proof. exact C38_example_fact. Qed.
