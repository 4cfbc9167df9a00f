(** Properties of the queries about the compressor and about single temperatures.  Statements only; proofs in QueriesFacts.v. *)

From Coq Require Import ZArith QArith Qreals String List Bool Reals Lra Lia.
From Verif Require Import Num Base Units Utils Types TankM Logic HeatSrc Step Setters Config Perf Fitter DataModel Init Legacy ExtPreset ExtTable Report Queries Spec SpecState SpecExt SpecExtPreset.
From Verif Require Import RList FrameProofs DistProofs TankFacts ConfigFacts InitsFacts LegacyFacts ExtPresetsFacts Example.
From Verif Require Import QueriesFacts.
Import ListNotations.
Local Open Scope R_scope.

(** The compressor of an external preset is external; the flow rate query answers for the multi-pass ones, in gallons per minute with the number the preset is written with, and fails for the others. *)
Theorem C107_external_presets : forall m ev junk (w w' : hpwh R), initExternal (xpresetOf m) ev junk w = (Ok tt, w') ->
  getCompressorCoilConfig w' = Ok External /\ isCompressorExternal w' = Ok true /\
  (isCompressorMultipass w' = Ok true /\ (exists x, xp_flow (xpresetOf m) = Some x /\ getExternalMPFlowRate U_GPM w' = Ok (lval x) /\ 0 < lval (T:=R) x) \/
   isCompressorMultipass w' = Ok false /\ forall u, exists e, getExternalMPFlowRate u w' = Err e).
Proof. exact C107_external_presets_fact. Qed.
Print Assumptions C107_external_presets.

(** Without a compressor each of these queries is an error, whatever else the object holds. *)
Theorem C107_no_compressor : forall (w : hpwh R) u, (w_compIx w < 0)%Z -> (exists e, getCompressorCoilConfig w = Err e) /\ (exists e, isCompressorMultipass w = Err e) /\ (exists e, isCompressorExternal w = Err e) /\
  (exists e, isExternalMultipass w = Err e) /\ (exists e, getExternalMPFlowRate u w = Err e) /\ (exists e, getCompressorMinRuntime u w = Err e).
Proof. exact C107_no_compressor_fact. Qed.
Print Assumptions C107_no_compressor.

(** With the index of a source they answer about that source: the flow rate in the units asked for, and for any other unit an error. *)
Theorem C107_flow : forall (w : hpwh R) k h, nth_error (w_hs w) k = Some h -> w_compIx w = Z.of_nat k ->
  (h_config h = External /\ h_multipass h = true ->
     getExternalMPFlowRate U_LPS w = Ok (h_mpFlow h) /\ (exists g, getExternalMPFlowRate U_GPM w = Ok g /\ g * (378541 / 100000) = h_mpFlow h * 60) /\ forall u, u <> U_LPS -> u <> U_GPM -> exists e, getExternalMPFlowRate u w = Err e) /\
  (h_config h <> External \/ h_multipass h = false -> forall u, exists e, getExternalMPFlowRate u w = Err e).
Proof. exact C107_flow_fact. Qed.
Print Assumptions C107_flow.

(** The minimum run time of a compressor is ten minutes for every unit and in each unit of time. *)
Theorem C107_min_runtime : forall (w : hpwh R), (0 <= w_compIx w)%Z -> getCompressorMinRuntime U_MIN w = Ok 10 /\ getCompressorMinRuntime U_SEC w = Ok 600 /\ getCompressorMinRuntime U_HR w = Ok (1 / 6) /\
  forall u, u <> U_MIN -> u <> U_SEC -> u <> U_HR -> exists e, getCompressorMinRuntime u w = Err e.
Proof. exact C107_min_runtime_fact. Qed.
Print Assumptions C107_min_runtime.

(** The temperature of a node, in either scale; any other unit is an error. *)
Theorem C107_node : forall (w : hpwh R) k t, nth_error (t_Ts (w_tank w)) k = Some t ->
  getTankNodeTemp (Z.of_nat k) U_C w = Ok t /\ (exists f, getTankNodeTemp (Z.of_nat k) U_F w = Ok f /\ f = 9 / 5 * t + 32) /\ forall u, u <> U_C -> u <> U_F -> exists e, getTankNodeTemp (Z.of_nat k) u w = Err e.
Proof. exact C107_node_fact. Qed.
Print Assumptions C107_node.

(** A node that does not exist is not reported as an error: the access is undefined, above the top as below the bottom; only a tank without nodes gives the error the code has for it. *)
Theorem C107_node_unchecked : forall (w : hpwh R) i u, ~ (0 <= i < Z.of_nat (length (t_Ts (w_tank w))))%Z ->
  (t_Ts (w_tank w) <> [] -> exists e, getTankNodeTemp i u w = UB e) /\ (t_Ts (w_tank w) = [] -> exists e, getTankNodeTemp i u w = Err e).
Proof. exact C107_node_unchecked_fact. Qed.
Print Assumptions C107_node_unchecked.

(** A virtual thermocouple, as in C42, in either scale. *)
Theorem C107_thermocouple : forall (w : hpwh R) i n t, nthThermocouple i n (w_tank w) = Ok t ->
  getNthSimTcouple i n U_C w = Ok t /\ (exists f, getNthSimTcouple i n U_F w = Ok f /\ f = 9 / 5 * t + 32) /\ forall u, u <> U_C -> u <> U_F -> exists e, getNthSimTcouple i n u w = Err e.
Proof. exact C107_thermocouple_fact. Qed.
Print Assumptions C107_thermocouple.

(** A multi-pass Colmac of nine gallons a minute and the top of a Sanco: node 95 is at the setpoint, node 96 out of range. *)
Example C107_example : forall ev junk (w : hpwh R), exists w1 w2, initExternal (xpresetOf X_ColmacCxV_5_MP) ev junk w = (Ok tt, w1) /\ getExternalMPFlowRate U_GPM w1 = Ok 9 /\ getCompressorMinRuntime U_SEC w1 = Ok 600 /\
  initExternal (xpresetOf X_Sanco83) ev junk w = (Ok tt, w2) /\ getTankNodeTemp 95 U_F w2 = Ok 149 /\ exists e, getTankNodeTemp 96 U_F w2 = UB e.
Proof. exact C107_example_fact. Qed.
