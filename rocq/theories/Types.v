(** Data types of the model: tank, heat source, heating logic, simulator.

    Each record mirrors the data members of a class; the setter functions [set_f] replace one
    field and are the model of an assignment to that member. *)

From Coq Require Import ZArith String List Bool.
From Verif Require Import Num.
Import ListNotations.

(** HPWH.hh:112-123 enum DRMODES: a bit set, kept as an integer *)
Definition DR_ALLOW : Z := 0.
Definition DR_LOC : Z := 1.
Definition DR_LOR : Z := 2.
Definition DR_TOO : Z := 4.
Definition DR_TOT : Z := 8.
(** (DRstatus & bit) != 0 *)
Definition dr_has (bit dr : Z) : bool := negb (Z.eqb (Z.land dr bit) 0).

(** HPWH.hh HEATSOURCE_TYPE; only the two concrete subclasses exist *)
Inductive hstype : Set := TCompressor | TResistance.
(** Condenser.hh:57-62 *)
Inductive coil : Set := Submerged | Wrapped | External.
(** HPWH.hh:493-498 DistributionType *)
Inductive disttype : Set := DWeighted | DTop | DBottom.
(** the comparison functors std::less / std::greater stored in a heating logic *)
Inductive cmp : Set := CLess | CGreater.

(** HPWH.hh:355-365: (height, weight) points of a WeightedDistribution *)
Definition wdist (T : Type) : Type := list (T * T).
(** HPWH.hh:500-529 *)
Record distribution (T : Type) : Type := mkdist { d_type : disttype; d_w : wdist T }.
Arguments mkdist {T}. Arguments d_type {T} _. Arguments d_w {T} _.

(** HPWHHeatingLogic.hh: the two kinds of heating logic.
    TempBased: description, distribution, decision point, isAbsolute, compare,
    isEnteringWaterHighTempShutoff, checksStandby.
    SoCBased: decision point, hysteresis fraction, minimum useful temperature, constant mains?,
    mains temperature, compare, checksStandby. *)
Inductive logic (T : Type) : Type :=
| TempLogic (desc : string) (d : distribution T) (decision : T) (isAbs : bool) (c : cmp)
            (isHTS : bool) (stby : bool)
| SoCLogic (desc : string) (decision hyst tMin : T) (constMains : bool) (mains : T) (c : cmp)
           (stby : bool).
Arguments TempLogic {T}. Arguments SoCLogic {T}.

(** HPWH.hh Performance: input power (W), output power (W), COP *)
Record perf (T : Type) : Type := mkperf { p_in : T; p_out : T; p_cop : T }.
Arguments mkperf {T}. Arguments p_in {T} _. Arguments p_out {T} _. Arguments p_cop {T} _.

(** Tank.hh:74-206, data members of HPWH::Tank *)
Record tank (T : Type) : Type := mktank {
  t_volume : T;   (* volume_L *)
  t_Ts : list T;   (* nodeTs_C, bottom first *)
  t_stby : T;   (* standbyLosses_kJ *)
  t_mixesOnDraw : bool;
  t_mixBelowFrac : T;   (* mixBelowFractionOnDraw *)
  t_doMix : bool;   (* doInversionMixing *)
  t_doCond : bool;   (* doConduction *)
  t_fixed : bool;   (* volumeFixed *)
  t_nodeVol : T;   (* nodeVolume_L *)
  t_nodeCp : T;   (* nodeCp_kJperC *)
  t_nodeHeight : T;   (* nodeHeight_m *)
  t_fracTop : T;   (* fracAreaTop *)
  t_fracSide : T;   (* fracAreaSide *)
  t_UA : T;   (* UA_kJperHrC *)
  t_inlet : Z;   (* inletHeight *)
  t_inlet2 : Z;   (* inlet2Height *)
  t_hasHX : bool;   (* hasHeatExchanger *)
  t_hxEff : T;   (* heatExchangerEffectiveness *)
  t_nodeHxEff : T;   (* nodeHeatExchangerEffectiveness *)
  t_outletT : T;   (* outletT_C *)
  t_fitUA : T   (* fittingsUA_kJperHrC *)
}.
Arguments mktank {T}.
Arguments t_volume {T} _.
Arguments t_Ts {T} _.
Arguments t_stby {T} _.
Arguments t_mixesOnDraw {T} _.
Arguments t_mixBelowFrac {T} _.
Arguments t_doMix {T} _.
Arguments t_doCond {T} _.
Arguments t_fixed {T} _.
Arguments t_nodeVol {T} _.
Arguments t_nodeCp {T} _.
Arguments t_nodeHeight {T} _.
Arguments t_fracTop {T} _.
Arguments t_fracSide {T} _.
Arguments t_UA {T} _.
Arguments t_inlet {T} _.
Arguments t_inlet2 {T} _.
Arguments t_hasHX {T} _.
Arguments t_hxEff {T} _.
Arguments t_nodeHxEff {T} _.
Arguments t_outletT {T} _.
Arguments t_fitUA {T} _.
Section Set_tank.
  Context {T : Type}.
  Definition set_t_volume (v : T) (r : (tank T)) : (tank T) := mktank v (t_Ts r) (t_stby r) (t_mixesOnDraw r) (t_mixBelowFrac r) (t_doMix r) (t_doCond r) (t_fixed r) (t_nodeVol r) (t_nodeCp r) (t_nodeHeight r) (t_fracTop r) (t_fracSide r) (t_UA r) (t_inlet r) (t_inlet2 r) (t_hasHX r) (t_hxEff r) (t_nodeHxEff r) (t_outletT r) (t_fitUA r).
  Definition set_t_Ts (v : list T) (r : (tank T)) : (tank T) := mktank (t_volume r) v (t_stby r) (t_mixesOnDraw r) (t_mixBelowFrac r) (t_doMix r) (t_doCond r) (t_fixed r) (t_nodeVol r) (t_nodeCp r) (t_nodeHeight r) (t_fracTop r) (t_fracSide r) (t_UA r) (t_inlet r) (t_inlet2 r) (t_hasHX r) (t_hxEff r) (t_nodeHxEff r) (t_outletT r) (t_fitUA r).
  Definition set_t_stby (v : T) (r : (tank T)) : (tank T) := mktank (t_volume r) (t_Ts r) v (t_mixesOnDraw r) (t_mixBelowFrac r) (t_doMix r) (t_doCond r) (t_fixed r) (t_nodeVol r) (t_nodeCp r) (t_nodeHeight r) (t_fracTop r) (t_fracSide r) (t_UA r) (t_inlet r) (t_inlet2 r) (t_hasHX r) (t_hxEff r) (t_nodeHxEff r) (t_outletT r) (t_fitUA r).
  Definition set_t_mixesOnDraw (v : bool) (r : (tank T)) : (tank T) := mktank (t_volume r) (t_Ts r) (t_stby r) v (t_mixBelowFrac r) (t_doMix r) (t_doCond r) (t_fixed r) (t_nodeVol r) (t_nodeCp r) (t_nodeHeight r) (t_fracTop r) (t_fracSide r) (t_UA r) (t_inlet r) (t_inlet2 r) (t_hasHX r) (t_hxEff r) (t_nodeHxEff r) (t_outletT r) (t_fitUA r).
  Definition set_t_mixBelowFrac (v : T) (r : (tank T)) : (tank T) := mktank (t_volume r) (t_Ts r) (t_stby r) (t_mixesOnDraw r) v (t_doMix r) (t_doCond r) (t_fixed r) (t_nodeVol r) (t_nodeCp r) (t_nodeHeight r) (t_fracTop r) (t_fracSide r) (t_UA r) (t_inlet r) (t_inlet2 r) (t_hasHX r) (t_hxEff r) (t_nodeHxEff r) (t_outletT r) (t_fitUA r).
  Definition set_t_doMix (v : bool) (r : (tank T)) : (tank T) := mktank (t_volume r) (t_Ts r) (t_stby r) (t_mixesOnDraw r) (t_mixBelowFrac r) v (t_doCond r) (t_fixed r) (t_nodeVol r) (t_nodeCp r) (t_nodeHeight r) (t_fracTop r) (t_fracSide r) (t_UA r) (t_inlet r) (t_inlet2 r) (t_hasHX r) (t_hxEff r) (t_nodeHxEff r) (t_outletT r) (t_fitUA r).
  Definition set_t_doCond (v : bool) (r : (tank T)) : (tank T) := mktank (t_volume r) (t_Ts r) (t_stby r) (t_mixesOnDraw r) (t_mixBelowFrac r) (t_doMix r) v (t_fixed r) (t_nodeVol r) (t_nodeCp r) (t_nodeHeight r) (t_fracTop r) (t_fracSide r) (t_UA r) (t_inlet r) (t_inlet2 r) (t_hasHX r) (t_hxEff r) (t_nodeHxEff r) (t_outletT r) (t_fitUA r).
  Definition set_t_fixed (v : bool) (r : (tank T)) : (tank T) := mktank (t_volume r) (t_Ts r) (t_stby r) (t_mixesOnDraw r) (t_mixBelowFrac r) (t_doMix r) (t_doCond r) v (t_nodeVol r) (t_nodeCp r) (t_nodeHeight r) (t_fracTop r) (t_fracSide r) (t_UA r) (t_inlet r) (t_inlet2 r) (t_hasHX r) (t_hxEff r) (t_nodeHxEff r) (t_outletT r) (t_fitUA r).
  Definition set_t_nodeVol (v : T) (r : (tank T)) : (tank T) := mktank (t_volume r) (t_Ts r) (t_stby r) (t_mixesOnDraw r) (t_mixBelowFrac r) (t_doMix r) (t_doCond r) (t_fixed r) v (t_nodeCp r) (t_nodeHeight r) (t_fracTop r) (t_fracSide r) (t_UA r) (t_inlet r) (t_inlet2 r) (t_hasHX r) (t_hxEff r) (t_nodeHxEff r) (t_outletT r) (t_fitUA r).
  Definition set_t_nodeCp (v : T) (r : (tank T)) : (tank T) := mktank (t_volume r) (t_Ts r) (t_stby r) (t_mixesOnDraw r) (t_mixBelowFrac r) (t_doMix r) (t_doCond r) (t_fixed r) (t_nodeVol r) v (t_nodeHeight r) (t_fracTop r) (t_fracSide r) (t_UA r) (t_inlet r) (t_inlet2 r) (t_hasHX r) (t_hxEff r) (t_nodeHxEff r) (t_outletT r) (t_fitUA r).
  Definition set_t_nodeHeight (v : T) (r : (tank T)) : (tank T) := mktank (t_volume r) (t_Ts r) (t_stby r) (t_mixesOnDraw r) (t_mixBelowFrac r) (t_doMix r) (t_doCond r) (t_fixed r) (t_nodeVol r) (t_nodeCp r) v (t_fracTop r) (t_fracSide r) (t_UA r) (t_inlet r) (t_inlet2 r) (t_hasHX r) (t_hxEff r) (t_nodeHxEff r) (t_outletT r) (t_fitUA r).
  Definition set_t_fracTop (v : T) (r : (tank T)) : (tank T) := mktank (t_volume r) (t_Ts r) (t_stby r) (t_mixesOnDraw r) (t_mixBelowFrac r) (t_doMix r) (t_doCond r) (t_fixed r) (t_nodeVol r) (t_nodeCp r) (t_nodeHeight r) v (t_fracSide r) (t_UA r) (t_inlet r) (t_inlet2 r) (t_hasHX r) (t_hxEff r) (t_nodeHxEff r) (t_outletT r) (t_fitUA r).
  Definition set_t_fracSide (v : T) (r : (tank T)) : (tank T) := mktank (t_volume r) (t_Ts r) (t_stby r) (t_mixesOnDraw r) (t_mixBelowFrac r) (t_doMix r) (t_doCond r) (t_fixed r) (t_nodeVol r) (t_nodeCp r) (t_nodeHeight r) (t_fracTop r) v (t_UA r) (t_inlet r) (t_inlet2 r) (t_hasHX r) (t_hxEff r) (t_nodeHxEff r) (t_outletT r) (t_fitUA r).
  Definition set_t_UA (v : T) (r : (tank T)) : (tank T) := mktank (t_volume r) (t_Ts r) (t_stby r) (t_mixesOnDraw r) (t_mixBelowFrac r) (t_doMix r) (t_doCond r) (t_fixed r) (t_nodeVol r) (t_nodeCp r) (t_nodeHeight r) (t_fracTop r) (t_fracSide r) v (t_inlet r) (t_inlet2 r) (t_hasHX r) (t_hxEff r) (t_nodeHxEff r) (t_outletT r) (t_fitUA r).
  Definition set_t_inlet (v : Z) (r : (tank T)) : (tank T) := mktank (t_volume r) (t_Ts r) (t_stby r) (t_mixesOnDraw r) (t_mixBelowFrac r) (t_doMix r) (t_doCond r) (t_fixed r) (t_nodeVol r) (t_nodeCp r) (t_nodeHeight r) (t_fracTop r) (t_fracSide r) (t_UA r) v (t_inlet2 r) (t_hasHX r) (t_hxEff r) (t_nodeHxEff r) (t_outletT r) (t_fitUA r).
  Definition set_t_inlet2 (v : Z) (r : (tank T)) : (tank T) := mktank (t_volume r) (t_Ts r) (t_stby r) (t_mixesOnDraw r) (t_mixBelowFrac r) (t_doMix r) (t_doCond r) (t_fixed r) (t_nodeVol r) (t_nodeCp r) (t_nodeHeight r) (t_fracTop r) (t_fracSide r) (t_UA r) (t_inlet r) v (t_hasHX r) (t_hxEff r) (t_nodeHxEff r) (t_outletT r) (t_fitUA r).
  Definition set_t_hasHX (v : bool) (r : (tank T)) : (tank T) := mktank (t_volume r) (t_Ts r) (t_stby r) (t_mixesOnDraw r) (t_mixBelowFrac r) (t_doMix r) (t_doCond r) (t_fixed r) (t_nodeVol r) (t_nodeCp r) (t_nodeHeight r) (t_fracTop r) (t_fracSide r) (t_UA r) (t_inlet r) (t_inlet2 r) v (t_hxEff r) (t_nodeHxEff r) (t_outletT r) (t_fitUA r).
  Definition set_t_hxEff (v : T) (r : (tank T)) : (tank T) := mktank (t_volume r) (t_Ts r) (t_stby r) (t_mixesOnDraw r) (t_mixBelowFrac r) (t_doMix r) (t_doCond r) (t_fixed r) (t_nodeVol r) (t_nodeCp r) (t_nodeHeight r) (t_fracTop r) (t_fracSide r) (t_UA r) (t_inlet r) (t_inlet2 r) (t_hasHX r) v (t_nodeHxEff r) (t_outletT r) (t_fitUA r).
  Definition set_t_nodeHxEff (v : T) (r : (tank T)) : (tank T) := mktank (t_volume r) (t_Ts r) (t_stby r) (t_mixesOnDraw r) (t_mixBelowFrac r) (t_doMix r) (t_doCond r) (t_fixed r) (t_nodeVol r) (t_nodeCp r) (t_nodeHeight r) (t_fracTop r) (t_fracSide r) (t_UA r) (t_inlet r) (t_inlet2 r) (t_hasHX r) (t_hxEff r) v (t_outletT r) (t_fitUA r).
  Definition set_t_outletT (v : T) (r : (tank T)) : (tank T) := mktank (t_volume r) (t_Ts r) (t_stby r) (t_mixesOnDraw r) (t_mixBelowFrac r) (t_doMix r) (t_doCond r) (t_fixed r) (t_nodeVol r) (t_nodeCp r) (t_nodeHeight r) (t_fracTop r) (t_fracSide r) (t_UA r) (t_inlet r) (t_inlet2 r) (t_hasHX r) (t_hxEff r) (t_nodeHxEff r) v (t_fitUA r).
  Definition set_t_fitUA (v : T) (r : (tank T)) : (tank T) := mktank (t_volume r) (t_Ts r) (t_stby r) (t_mixesOnDraw r) (t_mixBelowFrac r) (t_doMix r) (t_doCond r) (t_fixed r) (t_nodeVol r) (t_nodeCp r) (t_nodeHeight r) (t_fracTop r) (t_fracSide r) (t_UA r) (t_inlet r) (t_inlet2 r) (t_hasHX r) (t_hxEff r) (t_nodeHxEff r) (t_outletT r) v.
End Set_tank.

(** HPWHHeatSource.hh:48-165, Resistance.hh:10, Condenser.hh:48-145: the members of HeatSource and of
    both subclasses in one record (the members of the other subclass are unused).
    The performance function takes the setpoint as an extra argument because the closures installed by
    the code read hpwh->getSetpoint() (Condenser.cc:1373-1379, HPWH.cc:4527-4545). *)
Record hsrc (T : Type) : Type := mkhsrc {
  h_type : hstype;   (* typeOfHeatSource() *)
  h_on : bool;   (* isOn *)
  h_locked : bool;   (* lockedOut *)
  h_runtime : T;   (* runtime_min *)
  h_eIn : T;   (* energyInput_kWh *)
  h_eOut : T;   (* energyOutput_kWh *)
  h_vip : bool;   (* isVIP *)
  h_backup : option nat;   (* backupHeatSource (index) *)
  h_companion : option nat;   (* companionHeatSource *)
  h_followed : option nat;   (* followedByHeatSource *)
  h_dist : wdist T;   (* heatDist *)
  h_shrink : T;   (* Tshrinkage_C *)
  h_turnOn : list (logic T);   (* turnOnLogicSet *)
  h_shutOff : list (logic T);   (* shutOffLogicSet *)
  h_standby : option (logic T);   (* standbyLogic *)
  h_minT : T;
  h_maxT : T;
  h_depresses : bool;   (* depressesTemperature *)
  h_airflow : T;   (* airflowFreedom *)
  h_extIn : Z;   (* externalInletHeight *)
  h_extOut : Z;   (* externalOutletHeight *)
  h_lowest : nat;   (* lowestNode *)
  h_power : T;   (* Resistance::power_kW *)
  h_hyst : T;   (* Condenser::hysteresis_dC *)
  h_maxSet : T;   (* maxSetpoint_C *)
  h_doDefrost : bool;
  h_rdPwr : T;   (* resDefrost.inputPwr_kW *)
  h_rdLift : T;   (* resDefrost.constTempLift_dF *)
  h_rdBelow : T;   (* resDefrost.onBelowT_F *)
  h_defrost : list (T * T);   (* defrostMap *)
  h_mlOut : T;   (* maxOut_at_LowT.outT_C *)
  h_mlAir : T;   (* maxOut_at_LowT.airT_C *)
  h_shxCold : T;   (* secondaryHeatExchanger.coldSideTemperatureOffset_dC *)
  h_shxHot : T;   (* hotSideTemperatureOffset_dC *)
  h_shxPump : T;   (* extraPumpPower_W *)
  h_stbyPwr : T;   (* standbyPower_kW *)
  h_mpFlow : T;   (* mpFlowRate_LPS *)
  h_config : coil;   (* configuration *)
  h_multipass : bool;   (* isMultipass *)
  h_inScale : T;   (* inputPowerScale *)
  h_copScale : T;   (* COP_scale *)
  h_eval : T -> T -> T -> perf T   (* evaluatePerformance: setpoint, external T, condenser T *)
}.
Arguments mkhsrc {T}.
Arguments h_type {T} _.
Arguments h_on {T} _.
Arguments h_locked {T} _.
Arguments h_runtime {T} _.
Arguments h_eIn {T} _.
Arguments h_eOut {T} _.
Arguments h_vip {T} _.
Arguments h_backup {T} _.
Arguments h_companion {T} _.
Arguments h_followed {T} _.
Arguments h_dist {T} _.
Arguments h_shrink {T} _.
Arguments h_turnOn {T} _.
Arguments h_shutOff {T} _.
Arguments h_standby {T} _.
Arguments h_minT {T} _.
Arguments h_maxT {T} _.
Arguments h_depresses {T} _.
Arguments h_airflow {T} _.
Arguments h_extIn {T} _.
Arguments h_extOut {T} _.
Arguments h_lowest {T} _.
Arguments h_power {T} _.
Arguments h_hyst {T} _.
Arguments h_maxSet {T} _.
Arguments h_doDefrost {T} _.
Arguments h_rdPwr {T} _.
Arguments h_rdLift {T} _.
Arguments h_rdBelow {T} _.
Arguments h_defrost {T} _.
Arguments h_mlOut {T} _.
Arguments h_mlAir {T} _.
Arguments h_shxCold {T} _.
Arguments h_shxHot {T} _.
Arguments h_shxPump {T} _.
Arguments h_stbyPwr {T} _.
Arguments h_mpFlow {T} _.
Arguments h_config {T} _.
Arguments h_multipass {T} _.
Arguments h_inScale {T} _.
Arguments h_copScale {T} _.
Arguments h_eval {T} _.
Section Set_hsrc.
  Context {T : Type}.
  Definition set_h_type (v : hstype) (r : (hsrc T)) : (hsrc T) := mkhsrc v (h_on r) (h_locked r) (h_runtime r) (h_eIn r) (h_eOut r) (h_vip r) (h_backup r) (h_companion r) (h_followed r) (h_dist r) (h_shrink r) (h_turnOn r) (h_shutOff r) (h_standby r) (h_minT r) (h_maxT r) (h_depresses r) (h_airflow r) (h_extIn r) (h_extOut r) (h_lowest r) (h_power r) (h_hyst r) (h_maxSet r) (h_doDefrost r) (h_rdPwr r) (h_rdLift r) (h_rdBelow r) (h_defrost r) (h_mlOut r) (h_mlAir r) (h_shxCold r) (h_shxHot r) (h_shxPump r) (h_stbyPwr r) (h_mpFlow r) (h_config r) (h_multipass r) (h_inScale r) (h_copScale r) (h_eval r).
  Definition set_h_on (v : bool) (r : (hsrc T)) : (hsrc T) := mkhsrc (h_type r) v (h_locked r) (h_runtime r) (h_eIn r) (h_eOut r) (h_vip r) (h_backup r) (h_companion r) (h_followed r) (h_dist r) (h_shrink r) (h_turnOn r) (h_shutOff r) (h_standby r) (h_minT r) (h_maxT r) (h_depresses r) (h_airflow r) (h_extIn r) (h_extOut r) (h_lowest r) (h_power r) (h_hyst r) (h_maxSet r) (h_doDefrost r) (h_rdPwr r) (h_rdLift r) (h_rdBelow r) (h_defrost r) (h_mlOut r) (h_mlAir r) (h_shxCold r) (h_shxHot r) (h_shxPump r) (h_stbyPwr r) (h_mpFlow r) (h_config r) (h_multipass r) (h_inScale r) (h_copScale r) (h_eval r).
  Definition set_h_locked (v : bool) (r : (hsrc T)) : (hsrc T) := mkhsrc (h_type r) (h_on r) v (h_runtime r) (h_eIn r) (h_eOut r) (h_vip r) (h_backup r) (h_companion r) (h_followed r) (h_dist r) (h_shrink r) (h_turnOn r) (h_shutOff r) (h_standby r) (h_minT r) (h_maxT r) (h_depresses r) (h_airflow r) (h_extIn r) (h_extOut r) (h_lowest r) (h_power r) (h_hyst r) (h_maxSet r) (h_doDefrost r) (h_rdPwr r) (h_rdLift r) (h_rdBelow r) (h_defrost r) (h_mlOut r) (h_mlAir r) (h_shxCold r) (h_shxHot r) (h_shxPump r) (h_stbyPwr r) (h_mpFlow r) (h_config r) (h_multipass r) (h_inScale r) (h_copScale r) (h_eval r).
  Definition set_h_runtime (v : T) (r : (hsrc T)) : (hsrc T) := mkhsrc (h_type r) (h_on r) (h_locked r) v (h_eIn r) (h_eOut r) (h_vip r) (h_backup r) (h_companion r) (h_followed r) (h_dist r) (h_shrink r) (h_turnOn r) (h_shutOff r) (h_standby r) (h_minT r) (h_maxT r) (h_depresses r) (h_airflow r) (h_extIn r) (h_extOut r) (h_lowest r) (h_power r) (h_hyst r) (h_maxSet r) (h_doDefrost r) (h_rdPwr r) (h_rdLift r) (h_rdBelow r) (h_defrost r) (h_mlOut r) (h_mlAir r) (h_shxCold r) (h_shxHot r) (h_shxPump r) (h_stbyPwr r) (h_mpFlow r) (h_config r) (h_multipass r) (h_inScale r) (h_copScale r) (h_eval r).
  Definition set_h_eIn (v : T) (r : (hsrc T)) : (hsrc T) := mkhsrc (h_type r) (h_on r) (h_locked r) (h_runtime r) v (h_eOut r) (h_vip r) (h_backup r) (h_companion r) (h_followed r) (h_dist r) (h_shrink r) (h_turnOn r) (h_shutOff r) (h_standby r) (h_minT r) (h_maxT r) (h_depresses r) (h_airflow r) (h_extIn r) (h_extOut r) (h_lowest r) (h_power r) (h_hyst r) (h_maxSet r) (h_doDefrost r) (h_rdPwr r) (h_rdLift r) (h_rdBelow r) (h_defrost r) (h_mlOut r) (h_mlAir r) (h_shxCold r) (h_shxHot r) (h_shxPump r) (h_stbyPwr r) (h_mpFlow r) (h_config r) (h_multipass r) (h_inScale r) (h_copScale r) (h_eval r).
  Definition set_h_eOut (v : T) (r : (hsrc T)) : (hsrc T) := mkhsrc (h_type r) (h_on r) (h_locked r) (h_runtime r) (h_eIn r) v (h_vip r) (h_backup r) (h_companion r) (h_followed r) (h_dist r) (h_shrink r) (h_turnOn r) (h_shutOff r) (h_standby r) (h_minT r) (h_maxT r) (h_depresses r) (h_airflow r) (h_extIn r) (h_extOut r) (h_lowest r) (h_power r) (h_hyst r) (h_maxSet r) (h_doDefrost r) (h_rdPwr r) (h_rdLift r) (h_rdBelow r) (h_defrost r) (h_mlOut r) (h_mlAir r) (h_shxCold r) (h_shxHot r) (h_shxPump r) (h_stbyPwr r) (h_mpFlow r) (h_config r) (h_multipass r) (h_inScale r) (h_copScale r) (h_eval r).
  Definition set_h_vip (v : bool) (r : (hsrc T)) : (hsrc T) := mkhsrc (h_type r) (h_on r) (h_locked r) (h_runtime r) (h_eIn r) (h_eOut r) v (h_backup r) (h_companion r) (h_followed r) (h_dist r) (h_shrink r) (h_turnOn r) (h_shutOff r) (h_standby r) (h_minT r) (h_maxT r) (h_depresses r) (h_airflow r) (h_extIn r) (h_extOut r) (h_lowest r) (h_power r) (h_hyst r) (h_maxSet r) (h_doDefrost r) (h_rdPwr r) (h_rdLift r) (h_rdBelow r) (h_defrost r) (h_mlOut r) (h_mlAir r) (h_shxCold r) (h_shxHot r) (h_shxPump r) (h_stbyPwr r) (h_mpFlow r) (h_config r) (h_multipass r) (h_inScale r) (h_copScale r) (h_eval r).
  Definition set_h_backup (v : option nat) (r : (hsrc T)) : (hsrc T) := mkhsrc (h_type r) (h_on r) (h_locked r) (h_runtime r) (h_eIn r) (h_eOut r) (h_vip r) v (h_companion r) (h_followed r) (h_dist r) (h_shrink r) (h_turnOn r) (h_shutOff r) (h_standby r) (h_minT r) (h_maxT r) (h_depresses r) (h_airflow r) (h_extIn r) (h_extOut r) (h_lowest r) (h_power r) (h_hyst r) (h_maxSet r) (h_doDefrost r) (h_rdPwr r) (h_rdLift r) (h_rdBelow r) (h_defrost r) (h_mlOut r) (h_mlAir r) (h_shxCold r) (h_shxHot r) (h_shxPump r) (h_stbyPwr r) (h_mpFlow r) (h_config r) (h_multipass r) (h_inScale r) (h_copScale r) (h_eval r).
  Definition set_h_companion (v : option nat) (r : (hsrc T)) : (hsrc T) := mkhsrc (h_type r) (h_on r) (h_locked r) (h_runtime r) (h_eIn r) (h_eOut r) (h_vip r) (h_backup r) v (h_followed r) (h_dist r) (h_shrink r) (h_turnOn r) (h_shutOff r) (h_standby r) (h_minT r) (h_maxT r) (h_depresses r) (h_airflow r) (h_extIn r) (h_extOut r) (h_lowest r) (h_power r) (h_hyst r) (h_maxSet r) (h_doDefrost r) (h_rdPwr r) (h_rdLift r) (h_rdBelow r) (h_defrost r) (h_mlOut r) (h_mlAir r) (h_shxCold r) (h_shxHot r) (h_shxPump r) (h_stbyPwr r) (h_mpFlow r) (h_config r) (h_multipass r) (h_inScale r) (h_copScale r) (h_eval r).
  Definition set_h_followed (v : option nat) (r : (hsrc T)) : (hsrc T) := mkhsrc (h_type r) (h_on r) (h_locked r) (h_runtime r) (h_eIn r) (h_eOut r) (h_vip r) (h_backup r) (h_companion r) v (h_dist r) (h_shrink r) (h_turnOn r) (h_shutOff r) (h_standby r) (h_minT r) (h_maxT r) (h_depresses r) (h_airflow r) (h_extIn r) (h_extOut r) (h_lowest r) (h_power r) (h_hyst r) (h_maxSet r) (h_doDefrost r) (h_rdPwr r) (h_rdLift r) (h_rdBelow r) (h_defrost r) (h_mlOut r) (h_mlAir r) (h_shxCold r) (h_shxHot r) (h_shxPump r) (h_stbyPwr r) (h_mpFlow r) (h_config r) (h_multipass r) (h_inScale r) (h_copScale r) (h_eval r).
  Definition set_h_dist (v : wdist T) (r : (hsrc T)) : (hsrc T) := mkhsrc (h_type r) (h_on r) (h_locked r) (h_runtime r) (h_eIn r) (h_eOut r) (h_vip r) (h_backup r) (h_companion r) (h_followed r) v (h_shrink r) (h_turnOn r) (h_shutOff r) (h_standby r) (h_minT r) (h_maxT r) (h_depresses r) (h_airflow r) (h_extIn r) (h_extOut r) (h_lowest r) (h_power r) (h_hyst r) (h_maxSet r) (h_doDefrost r) (h_rdPwr r) (h_rdLift r) (h_rdBelow r) (h_defrost r) (h_mlOut r) (h_mlAir r) (h_shxCold r) (h_shxHot r) (h_shxPump r) (h_stbyPwr r) (h_mpFlow r) (h_config r) (h_multipass r) (h_inScale r) (h_copScale r) (h_eval r).
  Definition set_h_shrink (v : T) (r : (hsrc T)) : (hsrc T) := mkhsrc (h_type r) (h_on r) (h_locked r) (h_runtime r) (h_eIn r) (h_eOut r) (h_vip r) (h_backup r) (h_companion r) (h_followed r) (h_dist r) v (h_turnOn r) (h_shutOff r) (h_standby r) (h_minT r) (h_maxT r) (h_depresses r) (h_airflow r) (h_extIn r) (h_extOut r) (h_lowest r) (h_power r) (h_hyst r) (h_maxSet r) (h_doDefrost r) (h_rdPwr r) (h_rdLift r) (h_rdBelow r) (h_defrost r) (h_mlOut r) (h_mlAir r) (h_shxCold r) (h_shxHot r) (h_shxPump r) (h_stbyPwr r) (h_mpFlow r) (h_config r) (h_multipass r) (h_inScale r) (h_copScale r) (h_eval r).
  Definition set_h_turnOn (v : list (logic T)) (r : (hsrc T)) : (hsrc T) := mkhsrc (h_type r) (h_on r) (h_locked r) (h_runtime r) (h_eIn r) (h_eOut r) (h_vip r) (h_backup r) (h_companion r) (h_followed r) (h_dist r) (h_shrink r) v (h_shutOff r) (h_standby r) (h_minT r) (h_maxT r) (h_depresses r) (h_airflow r) (h_extIn r) (h_extOut r) (h_lowest r) (h_power r) (h_hyst r) (h_maxSet r) (h_doDefrost r) (h_rdPwr r) (h_rdLift r) (h_rdBelow r) (h_defrost r) (h_mlOut r) (h_mlAir r) (h_shxCold r) (h_shxHot r) (h_shxPump r) (h_stbyPwr r) (h_mpFlow r) (h_config r) (h_multipass r) (h_inScale r) (h_copScale r) (h_eval r).
  Definition set_h_shutOff (v : list (logic T)) (r : (hsrc T)) : (hsrc T) := mkhsrc (h_type r) (h_on r) (h_locked r) (h_runtime r) (h_eIn r) (h_eOut r) (h_vip r) (h_backup r) (h_companion r) (h_followed r) (h_dist r) (h_shrink r) (h_turnOn r) v (h_standby r) (h_minT r) (h_maxT r) (h_depresses r) (h_airflow r) (h_extIn r) (h_extOut r) (h_lowest r) (h_power r) (h_hyst r) (h_maxSet r) (h_doDefrost r) (h_rdPwr r) (h_rdLift r) (h_rdBelow r) (h_defrost r) (h_mlOut r) (h_mlAir r) (h_shxCold r) (h_shxHot r) (h_shxPump r) (h_stbyPwr r) (h_mpFlow r) (h_config r) (h_multipass r) (h_inScale r) (h_copScale r) (h_eval r).
  Definition set_h_standby (v : option (logic T)) (r : (hsrc T)) : (hsrc T) := mkhsrc (h_type r) (h_on r) (h_locked r) (h_runtime r) (h_eIn r) (h_eOut r) (h_vip r) (h_backup r) (h_companion r) (h_followed r) (h_dist r) (h_shrink r) (h_turnOn r) (h_shutOff r) v (h_minT r) (h_maxT r) (h_depresses r) (h_airflow r) (h_extIn r) (h_extOut r) (h_lowest r) (h_power r) (h_hyst r) (h_maxSet r) (h_doDefrost r) (h_rdPwr r) (h_rdLift r) (h_rdBelow r) (h_defrost r) (h_mlOut r) (h_mlAir r) (h_shxCold r) (h_shxHot r) (h_shxPump r) (h_stbyPwr r) (h_mpFlow r) (h_config r) (h_multipass r) (h_inScale r) (h_copScale r) (h_eval r).
  Definition set_h_minT (v : T) (r : (hsrc T)) : (hsrc T) := mkhsrc (h_type r) (h_on r) (h_locked r) (h_runtime r) (h_eIn r) (h_eOut r) (h_vip r) (h_backup r) (h_companion r) (h_followed r) (h_dist r) (h_shrink r) (h_turnOn r) (h_shutOff r) (h_standby r) v (h_maxT r) (h_depresses r) (h_airflow r) (h_extIn r) (h_extOut r) (h_lowest r) (h_power r) (h_hyst r) (h_maxSet r) (h_doDefrost r) (h_rdPwr r) (h_rdLift r) (h_rdBelow r) (h_defrost r) (h_mlOut r) (h_mlAir r) (h_shxCold r) (h_shxHot r) (h_shxPump r) (h_stbyPwr r) (h_mpFlow r) (h_config r) (h_multipass r) (h_inScale r) (h_copScale r) (h_eval r).
  Definition set_h_maxT (v : T) (r : (hsrc T)) : (hsrc T) := mkhsrc (h_type r) (h_on r) (h_locked r) (h_runtime r) (h_eIn r) (h_eOut r) (h_vip r) (h_backup r) (h_companion r) (h_followed r) (h_dist r) (h_shrink r) (h_turnOn r) (h_shutOff r) (h_standby r) (h_minT r) v (h_depresses r) (h_airflow r) (h_extIn r) (h_extOut r) (h_lowest r) (h_power r) (h_hyst r) (h_maxSet r) (h_doDefrost r) (h_rdPwr r) (h_rdLift r) (h_rdBelow r) (h_defrost r) (h_mlOut r) (h_mlAir r) (h_shxCold r) (h_shxHot r) (h_shxPump r) (h_stbyPwr r) (h_mpFlow r) (h_config r) (h_multipass r) (h_inScale r) (h_copScale r) (h_eval r).
  Definition set_h_depresses (v : bool) (r : (hsrc T)) : (hsrc T) := mkhsrc (h_type r) (h_on r) (h_locked r) (h_runtime r) (h_eIn r) (h_eOut r) (h_vip r) (h_backup r) (h_companion r) (h_followed r) (h_dist r) (h_shrink r) (h_turnOn r) (h_shutOff r) (h_standby r) (h_minT r) (h_maxT r) v (h_airflow r) (h_extIn r) (h_extOut r) (h_lowest r) (h_power r) (h_hyst r) (h_maxSet r) (h_doDefrost r) (h_rdPwr r) (h_rdLift r) (h_rdBelow r) (h_defrost r) (h_mlOut r) (h_mlAir r) (h_shxCold r) (h_shxHot r) (h_shxPump r) (h_stbyPwr r) (h_mpFlow r) (h_config r) (h_multipass r) (h_inScale r) (h_copScale r) (h_eval r).
  Definition set_h_airflow (v : T) (r : (hsrc T)) : (hsrc T) := mkhsrc (h_type r) (h_on r) (h_locked r) (h_runtime r) (h_eIn r) (h_eOut r) (h_vip r) (h_backup r) (h_companion r) (h_followed r) (h_dist r) (h_shrink r) (h_turnOn r) (h_shutOff r) (h_standby r) (h_minT r) (h_maxT r) (h_depresses r) v (h_extIn r) (h_extOut r) (h_lowest r) (h_power r) (h_hyst r) (h_maxSet r) (h_doDefrost r) (h_rdPwr r) (h_rdLift r) (h_rdBelow r) (h_defrost r) (h_mlOut r) (h_mlAir r) (h_shxCold r) (h_shxHot r) (h_shxPump r) (h_stbyPwr r) (h_mpFlow r) (h_config r) (h_multipass r) (h_inScale r) (h_copScale r) (h_eval r).
  Definition set_h_extIn (v : Z) (r : (hsrc T)) : (hsrc T) := mkhsrc (h_type r) (h_on r) (h_locked r) (h_runtime r) (h_eIn r) (h_eOut r) (h_vip r) (h_backup r) (h_companion r) (h_followed r) (h_dist r) (h_shrink r) (h_turnOn r) (h_shutOff r) (h_standby r) (h_minT r) (h_maxT r) (h_depresses r) (h_airflow r) v (h_extOut r) (h_lowest r) (h_power r) (h_hyst r) (h_maxSet r) (h_doDefrost r) (h_rdPwr r) (h_rdLift r) (h_rdBelow r) (h_defrost r) (h_mlOut r) (h_mlAir r) (h_shxCold r) (h_shxHot r) (h_shxPump r) (h_stbyPwr r) (h_mpFlow r) (h_config r) (h_multipass r) (h_inScale r) (h_copScale r) (h_eval r).
  Definition set_h_extOut (v : Z) (r : (hsrc T)) : (hsrc T) := mkhsrc (h_type r) (h_on r) (h_locked r) (h_runtime r) (h_eIn r) (h_eOut r) (h_vip r) (h_backup r) (h_companion r) (h_followed r) (h_dist r) (h_shrink r) (h_turnOn r) (h_shutOff r) (h_standby r) (h_minT r) (h_maxT r) (h_depresses r) (h_airflow r) (h_extIn r) v (h_lowest r) (h_power r) (h_hyst r) (h_maxSet r) (h_doDefrost r) (h_rdPwr r) (h_rdLift r) (h_rdBelow r) (h_defrost r) (h_mlOut r) (h_mlAir r) (h_shxCold r) (h_shxHot r) (h_shxPump r) (h_stbyPwr r) (h_mpFlow r) (h_config r) (h_multipass r) (h_inScale r) (h_copScale r) (h_eval r).
  Definition set_h_lowest (v : nat) (r : (hsrc T)) : (hsrc T) := mkhsrc (h_type r) (h_on r) (h_locked r) (h_runtime r) (h_eIn r) (h_eOut r) (h_vip r) (h_backup r) (h_companion r) (h_followed r) (h_dist r) (h_shrink r) (h_turnOn r) (h_shutOff r) (h_standby r) (h_minT r) (h_maxT r) (h_depresses r) (h_airflow r) (h_extIn r) (h_extOut r) v (h_power r) (h_hyst r) (h_maxSet r) (h_doDefrost r) (h_rdPwr r) (h_rdLift r) (h_rdBelow r) (h_defrost r) (h_mlOut r) (h_mlAir r) (h_shxCold r) (h_shxHot r) (h_shxPump r) (h_stbyPwr r) (h_mpFlow r) (h_config r) (h_multipass r) (h_inScale r) (h_copScale r) (h_eval r).
  Definition set_h_power (v : T) (r : (hsrc T)) : (hsrc T) := mkhsrc (h_type r) (h_on r) (h_locked r) (h_runtime r) (h_eIn r) (h_eOut r) (h_vip r) (h_backup r) (h_companion r) (h_followed r) (h_dist r) (h_shrink r) (h_turnOn r) (h_shutOff r) (h_standby r) (h_minT r) (h_maxT r) (h_depresses r) (h_airflow r) (h_extIn r) (h_extOut r) (h_lowest r) v (h_hyst r) (h_maxSet r) (h_doDefrost r) (h_rdPwr r) (h_rdLift r) (h_rdBelow r) (h_defrost r) (h_mlOut r) (h_mlAir r) (h_shxCold r) (h_shxHot r) (h_shxPump r) (h_stbyPwr r) (h_mpFlow r) (h_config r) (h_multipass r) (h_inScale r) (h_copScale r) (h_eval r).
  Definition set_h_hyst (v : T) (r : (hsrc T)) : (hsrc T) := mkhsrc (h_type r) (h_on r) (h_locked r) (h_runtime r) (h_eIn r) (h_eOut r) (h_vip r) (h_backup r) (h_companion r) (h_followed r) (h_dist r) (h_shrink r) (h_turnOn r) (h_shutOff r) (h_standby r) (h_minT r) (h_maxT r) (h_depresses r) (h_airflow r) (h_extIn r) (h_extOut r) (h_lowest r) (h_power r) v (h_maxSet r) (h_doDefrost r) (h_rdPwr r) (h_rdLift r) (h_rdBelow r) (h_defrost r) (h_mlOut r) (h_mlAir r) (h_shxCold r) (h_shxHot r) (h_shxPump r) (h_stbyPwr r) (h_mpFlow r) (h_config r) (h_multipass r) (h_inScale r) (h_copScale r) (h_eval r).
  Definition set_h_maxSet (v : T) (r : (hsrc T)) : (hsrc T) := mkhsrc (h_type r) (h_on r) (h_locked r) (h_runtime r) (h_eIn r) (h_eOut r) (h_vip r) (h_backup r) (h_companion r) (h_followed r) (h_dist r) (h_shrink r) (h_turnOn r) (h_shutOff r) (h_standby r) (h_minT r) (h_maxT r) (h_depresses r) (h_airflow r) (h_extIn r) (h_extOut r) (h_lowest r) (h_power r) (h_hyst r) v (h_doDefrost r) (h_rdPwr r) (h_rdLift r) (h_rdBelow r) (h_defrost r) (h_mlOut r) (h_mlAir r) (h_shxCold r) (h_shxHot r) (h_shxPump r) (h_stbyPwr r) (h_mpFlow r) (h_config r) (h_multipass r) (h_inScale r) (h_copScale r) (h_eval r).
  Definition set_h_doDefrost (v : bool) (r : (hsrc T)) : (hsrc T) := mkhsrc (h_type r) (h_on r) (h_locked r) (h_runtime r) (h_eIn r) (h_eOut r) (h_vip r) (h_backup r) (h_companion r) (h_followed r) (h_dist r) (h_shrink r) (h_turnOn r) (h_shutOff r) (h_standby r) (h_minT r) (h_maxT r) (h_depresses r) (h_airflow r) (h_extIn r) (h_extOut r) (h_lowest r) (h_power r) (h_hyst r) (h_maxSet r) v (h_rdPwr r) (h_rdLift r) (h_rdBelow r) (h_defrost r) (h_mlOut r) (h_mlAir r) (h_shxCold r) (h_shxHot r) (h_shxPump r) (h_stbyPwr r) (h_mpFlow r) (h_config r) (h_multipass r) (h_inScale r) (h_copScale r) (h_eval r).
  Definition set_h_rdPwr (v : T) (r : (hsrc T)) : (hsrc T) := mkhsrc (h_type r) (h_on r) (h_locked r) (h_runtime r) (h_eIn r) (h_eOut r) (h_vip r) (h_backup r) (h_companion r) (h_followed r) (h_dist r) (h_shrink r) (h_turnOn r) (h_shutOff r) (h_standby r) (h_minT r) (h_maxT r) (h_depresses r) (h_airflow r) (h_extIn r) (h_extOut r) (h_lowest r) (h_power r) (h_hyst r) (h_maxSet r) (h_doDefrost r) v (h_rdLift r) (h_rdBelow r) (h_defrost r) (h_mlOut r) (h_mlAir r) (h_shxCold r) (h_shxHot r) (h_shxPump r) (h_stbyPwr r) (h_mpFlow r) (h_config r) (h_multipass r) (h_inScale r) (h_copScale r) (h_eval r).
  Definition set_h_rdLift (v : T) (r : (hsrc T)) : (hsrc T) := mkhsrc (h_type r) (h_on r) (h_locked r) (h_runtime r) (h_eIn r) (h_eOut r) (h_vip r) (h_backup r) (h_companion r) (h_followed r) (h_dist r) (h_shrink r) (h_turnOn r) (h_shutOff r) (h_standby r) (h_minT r) (h_maxT r) (h_depresses r) (h_airflow r) (h_extIn r) (h_extOut r) (h_lowest r) (h_power r) (h_hyst r) (h_maxSet r) (h_doDefrost r) (h_rdPwr r) v (h_rdBelow r) (h_defrost r) (h_mlOut r) (h_mlAir r) (h_shxCold r) (h_shxHot r) (h_shxPump r) (h_stbyPwr r) (h_mpFlow r) (h_config r) (h_multipass r) (h_inScale r) (h_copScale r) (h_eval r).
  Definition set_h_rdBelow (v : T) (r : (hsrc T)) : (hsrc T) := mkhsrc (h_type r) (h_on r) (h_locked r) (h_runtime r) (h_eIn r) (h_eOut r) (h_vip r) (h_backup r) (h_companion r) (h_followed r) (h_dist r) (h_shrink r) (h_turnOn r) (h_shutOff r) (h_standby r) (h_minT r) (h_maxT r) (h_depresses r) (h_airflow r) (h_extIn r) (h_extOut r) (h_lowest r) (h_power r) (h_hyst r) (h_maxSet r) (h_doDefrost r) (h_rdPwr r) (h_rdLift r) v (h_defrost r) (h_mlOut r) (h_mlAir r) (h_shxCold r) (h_shxHot r) (h_shxPump r) (h_stbyPwr r) (h_mpFlow r) (h_config r) (h_multipass r) (h_inScale r) (h_copScale r) (h_eval r).
  Definition set_h_defrost (v : list (T * T)) (r : (hsrc T)) : (hsrc T) := mkhsrc (h_type r) (h_on r) (h_locked r) (h_runtime r) (h_eIn r) (h_eOut r) (h_vip r) (h_backup r) (h_companion r) (h_followed r) (h_dist r) (h_shrink r) (h_turnOn r) (h_shutOff r) (h_standby r) (h_minT r) (h_maxT r) (h_depresses r) (h_airflow r) (h_extIn r) (h_extOut r) (h_lowest r) (h_power r) (h_hyst r) (h_maxSet r) (h_doDefrost r) (h_rdPwr r) (h_rdLift r) (h_rdBelow r) v (h_mlOut r) (h_mlAir r) (h_shxCold r) (h_shxHot r) (h_shxPump r) (h_stbyPwr r) (h_mpFlow r) (h_config r) (h_multipass r) (h_inScale r) (h_copScale r) (h_eval r).
  Definition set_h_mlOut (v : T) (r : (hsrc T)) : (hsrc T) := mkhsrc (h_type r) (h_on r) (h_locked r) (h_runtime r) (h_eIn r) (h_eOut r) (h_vip r) (h_backup r) (h_companion r) (h_followed r) (h_dist r) (h_shrink r) (h_turnOn r) (h_shutOff r) (h_standby r) (h_minT r) (h_maxT r) (h_depresses r) (h_airflow r) (h_extIn r) (h_extOut r) (h_lowest r) (h_power r) (h_hyst r) (h_maxSet r) (h_doDefrost r) (h_rdPwr r) (h_rdLift r) (h_rdBelow r) (h_defrost r) v (h_mlAir r) (h_shxCold r) (h_shxHot r) (h_shxPump r) (h_stbyPwr r) (h_mpFlow r) (h_config r) (h_multipass r) (h_inScale r) (h_copScale r) (h_eval r).
  Definition set_h_mlAir (v : T) (r : (hsrc T)) : (hsrc T) := mkhsrc (h_type r) (h_on r) (h_locked r) (h_runtime r) (h_eIn r) (h_eOut r) (h_vip r) (h_backup r) (h_companion r) (h_followed r) (h_dist r) (h_shrink r) (h_turnOn r) (h_shutOff r) (h_standby r) (h_minT r) (h_maxT r) (h_depresses r) (h_airflow r) (h_extIn r) (h_extOut r) (h_lowest r) (h_power r) (h_hyst r) (h_maxSet r) (h_doDefrost r) (h_rdPwr r) (h_rdLift r) (h_rdBelow r) (h_defrost r) (h_mlOut r) v (h_shxCold r) (h_shxHot r) (h_shxPump r) (h_stbyPwr r) (h_mpFlow r) (h_config r) (h_multipass r) (h_inScale r) (h_copScale r) (h_eval r).
  Definition set_h_shxCold (v : T) (r : (hsrc T)) : (hsrc T) := mkhsrc (h_type r) (h_on r) (h_locked r) (h_runtime r) (h_eIn r) (h_eOut r) (h_vip r) (h_backup r) (h_companion r) (h_followed r) (h_dist r) (h_shrink r) (h_turnOn r) (h_shutOff r) (h_standby r) (h_minT r) (h_maxT r) (h_depresses r) (h_airflow r) (h_extIn r) (h_extOut r) (h_lowest r) (h_power r) (h_hyst r) (h_maxSet r) (h_doDefrost r) (h_rdPwr r) (h_rdLift r) (h_rdBelow r) (h_defrost r) (h_mlOut r) (h_mlAir r) v (h_shxHot r) (h_shxPump r) (h_stbyPwr r) (h_mpFlow r) (h_config r) (h_multipass r) (h_inScale r) (h_copScale r) (h_eval r).
  Definition set_h_shxHot (v : T) (r : (hsrc T)) : (hsrc T) := mkhsrc (h_type r) (h_on r) (h_locked r) (h_runtime r) (h_eIn r) (h_eOut r) (h_vip r) (h_backup r) (h_companion r) (h_followed r) (h_dist r) (h_shrink r) (h_turnOn r) (h_shutOff r) (h_standby r) (h_minT r) (h_maxT r) (h_depresses r) (h_airflow r) (h_extIn r) (h_extOut r) (h_lowest r) (h_power r) (h_hyst r) (h_maxSet r) (h_doDefrost r) (h_rdPwr r) (h_rdLift r) (h_rdBelow r) (h_defrost r) (h_mlOut r) (h_mlAir r) (h_shxCold r) v (h_shxPump r) (h_stbyPwr r) (h_mpFlow r) (h_config r) (h_multipass r) (h_inScale r) (h_copScale r) (h_eval r).
  Definition set_h_shxPump (v : T) (r : (hsrc T)) : (hsrc T) := mkhsrc (h_type r) (h_on r) (h_locked r) (h_runtime r) (h_eIn r) (h_eOut r) (h_vip r) (h_backup r) (h_companion r) (h_followed r) (h_dist r) (h_shrink r) (h_turnOn r) (h_shutOff r) (h_standby r) (h_minT r) (h_maxT r) (h_depresses r) (h_airflow r) (h_extIn r) (h_extOut r) (h_lowest r) (h_power r) (h_hyst r) (h_maxSet r) (h_doDefrost r) (h_rdPwr r) (h_rdLift r) (h_rdBelow r) (h_defrost r) (h_mlOut r) (h_mlAir r) (h_shxCold r) (h_shxHot r) v (h_stbyPwr r) (h_mpFlow r) (h_config r) (h_multipass r) (h_inScale r) (h_copScale r) (h_eval r).
  Definition set_h_stbyPwr (v : T) (r : (hsrc T)) : (hsrc T) := mkhsrc (h_type r) (h_on r) (h_locked r) (h_runtime r) (h_eIn r) (h_eOut r) (h_vip r) (h_backup r) (h_companion r) (h_followed r) (h_dist r) (h_shrink r) (h_turnOn r) (h_shutOff r) (h_standby r) (h_minT r) (h_maxT r) (h_depresses r) (h_airflow r) (h_extIn r) (h_extOut r) (h_lowest r) (h_power r) (h_hyst r) (h_maxSet r) (h_doDefrost r) (h_rdPwr r) (h_rdLift r) (h_rdBelow r) (h_defrost r) (h_mlOut r) (h_mlAir r) (h_shxCold r) (h_shxHot r) (h_shxPump r) v (h_mpFlow r) (h_config r) (h_multipass r) (h_inScale r) (h_copScale r) (h_eval r).
  Definition set_h_mpFlow (v : T) (r : (hsrc T)) : (hsrc T) := mkhsrc (h_type r) (h_on r) (h_locked r) (h_runtime r) (h_eIn r) (h_eOut r) (h_vip r) (h_backup r) (h_companion r) (h_followed r) (h_dist r) (h_shrink r) (h_turnOn r) (h_shutOff r) (h_standby r) (h_minT r) (h_maxT r) (h_depresses r) (h_airflow r) (h_extIn r) (h_extOut r) (h_lowest r) (h_power r) (h_hyst r) (h_maxSet r) (h_doDefrost r) (h_rdPwr r) (h_rdLift r) (h_rdBelow r) (h_defrost r) (h_mlOut r) (h_mlAir r) (h_shxCold r) (h_shxHot r) (h_shxPump r) (h_stbyPwr r) v (h_config r) (h_multipass r) (h_inScale r) (h_copScale r) (h_eval r).
  Definition set_h_config (v : coil) (r : (hsrc T)) : (hsrc T) := mkhsrc (h_type r) (h_on r) (h_locked r) (h_runtime r) (h_eIn r) (h_eOut r) (h_vip r) (h_backup r) (h_companion r) (h_followed r) (h_dist r) (h_shrink r) (h_turnOn r) (h_shutOff r) (h_standby r) (h_minT r) (h_maxT r) (h_depresses r) (h_airflow r) (h_extIn r) (h_extOut r) (h_lowest r) (h_power r) (h_hyst r) (h_maxSet r) (h_doDefrost r) (h_rdPwr r) (h_rdLift r) (h_rdBelow r) (h_defrost r) (h_mlOut r) (h_mlAir r) (h_shxCold r) (h_shxHot r) (h_shxPump r) (h_stbyPwr r) (h_mpFlow r) v (h_multipass r) (h_inScale r) (h_copScale r) (h_eval r).
  Definition set_h_multipass (v : bool) (r : (hsrc T)) : (hsrc T) := mkhsrc (h_type r) (h_on r) (h_locked r) (h_runtime r) (h_eIn r) (h_eOut r) (h_vip r) (h_backup r) (h_companion r) (h_followed r) (h_dist r) (h_shrink r) (h_turnOn r) (h_shutOff r) (h_standby r) (h_minT r) (h_maxT r) (h_depresses r) (h_airflow r) (h_extIn r) (h_extOut r) (h_lowest r) (h_power r) (h_hyst r) (h_maxSet r) (h_doDefrost r) (h_rdPwr r) (h_rdLift r) (h_rdBelow r) (h_defrost r) (h_mlOut r) (h_mlAir r) (h_shxCold r) (h_shxHot r) (h_shxPump r) (h_stbyPwr r) (h_mpFlow r) (h_config r) v (h_inScale r) (h_copScale r) (h_eval r).
  Definition set_h_inScale (v : T) (r : (hsrc T)) : (hsrc T) := mkhsrc (h_type r) (h_on r) (h_locked r) (h_runtime r) (h_eIn r) (h_eOut r) (h_vip r) (h_backup r) (h_companion r) (h_followed r) (h_dist r) (h_shrink r) (h_turnOn r) (h_shutOff r) (h_standby r) (h_minT r) (h_maxT r) (h_depresses r) (h_airflow r) (h_extIn r) (h_extOut r) (h_lowest r) (h_power r) (h_hyst r) (h_maxSet r) (h_doDefrost r) (h_rdPwr r) (h_rdLift r) (h_rdBelow r) (h_defrost r) (h_mlOut r) (h_mlAir r) (h_shxCold r) (h_shxHot r) (h_shxPump r) (h_stbyPwr r) (h_mpFlow r) (h_config r) (h_multipass r) v (h_copScale r) (h_eval r).
  Definition set_h_copScale (v : T) (r : (hsrc T)) : (hsrc T) := mkhsrc (h_type r) (h_on r) (h_locked r) (h_runtime r) (h_eIn r) (h_eOut r) (h_vip r) (h_backup r) (h_companion r) (h_followed r) (h_dist r) (h_shrink r) (h_turnOn r) (h_shutOff r) (h_standby r) (h_minT r) (h_maxT r) (h_depresses r) (h_airflow r) (h_extIn r) (h_extOut r) (h_lowest r) (h_power r) (h_hyst r) (h_maxSet r) (h_doDefrost r) (h_rdPwr r) (h_rdLift r) (h_rdBelow r) (h_defrost r) (h_mlOut r) (h_mlAir r) (h_shxCold r) (h_shxHot r) (h_shxPump r) (h_stbyPwr r) (h_mpFlow r) (h_config r) (h_multipass r) (h_inScale r) v (h_eval r).
  Definition set_h_eval (v : T -> T -> T -> perf T) (r : (hsrc T)) : (hsrc T) := mkhsrc (h_type r) (h_on r) (h_locked r) (h_runtime r) (h_eIn r) (h_eOut r) (h_vip r) (h_backup r) (h_companion r) (h_followed r) (h_dist r) (h_shrink r) (h_turnOn r) (h_shutOff r) (h_standby r) (h_minT r) (h_maxT r) (h_depresses r) (h_airflow r) (h_extIn r) (h_extOut r) (h_lowest r) (h_power r) (h_hyst r) (h_maxSet r) (h_doDefrost r) (h_rdPwr r) (h_rdLift r) (h_rdBelow r) (h_defrost r) (h_mlOut r) (h_mlAir r) (h_shxCold r) (h_shxHot r) (h_shxPump r) (h_stbyPwr r) (h_mpFlow r) (h_config r) (h_multipass r) (h_inScale r) (h_copScale r) v.
End Set_hsrc.

(** HPWH.hh:1474-1555, data members of class HPWH relevant to simulation *)
Record hpwh (T : Type) : Type := mkhpwh {
  w_heating : bool;   (* isHeating *)
  w_setpoint : T;   (* setpoint_C *)
  w_setFixed : bool;   (* setpointFixed *)
  w_tank : tank T;   (* tank *)
  w_hs : list (hsrc T);   (* heatSources *)
  w_condIn : T;   (* condenserInlet_C *)
  w_condOut : T;   (* condenserOutlet_C *)
  w_extVol : T;   (* externalVolumeHeated_L *)
  w_envE : T;   (* energyRemovedFromEnvironment_kWh *)
  w_stbyE : T;   (* standbyLosses_kWh *)
  w_extraE : T;   (* extraEnergyInput_kWh *)
  w_doDepress : bool;   (* doTempDepression *)
  w_locT : T;   (* locationTemperature_C *)
  w_maxDep : T;   (* maxDepression_C *)
  w_prevDR : Z;   (* prevDRstatus *)
  w_timer : T;   (* timerTOT *)
  w_timerLimit : T;   (* timerLimitTOT *)
  w_usesSoC : bool;   (* usesSoCLogic *)
  w_SoC : T;   (* currentSoCFraction *)
  w_targetSoC : T;   (* _targetSoC *)
  w_compIx : Z;   (* compressorIndex *)
  w_lowIx : Z;   (* lowestElementIndex *)
  w_highIx : Z;   (* highestElementIndex *)
  w_vipIx : Z;   (* VIPIndex *)
  w_resMap : list (Z * Z);   (* resistanceHeightMap: (index, position) *)
  w_minStep : T;   (* minutesPerStep *)
  w_secStep : T;   (* secondsPerStep *)
  w_hrStep : T;   (* hoursPerStep *)
  w_inletT : T;   (* member_inletT_C *)
  w_haveInletT : bool;   (* haveInletT *)
  w_canScale : bool;   (* canScale *)
  w_storage : bool   (* model == StorageTank *)
}.
Arguments mkhpwh {T}.
Arguments w_heating {T} _.
Arguments w_setpoint {T} _.
Arguments w_setFixed {T} _.
Arguments w_tank {T} _.
Arguments w_hs {T} _.
Arguments w_condIn {T} _.
Arguments w_condOut {T} _.
Arguments w_extVol {T} _.
Arguments w_envE {T} _.
Arguments w_stbyE {T} _.
Arguments w_extraE {T} _.
Arguments w_doDepress {T} _.
Arguments w_locT {T} _.
Arguments w_maxDep {T} _.
Arguments w_prevDR {T} _.
Arguments w_timer {T} _.
Arguments w_timerLimit {T} _.
Arguments w_usesSoC {T} _.
Arguments w_SoC {T} _.
Arguments w_targetSoC {T} _.
Arguments w_compIx {T} _.
Arguments w_lowIx {T} _.
Arguments w_highIx {T} _.
Arguments w_vipIx {T} _.
Arguments w_resMap {T} _.
Arguments w_minStep {T} _.
Arguments w_secStep {T} _.
Arguments w_hrStep {T} _.
Arguments w_inletT {T} _.
Arguments w_haveInletT {T} _.
Arguments w_canScale {T} _.
Arguments w_storage {T} _.
Section Set_hpwh.
  Context {T : Type}.
  Definition set_w_heating (v : bool) (r : (hpwh T)) : (hpwh T) := mkhpwh v (w_setpoint r) (w_setFixed r) (w_tank r) (w_hs r) (w_condIn r) (w_condOut r) (w_extVol r) (w_envE r) (w_stbyE r) (w_extraE r) (w_doDepress r) (w_locT r) (w_maxDep r) (w_prevDR r) (w_timer r) (w_timerLimit r) (w_usesSoC r) (w_SoC r) (w_targetSoC r) (w_compIx r) (w_lowIx r) (w_highIx r) (w_vipIx r) (w_resMap r) (w_minStep r) (w_secStep r) (w_hrStep r) (w_inletT r) (w_haveInletT r) (w_canScale r) (w_storage r).
  Definition set_w_setpoint (v : T) (r : (hpwh T)) : (hpwh T) := mkhpwh (w_heating r) v (w_setFixed r) (w_tank r) (w_hs r) (w_condIn r) (w_condOut r) (w_extVol r) (w_envE r) (w_stbyE r) (w_extraE r) (w_doDepress r) (w_locT r) (w_maxDep r) (w_prevDR r) (w_timer r) (w_timerLimit r) (w_usesSoC r) (w_SoC r) (w_targetSoC r) (w_compIx r) (w_lowIx r) (w_highIx r) (w_vipIx r) (w_resMap r) (w_minStep r) (w_secStep r) (w_hrStep r) (w_inletT r) (w_haveInletT r) (w_canScale r) (w_storage r).
  Definition set_w_setFixed (v : bool) (r : (hpwh T)) : (hpwh T) := mkhpwh (w_heating r) (w_setpoint r) v (w_tank r) (w_hs r) (w_condIn r) (w_condOut r) (w_extVol r) (w_envE r) (w_stbyE r) (w_extraE r) (w_doDepress r) (w_locT r) (w_maxDep r) (w_prevDR r) (w_timer r) (w_timerLimit r) (w_usesSoC r) (w_SoC r) (w_targetSoC r) (w_compIx r) (w_lowIx r) (w_highIx r) (w_vipIx r) (w_resMap r) (w_minStep r) (w_secStep r) (w_hrStep r) (w_inletT r) (w_haveInletT r) (w_canScale r) (w_storage r).
  Definition set_w_tank (v : tank T) (r : (hpwh T)) : (hpwh T) := mkhpwh (w_heating r) (w_setpoint r) (w_setFixed r) v (w_hs r) (w_condIn r) (w_condOut r) (w_extVol r) (w_envE r) (w_stbyE r) (w_extraE r) (w_doDepress r) (w_locT r) (w_maxDep r) (w_prevDR r) (w_timer r) (w_timerLimit r) (w_usesSoC r) (w_SoC r) (w_targetSoC r) (w_compIx r) (w_lowIx r) (w_highIx r) (w_vipIx r) (w_resMap r) (w_minStep r) (w_secStep r) (w_hrStep r) (w_inletT r) (w_haveInletT r) (w_canScale r) (w_storage r).
  Definition set_w_hs (v : list (hsrc T)) (r : (hpwh T)) : (hpwh T) := mkhpwh (w_heating r) (w_setpoint r) (w_setFixed r) (w_tank r) v (w_condIn r) (w_condOut r) (w_extVol r) (w_envE r) (w_stbyE r) (w_extraE r) (w_doDepress r) (w_locT r) (w_maxDep r) (w_prevDR r) (w_timer r) (w_timerLimit r) (w_usesSoC r) (w_SoC r) (w_targetSoC r) (w_compIx r) (w_lowIx r) (w_highIx r) (w_vipIx r) (w_resMap r) (w_minStep r) (w_secStep r) (w_hrStep r) (w_inletT r) (w_haveInletT r) (w_canScale r) (w_storage r).
  Definition set_w_condIn (v : T) (r : (hpwh T)) : (hpwh T) := mkhpwh (w_heating r) (w_setpoint r) (w_setFixed r) (w_tank r) (w_hs r) v (w_condOut r) (w_extVol r) (w_envE r) (w_stbyE r) (w_extraE r) (w_doDepress r) (w_locT r) (w_maxDep r) (w_prevDR r) (w_timer r) (w_timerLimit r) (w_usesSoC r) (w_SoC r) (w_targetSoC r) (w_compIx r) (w_lowIx r) (w_highIx r) (w_vipIx r) (w_resMap r) (w_minStep r) (w_secStep r) (w_hrStep r) (w_inletT r) (w_haveInletT r) (w_canScale r) (w_storage r).
  Definition set_w_condOut (v : T) (r : (hpwh T)) : (hpwh T) := mkhpwh (w_heating r) (w_setpoint r) (w_setFixed r) (w_tank r) (w_hs r) (w_condIn r) v (w_extVol r) (w_envE r) (w_stbyE r) (w_extraE r) (w_doDepress r) (w_locT r) (w_maxDep r) (w_prevDR r) (w_timer r) (w_timerLimit r) (w_usesSoC r) (w_SoC r) (w_targetSoC r) (w_compIx r) (w_lowIx r) (w_highIx r) (w_vipIx r) (w_resMap r) (w_minStep r) (w_secStep r) (w_hrStep r) (w_inletT r) (w_haveInletT r) (w_canScale r) (w_storage r).
  Definition set_w_extVol (v : T) (r : (hpwh T)) : (hpwh T) := mkhpwh (w_heating r) (w_setpoint r) (w_setFixed r) (w_tank r) (w_hs r) (w_condIn r) (w_condOut r) v (w_envE r) (w_stbyE r) (w_extraE r) (w_doDepress r) (w_locT r) (w_maxDep r) (w_prevDR r) (w_timer r) (w_timerLimit r) (w_usesSoC r) (w_SoC r) (w_targetSoC r) (w_compIx r) (w_lowIx r) (w_highIx r) (w_vipIx r) (w_resMap r) (w_minStep r) (w_secStep r) (w_hrStep r) (w_inletT r) (w_haveInletT r) (w_canScale r) (w_storage r).
  Definition set_w_envE (v : T) (r : (hpwh T)) : (hpwh T) := mkhpwh (w_heating r) (w_setpoint r) (w_setFixed r) (w_tank r) (w_hs r) (w_condIn r) (w_condOut r) (w_extVol r) v (w_stbyE r) (w_extraE r) (w_doDepress r) (w_locT r) (w_maxDep r) (w_prevDR r) (w_timer r) (w_timerLimit r) (w_usesSoC r) (w_SoC r) (w_targetSoC r) (w_compIx r) (w_lowIx r) (w_highIx r) (w_vipIx r) (w_resMap r) (w_minStep r) (w_secStep r) (w_hrStep r) (w_inletT r) (w_haveInletT r) (w_canScale r) (w_storage r).
  Definition set_w_stbyE (v : T) (r : (hpwh T)) : (hpwh T) := mkhpwh (w_heating r) (w_setpoint r) (w_setFixed r) (w_tank r) (w_hs r) (w_condIn r) (w_condOut r) (w_extVol r) (w_envE r) v (w_extraE r) (w_doDepress r) (w_locT r) (w_maxDep r) (w_prevDR r) (w_timer r) (w_timerLimit r) (w_usesSoC r) (w_SoC r) (w_targetSoC r) (w_compIx r) (w_lowIx r) (w_highIx r) (w_vipIx r) (w_resMap r) (w_minStep r) (w_secStep r) (w_hrStep r) (w_inletT r) (w_haveInletT r) (w_canScale r) (w_storage r).
  Definition set_w_extraE (v : T) (r : (hpwh T)) : (hpwh T) := mkhpwh (w_heating r) (w_setpoint r) (w_setFixed r) (w_tank r) (w_hs r) (w_condIn r) (w_condOut r) (w_extVol r) (w_envE r) (w_stbyE r) v (w_doDepress r) (w_locT r) (w_maxDep r) (w_prevDR r) (w_timer r) (w_timerLimit r) (w_usesSoC r) (w_SoC r) (w_targetSoC r) (w_compIx r) (w_lowIx r) (w_highIx r) (w_vipIx r) (w_resMap r) (w_minStep r) (w_secStep r) (w_hrStep r) (w_inletT r) (w_haveInletT r) (w_canScale r) (w_storage r).
  Definition set_w_doDepress (v : bool) (r : (hpwh T)) : (hpwh T) := mkhpwh (w_heating r) (w_setpoint r) (w_setFixed r) (w_tank r) (w_hs r) (w_condIn r) (w_condOut r) (w_extVol r) (w_envE r) (w_stbyE r) (w_extraE r) v (w_locT r) (w_maxDep r) (w_prevDR r) (w_timer r) (w_timerLimit r) (w_usesSoC r) (w_SoC r) (w_targetSoC r) (w_compIx r) (w_lowIx r) (w_highIx r) (w_vipIx r) (w_resMap r) (w_minStep r) (w_secStep r) (w_hrStep r) (w_inletT r) (w_haveInletT r) (w_canScale r) (w_storage r).
  Definition set_w_locT (v : T) (r : (hpwh T)) : (hpwh T) := mkhpwh (w_heating r) (w_setpoint r) (w_setFixed r) (w_tank r) (w_hs r) (w_condIn r) (w_condOut r) (w_extVol r) (w_envE r) (w_stbyE r) (w_extraE r) (w_doDepress r) v (w_maxDep r) (w_prevDR r) (w_timer r) (w_timerLimit r) (w_usesSoC r) (w_SoC r) (w_targetSoC r) (w_compIx r) (w_lowIx r) (w_highIx r) (w_vipIx r) (w_resMap r) (w_minStep r) (w_secStep r) (w_hrStep r) (w_inletT r) (w_haveInletT r) (w_canScale r) (w_storage r).
  Definition set_w_maxDep (v : T) (r : (hpwh T)) : (hpwh T) := mkhpwh (w_heating r) (w_setpoint r) (w_setFixed r) (w_tank r) (w_hs r) (w_condIn r) (w_condOut r) (w_extVol r) (w_envE r) (w_stbyE r) (w_extraE r) (w_doDepress r) (w_locT r) v (w_prevDR r) (w_timer r) (w_timerLimit r) (w_usesSoC r) (w_SoC r) (w_targetSoC r) (w_compIx r) (w_lowIx r) (w_highIx r) (w_vipIx r) (w_resMap r) (w_minStep r) (w_secStep r) (w_hrStep r) (w_inletT r) (w_haveInletT r) (w_canScale r) (w_storage r).
  Definition set_w_prevDR (v : Z) (r : (hpwh T)) : (hpwh T) := mkhpwh (w_heating r) (w_setpoint r) (w_setFixed r) (w_tank r) (w_hs r) (w_condIn r) (w_condOut r) (w_extVol r) (w_envE r) (w_stbyE r) (w_extraE r) (w_doDepress r) (w_locT r) (w_maxDep r) v (w_timer r) (w_timerLimit r) (w_usesSoC r) (w_SoC r) (w_targetSoC r) (w_compIx r) (w_lowIx r) (w_highIx r) (w_vipIx r) (w_resMap r) (w_minStep r) (w_secStep r) (w_hrStep r) (w_inletT r) (w_haveInletT r) (w_canScale r) (w_storage r).
  Definition set_w_timer (v : T) (r : (hpwh T)) : (hpwh T) := mkhpwh (w_heating r) (w_setpoint r) (w_setFixed r) (w_tank r) (w_hs r) (w_condIn r) (w_condOut r) (w_extVol r) (w_envE r) (w_stbyE r) (w_extraE r) (w_doDepress r) (w_locT r) (w_maxDep r) (w_prevDR r) v (w_timerLimit r) (w_usesSoC r) (w_SoC r) (w_targetSoC r) (w_compIx r) (w_lowIx r) (w_highIx r) (w_vipIx r) (w_resMap r) (w_minStep r) (w_secStep r) (w_hrStep r) (w_inletT r) (w_haveInletT r) (w_canScale r) (w_storage r).
  Definition set_w_timerLimit (v : T) (r : (hpwh T)) : (hpwh T) := mkhpwh (w_heating r) (w_setpoint r) (w_setFixed r) (w_tank r) (w_hs r) (w_condIn r) (w_condOut r) (w_extVol r) (w_envE r) (w_stbyE r) (w_extraE r) (w_doDepress r) (w_locT r) (w_maxDep r) (w_prevDR r) (w_timer r) v (w_usesSoC r) (w_SoC r) (w_targetSoC r) (w_compIx r) (w_lowIx r) (w_highIx r) (w_vipIx r) (w_resMap r) (w_minStep r) (w_secStep r) (w_hrStep r) (w_inletT r) (w_haveInletT r) (w_canScale r) (w_storage r).
  Definition set_w_usesSoC (v : bool) (r : (hpwh T)) : (hpwh T) := mkhpwh (w_heating r) (w_setpoint r) (w_setFixed r) (w_tank r) (w_hs r) (w_condIn r) (w_condOut r) (w_extVol r) (w_envE r) (w_stbyE r) (w_extraE r) (w_doDepress r) (w_locT r) (w_maxDep r) (w_prevDR r) (w_timer r) (w_timerLimit r) v (w_SoC r) (w_targetSoC r) (w_compIx r) (w_lowIx r) (w_highIx r) (w_vipIx r) (w_resMap r) (w_minStep r) (w_secStep r) (w_hrStep r) (w_inletT r) (w_haveInletT r) (w_canScale r) (w_storage r).
  Definition set_w_SoC (v : T) (r : (hpwh T)) : (hpwh T) := mkhpwh (w_heating r) (w_setpoint r) (w_setFixed r) (w_tank r) (w_hs r) (w_condIn r) (w_condOut r) (w_extVol r) (w_envE r) (w_stbyE r) (w_extraE r) (w_doDepress r) (w_locT r) (w_maxDep r) (w_prevDR r) (w_timer r) (w_timerLimit r) (w_usesSoC r) v (w_targetSoC r) (w_compIx r) (w_lowIx r) (w_highIx r) (w_vipIx r) (w_resMap r) (w_minStep r) (w_secStep r) (w_hrStep r) (w_inletT r) (w_haveInletT r) (w_canScale r) (w_storage r).
  Definition set_w_targetSoC (v : T) (r : (hpwh T)) : (hpwh T) := mkhpwh (w_heating r) (w_setpoint r) (w_setFixed r) (w_tank r) (w_hs r) (w_condIn r) (w_condOut r) (w_extVol r) (w_envE r) (w_stbyE r) (w_extraE r) (w_doDepress r) (w_locT r) (w_maxDep r) (w_prevDR r) (w_timer r) (w_timerLimit r) (w_usesSoC r) (w_SoC r) v (w_compIx r) (w_lowIx r) (w_highIx r) (w_vipIx r) (w_resMap r) (w_minStep r) (w_secStep r) (w_hrStep r) (w_inletT r) (w_haveInletT r) (w_canScale r) (w_storage r).
  Definition set_w_compIx (v : Z) (r : (hpwh T)) : (hpwh T) := mkhpwh (w_heating r) (w_setpoint r) (w_setFixed r) (w_tank r) (w_hs r) (w_condIn r) (w_condOut r) (w_extVol r) (w_envE r) (w_stbyE r) (w_extraE r) (w_doDepress r) (w_locT r) (w_maxDep r) (w_prevDR r) (w_timer r) (w_timerLimit r) (w_usesSoC r) (w_SoC r) (w_targetSoC r) v (w_lowIx r) (w_highIx r) (w_vipIx r) (w_resMap r) (w_minStep r) (w_secStep r) (w_hrStep r) (w_inletT r) (w_haveInletT r) (w_canScale r) (w_storage r).
  Definition set_w_lowIx (v : Z) (r : (hpwh T)) : (hpwh T) := mkhpwh (w_heating r) (w_setpoint r) (w_setFixed r) (w_tank r) (w_hs r) (w_condIn r) (w_condOut r) (w_extVol r) (w_envE r) (w_stbyE r) (w_extraE r) (w_doDepress r) (w_locT r) (w_maxDep r) (w_prevDR r) (w_timer r) (w_timerLimit r) (w_usesSoC r) (w_SoC r) (w_targetSoC r) (w_compIx r) v (w_highIx r) (w_vipIx r) (w_resMap r) (w_minStep r) (w_secStep r) (w_hrStep r) (w_inletT r) (w_haveInletT r) (w_canScale r) (w_storage r).
  Definition set_w_highIx (v : Z) (r : (hpwh T)) : (hpwh T) := mkhpwh (w_heating r) (w_setpoint r) (w_setFixed r) (w_tank r) (w_hs r) (w_condIn r) (w_condOut r) (w_extVol r) (w_envE r) (w_stbyE r) (w_extraE r) (w_doDepress r) (w_locT r) (w_maxDep r) (w_prevDR r) (w_timer r) (w_timerLimit r) (w_usesSoC r) (w_SoC r) (w_targetSoC r) (w_compIx r) (w_lowIx r) v (w_vipIx r) (w_resMap r) (w_minStep r) (w_secStep r) (w_hrStep r) (w_inletT r) (w_haveInletT r) (w_canScale r) (w_storage r).
  Definition set_w_vipIx (v : Z) (r : (hpwh T)) : (hpwh T) := mkhpwh (w_heating r) (w_setpoint r) (w_setFixed r) (w_tank r) (w_hs r) (w_condIn r) (w_condOut r) (w_extVol r) (w_envE r) (w_stbyE r) (w_extraE r) (w_doDepress r) (w_locT r) (w_maxDep r) (w_prevDR r) (w_timer r) (w_timerLimit r) (w_usesSoC r) (w_SoC r) (w_targetSoC r) (w_compIx r) (w_lowIx r) (w_highIx r) v (w_resMap r) (w_minStep r) (w_secStep r) (w_hrStep r) (w_inletT r) (w_haveInletT r) (w_canScale r) (w_storage r).
  Definition set_w_resMap (v : list (Z * Z)) (r : (hpwh T)) : (hpwh T) := mkhpwh (w_heating r) (w_setpoint r) (w_setFixed r) (w_tank r) (w_hs r) (w_condIn r) (w_condOut r) (w_extVol r) (w_envE r) (w_stbyE r) (w_extraE r) (w_doDepress r) (w_locT r) (w_maxDep r) (w_prevDR r) (w_timer r) (w_timerLimit r) (w_usesSoC r) (w_SoC r) (w_targetSoC r) (w_compIx r) (w_lowIx r) (w_highIx r) (w_vipIx r) v (w_minStep r) (w_secStep r) (w_hrStep r) (w_inletT r) (w_haveInletT r) (w_canScale r) (w_storage r).
  Definition set_w_minStep (v : T) (r : (hpwh T)) : (hpwh T) := mkhpwh (w_heating r) (w_setpoint r) (w_setFixed r) (w_tank r) (w_hs r) (w_condIn r) (w_condOut r) (w_extVol r) (w_envE r) (w_stbyE r) (w_extraE r) (w_doDepress r) (w_locT r) (w_maxDep r) (w_prevDR r) (w_timer r) (w_timerLimit r) (w_usesSoC r) (w_SoC r) (w_targetSoC r) (w_compIx r) (w_lowIx r) (w_highIx r) (w_vipIx r) (w_resMap r) v (w_secStep r) (w_hrStep r) (w_inletT r) (w_haveInletT r) (w_canScale r) (w_storage r).
  Definition set_w_secStep (v : T) (r : (hpwh T)) : (hpwh T) := mkhpwh (w_heating r) (w_setpoint r) (w_setFixed r) (w_tank r) (w_hs r) (w_condIn r) (w_condOut r) (w_extVol r) (w_envE r) (w_stbyE r) (w_extraE r) (w_doDepress r) (w_locT r) (w_maxDep r) (w_prevDR r) (w_timer r) (w_timerLimit r) (w_usesSoC r) (w_SoC r) (w_targetSoC r) (w_compIx r) (w_lowIx r) (w_highIx r) (w_vipIx r) (w_resMap r) (w_minStep r) v (w_hrStep r) (w_inletT r) (w_haveInletT r) (w_canScale r) (w_storage r).
  Definition set_w_hrStep (v : T) (r : (hpwh T)) : (hpwh T) := mkhpwh (w_heating r) (w_setpoint r) (w_setFixed r) (w_tank r) (w_hs r) (w_condIn r) (w_condOut r) (w_extVol r) (w_envE r) (w_stbyE r) (w_extraE r) (w_doDepress r) (w_locT r) (w_maxDep r) (w_prevDR r) (w_timer r) (w_timerLimit r) (w_usesSoC r) (w_SoC r) (w_targetSoC r) (w_compIx r) (w_lowIx r) (w_highIx r) (w_vipIx r) (w_resMap r) (w_minStep r) (w_secStep r) v (w_inletT r) (w_haveInletT r) (w_canScale r) (w_storage r).
  Definition set_w_inletT (v : T) (r : (hpwh T)) : (hpwh T) := mkhpwh (w_heating r) (w_setpoint r) (w_setFixed r) (w_tank r) (w_hs r) (w_condIn r) (w_condOut r) (w_extVol r) (w_envE r) (w_stbyE r) (w_extraE r) (w_doDepress r) (w_locT r) (w_maxDep r) (w_prevDR r) (w_timer r) (w_timerLimit r) (w_usesSoC r) (w_SoC r) (w_targetSoC r) (w_compIx r) (w_lowIx r) (w_highIx r) (w_vipIx r) (w_resMap r) (w_minStep r) (w_secStep r) (w_hrStep r) v (w_haveInletT r) (w_canScale r) (w_storage r).
  Definition set_w_haveInletT (v : bool) (r : (hpwh T)) : (hpwh T) := mkhpwh (w_heating r) (w_setpoint r) (w_setFixed r) (w_tank r) (w_hs r) (w_condIn r) (w_condOut r) (w_extVol r) (w_envE r) (w_stbyE r) (w_extraE r) (w_doDepress r) (w_locT r) (w_maxDep r) (w_prevDR r) (w_timer r) (w_timerLimit r) (w_usesSoC r) (w_SoC r) (w_targetSoC r) (w_compIx r) (w_lowIx r) (w_highIx r) (w_vipIx r) (w_resMap r) (w_minStep r) (w_secStep r) (w_hrStep r) (w_inletT r) v (w_canScale r) (w_storage r).
  Definition set_w_canScale (v : bool) (r : (hpwh T)) : (hpwh T) := mkhpwh (w_heating r) (w_setpoint r) (w_setFixed r) (w_tank r) (w_hs r) (w_condIn r) (w_condOut r) (w_extVol r) (w_envE r) (w_stbyE r) (w_extraE r) (w_doDepress r) (w_locT r) (w_maxDep r) (w_prevDR r) (w_timer r) (w_timerLimit r) (w_usesSoC r) (w_SoC r) (w_targetSoC r) (w_compIx r) (w_lowIx r) (w_highIx r) (w_vipIx r) (w_resMap r) (w_minStep r) (w_secStep r) (w_hrStep r) (w_inletT r) (w_haveInletT r) v (w_storage r).
  Definition set_w_storage (v : bool) (r : (hpwh T)) : (hpwh T) := mkhpwh (w_heating r) (w_setpoint r) (w_setFixed r) (w_tank r) (w_hs r) (w_condIn r) (w_condOut r) (w_extVol r) (w_envE r) (w_stbyE r) (w_extraE r) (w_doDepress r) (w_locT r) (w_maxDep r) (w_prevDR r) (w_timer r) (w_timerLimit r) (w_usesSoC r) (w_SoC r) (w_targetSoC r) (w_compIx r) (w_lowIx r) (w_highIx r) (w_vipIx r) (w_resMap r) (w_minStep r) (w_secStep r) (w_hrStep r) (w_inletT r) (w_haveInletT r) (w_canScale r) v.
End Set_hpwh.
