(** Properties of height distributions, resampling, averages, state of charge and heating logics.  Statements only; proofs in DistFacts.v. *)

From Coq Require Import ZArith String List Bool Reals Lra Lia.
From Verif Require Import Num Base Units Utils Types TankM Logic HeatSrc Setters Spec SpecState SpecDist.
From Verif Require Import RList FrameProofs SimFrame MixProofs TankProofs DrawProofs DistProofs ResampleProofs AvgProofs TankFacts Example.
From Verif Require Import DistFacts.
Import ListNotations.
Local Open Scope R_scope.

(** A fraction in [0,1] selects an existing node: the one whose slice of the height contains the fraction, the top node for 1. *)
Theorem C39_fraction_selects_node : forall n f, (0 < n)%nat -> 0 <= f <= 1 ->
  exists z, nodeFromFraction n f = Ok z /\ (0 <= z < Z.of_nat n)%Z /\
    IZR z / INR n <= f /\ (f < (IZR z + 1) / INR n \/ (f = 1 /\ z = (Z.of_nat n - 1)%Z)).
Proof. exact C39_fraction_selects_node_fact. Qed.
Print Assumptions C39_fraction_selects_node.

(** A larger fraction never selects a lower node; 0 selects the bottom and 1 the top. *)
Theorem C39_monotone : forall n f g a b, (0 < n)%nat -> f <= g ->
  nodeFromFraction n f = Ok a -> nodeFromFraction n g = Ok b -> (a <= b)%Z.
Proof. exact C39_monotone_fact. Qed.
Print Assumptions C39_monotone.

(** The end points. *)
Theorem C39_ends : forall n, (0 < n)%nat ->
  nodeFromFraction n (0 : R) = Ok 0%Z /\ nodeFromFraction n (1 : R) = Ok (Z.of_nat n - 1)%Z.
Proof. exact C39_ends_fact. Qed.
Print Assumptions C39_ends.

(** Setting a tank inlet: rejected without effect outside [0,1]; otherwise exactly that inlet moves, to an existing node. *)
Theorem C39_set_inlet : forall (t : tank R) f, wf_tank t ->
  (~ 0 <= f <= 1 -> (exists e, setInletByFraction f t = (Err e, t)) /\ (exists e, setInlet2ByFraction f t = (Err e, t))) /\
  (0 <= f <= 1 -> exists z, nodeFromFraction (length (t_Ts t)) f = Ok z /\ (0 <= z < Z.of_nat (length (t_Ts t)))%Z /\
     setInletByFraction f t = (Ok tt, set_t_inlet z t) /\ setInlet2ByFraction f t = (Ok tt, set_t_inlet2 z t)).
Proof. exact C39_set_inlet_fact. Qed.
Print Assumptions C39_set_inlet.

(** Setting an external port: either an error without effect, or exactly the port of one compressor moves, to an existing node. *)
Theorem C39_set_external_port : forall (w : hpwh R) f, wf_tank (w_tank w) -> compOK w ->
  (exists e, setExternalInletHeightByFraction f w = (Err e, w) /\ exists e', setExternalOutletHeightByFraction f w = (Err e', w)) \/
  (exists k h z, 0 <= f <= 1 /\ nth_error (w_hs w) k = Some h /\ h_type h = TCompressor /\
     nodeFromFraction (length (t_Ts (w_tank w))) f = Ok z /\ (0 <= z < Z.of_nat (length (t_Ts (w_tank w))))%Z /\
     setExternalInletHeightByFraction f w = (Ok tt, set_w_hs (upd (w_hs w) k (set_h_extIn z h)) w) /\
     setExternalOutletHeightByFraction f w = (Ok tt, set_w_hs (upd (w_hs w) k (set_h_extOut z h)) w)).
Proof. exact C39_set_external_port_fact. Qed.
Print Assumptions C39_set_external_port.

Example C39_example : nodeFromFraction 4 (3 / 5 : R) = Ok 2%Z /\ (exists e, nodeFromFraction 4 (6 / 5 : R) = Err e).
Proof. exact C39_example_fact. Qed.

(** Setting the tank from any non-empty list of layer temperatures (Celsius or Fahrenheit): every node gets the mean of the layer profile over its slice of the height; the mean temperature is that of the layers and no node leaves their range. *)
Theorem C40_layer_temperatures : forall (w : hpwh R) Ts u, wf_tank (w_tank w) -> Ts <> [] -> u = U_C \/ u = U_F ->
  let Cs := match u with U_C => Ts | _ => map (fun x => (x - 32) / (9 / 5)) Ts end in
  let n := length (t_Ts (w_tank w)) in
  exists Ns, setTankLayerTemperatures Ts u w = (Ok tt, set_w_tank (set_t_Ts Ns (w_tank w)) w) /\
    length Ns = n /\
    (forall k, (k < n)%nat -> node Ns k = meanOver Cs (INR k / INR n) (INR (S k) / INR n)) /\
    Rsum Ns / INR n = Rsum Cs / INR (length Cs) /\
    (forall lo hi, within lo hi Cs -> within lo hi Ns) /\
    (stratified Cs -> stratified Ns) /\ (length Cs = n -> Ns = Cs).
Proof. exact C40_layer_temperatures_fact. Qed.
Print Assumptions C40_layer_temperatures.

(** An empty list and other units are rejected without effect. *)
Theorem C40_rejected : forall (w : hpwh R) Ts u, Ts = [] \/ (u <> U_C /\ u <> U_F) ->
  exists e, setTankLayerTemperatures Ts u w = (Err e, w).
Proof. exact C40_rejected_fact. Qed.
Print Assumptions C40_rejected.

Example C40_example : exists w : hpwh R, wf_tank (w_tank w) /\ length (t_Ts (w_tank w)) = 4%nat /\
  [20; 30; 40] <> ([] : list R) /\ meanOver [20; 30; 40] (INR 1 / INR 4) (INR 2 / INR 4) = 80 / 3.
Proof. exact C40_example_fact. Qed.

(** Resampling an extensive quantity onto any positive number of bins keeps its total; each bin gets exactly the amount that lies in its slice. *)
Theorem C41_total_preserved : forall values s : list R, s <> [] -> (0 < length values)%nat ->
  exists vs, resampleExtensive values s = Ok vs /\ length vs = length values /\ Rsum vs = Rsum s /\
    (forall i, (i < length values)%nat -> node vs i = INR (length s) *
       profileInt (INR (length s)) 0 s (INR i / INR (length values)) (INR (S i) / INR (length values))) /\
    ((forall x, In x s -> 0 <= x) -> forall x, In x vs -> 0 <= x).
Proof. exact C41_total_preserved_fact. Qed.
Print Assumptions C41_total_preserved.

Example C41_example : [100; 200; 300] <> ([] : list R) /\ (0 < length [0; 0])%nat.
Proof. exact C41_example_fact. Qed.

(** The i-th of n simulated thermocouples reads the mean of the node profile over the i-th of n equal slices and lies within the range of the nodes. *)
Theorem C42_thermocouple : forall (t : tank R) i n, wf_tank t -> (1 <= i <= n)%Z ->
  exists T, nthThermocouple i n t = Ok T /\
    T = meanOver (t_Ts t) (IZR (i - 1) / IZR n) (IZR i / IZR n) /\
    (forall lo hi, within lo hi (t_Ts t) -> lo <= T <= hi).
Proof. exact C42_thermocouple_fact. Qed.
Print Assumptions C42_thermocouple.

(** The n thermocouples together average to the mean tank temperature. *)
Theorem C42_average : forall (t : tank R) n, wf_tank t -> (0 < n)%nat ->
  exists rs, length rs = n /\
    (forall k, (k < n)%nat -> nthThermocouple (Z.of_nat (S k)) (Z.of_nat n) t = Ok (node rs k)) /\
    Rsum rs / INR n = Rsum (t_Ts t) / INR (length (t_Ts t)).
Proof. exact C42_average_fact. Qed.
Print Assumptions C42_average.

(** Thermocouple numbers outside 1..n are rejected. *)
Theorem C42_rejected : forall (t : tank R) i n, ~ (1 <= i <= n)%Z -> exists e, nthThermocouple i n t = Err e.
Proof. exact C42_rejected_fact. Qed.
Print Assumptions C42_rejected.

Example C42_example : wf_tank (exTank [20; 30; 40; 50]) /\ (1 <= 2 <= 3)%Z.
Proof. exact C42_example_fact. Qed.

(** Normalising a distribution without negative entries terminates.  The result keeps every entry in proportion or sets it to zero; each entry is zero or at least the cut-off 1e-4; entries that carried at least the cut-off share are not lowered; the result sums to one, or is all zero. *)
Theorem C43_normalize : forall d : list R, (forall x, In x d -> 0 <= x) ->
  forall fuel, (length d < fuel)%nat -> exists d', normalize fuel d = Ok d' /\ length d' = length d /\
    (forall x, In x d' -> x = 0 \/ 1 / 10000 <= x) /\
    (Rsum d' = 1 \/ (forall x, In x d' -> x = 0)) /\
    (0 < Rsum d -> (exists c, 0 < c /\ forall j, (j < length d)%nat -> node d' j = 0 \/ node d' j = c * node d j) /\
       (forall j, (j < length d)%nat -> 1 / 10000 * Rsum d <= node d j -> node d j / Rsum d <= node d' j)) /\
    (0 < Rsum d -> INR (length d) <= 10000 -> Rsum d' = 1) /\
    (forall i j, (i < length d)%nat -> (j < length d)%nat -> node d i <= node d j -> node d' i <= node d' j) /\
    (Rsum d <= 0 -> forall x, In x d' -> x = 0).
Proof. exact C43_normalize_fact. Qed.
Print Assumptions C43_normalize.

(** The number of entries matters: 10001 equal entries are all below the cut-off, so everything is set to zero. *)
Theorem C43_many_entries_refuted : exists d : list R, (forall x, In x d -> 0 < x) /\ 0 < Rsum d /\
  forall fuel, (length d < fuel)%nat -> exists d', normalize fuel d = Ok d' /\ (forall x, In x d' -> x = 0).
Proof. exact C43_many_entries_refuted_fact. Qed.
Print Assumptions C43_many_entries_refuted.

Example C43_example : (forall x, In x [1; 2; 0] -> 0 <= x) /\ 0 < Rsum [1; 2; 0].
Proof. exact C43_example_fact. Qed.

(** The thermal distribution succeeds for non-zero shrinkage and up to 10000 nodes, has one non-negative entry per node and sums to one.  If some candidate node is below the setpoint, nodes below the lowest heated node and nodes at or above the setpoint get nothing; if no candidate node is, the heat is spread over all nodes of the tank, including those below the condenser. *)
Theorem C44_thermal_distribution : forall (shrink : R) lowest Ts setpoint fuel,
  shrink <> 0 -> (0 < length Ts)%nat -> INR (length Ts) <= 10000 -> (length Ts < fuel)%nat ->
  exists d, calcThermalDist fuel shrink lowest Ts setpoint = Ok d /\ shares (length Ts) d /\
    ((exists i, (lowest <= i < length Ts)%nat /\ node Ts i < setpoint) ->
       forall j, (j < length Ts)%nat -> (j < lowest)%nat \/ setpoint <= node Ts j -> node d j = 0) /\
    ((forall i, (lowest <= i < length Ts)%nat -> setpoint <= node Ts i) ->
       forall j, (j < length Ts)%nat -> node d j = 1 / INR (length Ts)).
Proof. exact C44_thermal_distribution_fact. Qed.
Print Assumptions C44_thermal_distribution.

(** Between two heated nodes of equal temperature no difference is made, and among heated nodes the cooler one never gets less (positive shrinkage). *)
Theorem C44_cooler_nodes_first : forall (shrink : R) lowest Ts setpoint fuel d i j,
  0 < shrink -> (0 < length Ts)%nat -> INR (length Ts) <= 10000 ->
  calcThermalDist fuel shrink lowest Ts setpoint = Ok d ->
  (lowest <= i < length Ts)%nat -> (lowest <= j < length Ts)%nat -> node Ts i <= node Ts j -> node d j <= node d i.
Proof. exact C44_cooler_nodes_first_fact. Qed.
Print Assumptions C44_cooler_nodes_first.

Example C44_example : (1 : R) <> 0 /\ (0 < length [20; 30; 40])%nat /\ INR (length [20; 30; 40]) <= 10000 /\
  (exists i, (1 <= i < length [20; 30; 40])%nat /\ node [20; 30; 40] i < 35).
Proof. exact C44_example_fact. Qed.

(** The validity check of the code accepts exactly the non-empty distributions with ascending positive heights and some positive weight. *)
Theorem C45_validity : forall w : wdist R, wd_isValid w = true <->
  w <> [] /\ ascending 0 w /\ Exists (fun p => 0 < snd p) w.
Proof. exact C45_validity_fact. Qed.
Print Assumptions C45_validity.

(** The normalised weight between two fractional heights is the integral of the weight step function there, divided by its integral over the whole height. *)
Theorem C45_is_integral : forall (w : wdist R) a b, wd_isValid w = true -> 0 <= a <= b ->
  wd_normalizedWeight w a b = massOver (topHeight w) 0 w a b / massOver (topHeight w) 0 w 0 1.
Proof. exact C45_is_integral_fact. Qed.
Print Assumptions C45_is_integral.

(** It is additive over adjacent ranges, never negative for non-negative weights, zero on an empty range and one over the full height. *)
Theorem C45_additive_normalised : forall (w : wdist R) a b c, wd_isValid w = true -> Forall (fun p => 0 <= snd p) w -> 0 <= a <= b -> b <= c ->
  wd_normalizedWeight w a c = wd_normalizedWeight w a b + wd_normalizedWeight w b c /\
  0 <= wd_normalizedWeight w a b /\ wd_normalizedWeight w a a = 0 /\ wd_normalizedWeight w 0 1 = 1.
Proof. exact C45_additive_normalised_fact. Qed.
Print Assumptions C45_additive_normalised.

Example C45_example : wd_isValid [(1 / 3, 0); (2 / 3, 2); (1, 1)] = true /\ Forall (fun p => 0 <= snd p) [(1 / 3, 0); (2 / 3, 2); (1, 1)].
Proof. exact C45_example_fact. Qed.

(** The tank temperature averaged with a valid non-negative distribution is the weighted mean of the nodes, each weighted with the share of the distribution inside it; it lies in every range that contains the nodes carrying weight. *)
Theorem C46_weighted_average : forall (w : wdist R) (t : tank R), wf_tank t -> wd_isValid w = true -> Forall (fun p => 0 <= snd p) w ->
  let n := length (t_Ts t) in
  let weight k := share w (INR k / INR n) (INR (S k) / INR n) in
  exists T, averageT_distribution (mkdist DWeighted w) t = Ok T /\
    T = Rsum (map (fun k => weight k * node (t_Ts t) k) (seq 0 n)) /\ Rsum (map weight (seq 0 n)) = 1 /\
    (forall lo hi, (forall k, (k < n)%nat -> 0 < weight k -> lo <= node (t_Ts t) k <= hi) -> lo <= T <= hi).
Proof. exact C46_weighted_average_fact. Qed.
Print Assumptions C46_weighted_average.

(** The top and bottom distributions read the top and bottom node. *)
Theorem C46_top_bottom : forall (t : tank R) wd, wf_tank t ->
  averageT_distribution (mkdist DTop wd) t = Ok (node (t_Ts t) (length (t_Ts t) - 1)) /\
  averageT_distribution (mkdist DBottom wd) t = Ok (node (t_Ts t) 0).
Proof. exact C46_top_bottom_fact. Qed.
Print Assumptions C46_top_bottom.

Example C46_example : wf_tank (exTank [20; 30; 40; 50]) /\ wd_isValid [(1 / 3, 0); (2 / 3, 2); (1, 1)] = true.
Proof. exact C46_example_fact. Qed.

(** The lowest node found for a valid non-negative distribution is an existing node that receives weight, and no node below it does. *)
Theorem C47_lowest_node : forall (w : wdist R) n, wd_isValid w = true -> Forall (fun p => 0 <= snd p) w -> (0 < n)%nat ->
  let j := findLowestNode w n in
  (j < n)%nat /\ 0 < share w (INR j / INR n) (INR (S j) / INR n) /\
  (forall i, (i < j)%nat -> share w (INR i / INR n) (INR (S i) / INR n) = 0).
Proof. exact C47_lowest_node_fact. Qed.
Print Assumptions C47_lowest_node.

Example C47_example : wd_isValid [(1 / 3, 0); (1, 1)] = true /\ (0 < 4)%nat.
Proof. exact C47_example_fact. Qed.

(** State of charge for mains below minimum useful below maximum temperature: the heat above mains in the nodes that are at least useful, relative to a tank full at the maximum. *)
Theorem C48_formula : forall (t : tank R) mains tMin tMax, wf_tank t -> mains < tMin -> tMin <= tMax ->
  calcSoCFraction mains tMin tMax t =
  Rsum (map (fun x => if Rlt_dec x tMin then 0 else x - mains) (t_Ts t)) / (INR (length (t_Ts t)) * (tMax - mains)).
Proof. exact C48_formula_fact. Qed.
Print Assumptions C48_formula.

(** It is 0 when no node is useful, 1 when every node is at the maximum, between 0 and 1 if no node exceeds the maximum, and never falls when nodes get warmer. *)
Theorem C48_bounds : forall (t : tank R) mains tMin tMax, wf_tank t -> mains < tMin -> tMin <= tMax ->
  ((forall x, In x (t_Ts t) -> x < tMin) -> calcSoCFraction mains tMin tMax t = 0) /\
  ((forall x, In x (t_Ts t) -> x = tMax) -> calcSoCFraction mains tMin tMax t = 1) /\
  0 <= calcSoCFraction mains tMin tMax t /\
  ((forall x, In x (t_Ts t) -> x <= tMax) -> calcSoCFraction mains tMin tMax t <= 1) /\
  (forall Ts', length Ts' = length (t_Ts t) -> (forall k, (k < length Ts')%nat -> node (t_Ts t) k <= node Ts' k) ->
     calcSoCFraction mains tMin tMax t <= calcSoCFraction mains tMin tMax (set_t_Ts Ts' t)).
Proof. exact C48_bounds_fact. Qed.
Print Assumptions C48_bounds.

Example C48_example : wf_tank (exTank [20; 30; 45; 60]) /\ calcSoCFraction 15 43 60 (exTank [20; 30; 45; 60]) = 75 / 180.
Proof. exact C48_example_fact. Qed.

(** Switching to state-of-charge control, when it succeeds, makes every heat source turn on below target minus hysteresis and shut off above target plus hysteresis; only entering-water shut-offs survive. *)
Theorem C49_switch : forall (w w' : hpwh R) target hyst tMin cm mains u,
  switchToSoCControls target hyst tMin cm mains u w = (Ok tt, w') ->
  w_usesSoC w' = true /\ length (w_hs w') = length (w_hs w) /\ Forall (socControlled target hyst) (w_hs w').
Proof. exact C49_switch_fact. Qed.
Print Assumptions C49_switch.

(** Re-targeting keeps this structure with the new target. *)
Theorem C49_retarget : forall (w w' : hpwh R) t0 hyst target, Forall (socControlled t0 hyst) (w_hs w) ->
  setTargetSoCFraction target w = (Ok tt, w') -> 0 <= target /\ w_targetSoC w' = target /\ Forall (socControlled target hyst) (w_hs w').
Proof. exact C49_retarget_fact. Qed.
Print Assumptions C49_retarget.

(** With non-negative hysteresis no turn-on condition and no state-of-charge shut-off condition hold together, in any state of the simulator. *)
Theorem C49_dead_band : forall target hyst (h : hsrc R) (v : hpwh R) l1 l2, 0 <= hyst -> socControlled target hyst h ->
  In l1 (h_turnOn h) -> In l2 (h_shutOff h) -> isHTS l2 = false ->
  ~ (l_met v l1 = Ok true /\ l_met v l2 = Ok true).
Proof. exact C49_dead_band_fact. Qed.
Print Assumptions C49_dead_band.

(** Nothing checks the sign of the hysteresis: with a negative one both conditions hold at the target. *)
Theorem C49_negative_hysteresis_refuted : exists (w w' : hpwh R) h l1 l2,
  switchToSoCControls (1 / 2) (- (1 / 10)) 43 true 15 U_C w = (Ok tt, w') /\ In h (w_hs w') /\
  In l1 (h_turnOn h) /\ In l2 (h_shutOff h) /\ l_met (set_w_SoC (1 / 2) w') l1 = Ok true /\ l_met (set_w_SoC (1 / 2) w') l2 = Ok true.
Proof. exact C49_negative_hysteresis_refuted_fact. Qed.
Print Assumptions C49_negative_hysteresis_refuted.

Example C49_example : exists w w' : hpwh R, switchToSoCControls (7 / 10) (1 / 20) 43 true 15 U_C w = (Ok tt, w') /\ length (w_hs w') = 3%nat /\ 0 <= 1 / 20.
Proof. exact C49_example_fact. Qed.

(** A temperature logic compares the averaged tank temperature with the setpoint minus its decision value (relative) or with the decision value (absolute). *)
Theorem C50_comparison : forall (w : hpwh R) s d dp isAbs c hts b T, averageT_distribution d (w_tank w) = Ok T ->
  exists r, l_met w (TempLogic s d dp isAbs c hts b) = Ok r /\
    (r = true <-> let threshold := if isAbs then dp else w_setpoint w - dp in
                  match c with CLess => T < threshold | CGreater => T > threshold end).
Proof. exact C50_comparison_fact. Qed.
Print Assumptions C50_comparison.

(** Raising the setpoint can only turn a relative turn-on condition from false to true and a relative shut-off condition from true to false; absolute conditions do not depend on it. *)
Theorem C50_setpoint : forall (w : hpwh R) s d dp c hts b sp sp', sp <= sp' ->
  (l_met (set_w_setpoint sp w) (TempLogic s d dp false CLess hts b) = Ok true -> l_met (set_w_setpoint sp' w) (TempLogic s d dp false CLess hts b) = Ok true) /\
  (l_met (set_w_setpoint sp w) (TempLogic s d dp false CGreater hts b) = Ok false -> l_met (set_w_setpoint sp' w) (TempLogic s d dp false CGreater hts b) = Ok false) /\
  l_met (set_w_setpoint sp w) (TempLogic s d dp true c hts b) = l_met (set_w_setpoint sp' w) (TempLogic s d dp true c hts b).
Proof. exact C50_setpoint_fact. Qed.
Print Assumptions C50_setpoint.

(** A heat source that turns on and stays in standby by "below" conditions and shuts off by "above" conditions, absolute or relative, and that asks for heat at one setpoint asks for it at every higher setpoint. *)
Theorem C50_source : forall (w : hpwh R) h sp sp', sp <= sp' ->
  Forall onLike (h_turnOn h) -> Forall offLike (h_shutOff h) ->
  (forall l, h_standby h = Some l -> onLike l /\ exists v, l_tankValue w l = Ok v) ->
  shouldHeat (set_w_setpoint sp w) h = Ok true -> shouldHeat (set_w_setpoint sp' w) h = Ok true.
Proof. exact C50_source_fact. Qed.
Print Assumptions C50_source.

Example C50_example : let w := exUnit (T:=R) [20; 20; 20; 20] in
  averageT_distribution (mkdist DTop []) (w_tank w) = Ok 20 /\ w_setpoint w = 55 /\
  l_met w (TempLogic "top" (mkdist DTop []) 10 false CLess false false) = Ok true /\
  l_met w (TempLogic "top" (mkdist DTop []) 15 true CLess false false) = Ok false.
Proof. exact C50_example_fact. Qed.
