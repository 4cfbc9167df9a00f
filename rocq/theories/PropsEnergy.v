(** Properties of heating, energy accounting and whole steps.  Statements only; proofs in EnergyFacts.v. *)

From Coq Require Import ZArith String List Bool Reals Lra Lia Floats.
From Verif Require Import Num FNum Base Units Utils Types TankM Logic HeatSrc Step Spec SpecState SpecDist SpecEnergy SpecStep.
From Verif Require Import RList FrameProofs SimFrame MixProofs DrawProofs TankProofs StandbyProofs HeatProofs ControlProofs SeqProofs.
From Verif Require Import DistProofs EnergyProofs ExtProofs StepEnergy ResampleProofs ExtraProofs WholeStep AvgProofs Progress StepProgress ExtProgress Perf Fitter TankFacts RunsFacts Example.
From Verif Require Import EnergyFacts.
Import ListNotations.
Local Open Scope R_scope.

(** C15: heat() puts exactly the capacity minus the returned leftover into the water, never heats a node
    beyond the smaller of the given maximum and the setpoint, never cools a node, keeps the tank
    stratified and changes nothing but node temperatures; something is left over only if some node has
    reached the maximum. *)
Theorem C15_heat_is_conserved : forall fuel air D h cap maxSet (w : hpwh R) left w',
  wf_tank (w_tank w) -> stratified (t_Ts (w_tank w)) -> srcOK (length (t_Ts (w_tank w))) air D h ->
  h_type h = TResistance \/ h_config h <> External -> 0 <= cap ->
  heatNodes fuel h cap maxSet w = (Ok left, w') ->
  w' = set_w_tank (set_t_Ts (t_Ts (w_tank w')) (w_tank w)) w /\
  length (t_Ts (w_tank w')) = length (t_Ts (w_tank w)) /\ stratified (t_Ts (w_tank w')) /\
  0 <= left <= cap /\ tankHeat (w_tank w') = tankHeat (w_tank w) + (cap - left) /\
  (forall j, (j < length (t_Ts (w_tank w)))%nat ->
     node (t_Ts (w_tank w)) j <= node (t_Ts (w_tank w')) j <= Rmax (node (t_Ts (w_tank w)) j) (Rmin maxSet (w_setpoint w))) /\
  (0 < left -> exists j, (j < length (t_Ts (w_tank w)))%nat /\ Rmin maxSet (w_setpoint w) <= node (t_Ts (w_tank w')) j).
Proof. exact C15_heat_is_conserved_fact. Qed.
Print Assumptions C15_heat_is_conserved.

(** and it succeeds: its loops end and nothing out of range is accessed *)
Theorem C15_succeeds : forall fuel air D k have sp h cap maxSet (w : hpwh R),
  wf_tank (w_tank w) -> srcOK (length (t_Ts (w_tank w))) air D h -> srcReady k have sp air D h ->
  (length (t_Ts (w_tank w)) < fuel)%nat ->
  exists left w', heatNodes fuel h cap maxSet w = (Ok left, w').
Proof. exact C15_succeeds_fact. Qed.
Print Assumptions C15_succeeds.

Example C15_example : forall w, w = exUnit (T:=R) [20; 30; 45; 50] -> forall h, In h (w_hs w) ->
  wf_tank (w_tank w) /\ stratified (t_Ts (w_tank w)) /\ srcOK 4 20 (fun _ => True) h /\
  exists left w', heatNodes 100 h 1000 60 w = (Ok left, w').
Proof. exact C15_example_fact. Qed.

(** C16: over one call for [m] minutes, an element of rated power P kW runs for rt minutes with
    0 <= rt <= m; it reports P*rt/60 kWh more of both input and output; the water gains exactly the
    reported output; no node is heated beyond 100 C or the setpoint; other sources are untouched; the
    element stops early only if some node within its reach has got there. *)
Theorem C16_resistance_accounting : forall fuel air D i m (w w' : hpwh R) h,
  wf_tank (w_tank w) -> stratified (t_Ts (w_tank w)) -> nth_error (w_hs w) i = Some h -> h_type h = TResistance ->
  srcOK (length (t_Ts (w_tank w))) air D h -> 0 <= m ->
  addHeatRes fuel i m w = (Ok tt, w') ->
  exists h', nth_error (w_hs w') i = Some h' /\ 0 <= h_runtime h' <= m /\
    h_eIn h' - h_eIn h = h_power h * (h_runtime h' / 60) /\ h_eOut h' - h_eOut h = h_eIn h' - h_eIn h /\
    tankHeat (w_tank w') - tankHeat (w_tank w) = 3600 * (h_eOut h' - h_eOut h) /\
    (forall j, j <> i -> nth_error (w_hs w') j = nth_error (w_hs w) j) /\
    stratified (t_Ts (w_tank w')) /\
    (forall j, (j < length (t_Ts (w_tank w)))%nat ->
       node (t_Ts (w_tank w)) j <= node (t_Ts (w_tank w')) j <= Rmax (node (t_Ts (w_tank w)) j) (Rmin 100 (w_setpoint w))) /\
    (h_runtime h' < m -> exists j, (j < length (t_Ts (w_tank w)))%nat /\
       0 < share (h_dist h) (INR j / INR (length (t_Ts (w_tank w)))) (INR (S j) / INR (length (t_Ts (w_tank w)))) /\
       Rmin 100 (w_setpoint w) <= node (t_Ts (w_tank w')) j).
Proof. exact C16_resistance_accounting_fact. Qed.
Print Assumptions C16_resistance_accounting.

(** an element of positive power can always be run for a positive time *)
Theorem C16_succeeds : forall fuel i m (w : hpwh R) h,
  wf_tank (w_tank w) -> stratified (t_Ts (w_tank w)) -> nth_error (w_hs w) i = Some h -> h_type h = TResistance ->
  goodDist (h_dist h) -> 0 < h_power h -> 0 < m ->
  exists w', addHeatRes fuel i m w = (Ok tt, w').
Proof. exact C16_succeeds_fact. Qed.
Print Assumptions C16_succeeds.

(** C16, zero power: the run time is computed as 0/0, so the call never completes in exact arithmetic ... *)
Theorem C16_zero_power_undefined : forall fuel i m (w : hpwh R) h w',
  wf_tank (w_tank w) -> stratified (t_Ts (w_tank w)) -> nth_error (w_hs w) i = Some h -> h_type h = TResistance ->
  goodDist (h_dist h) -> h_power h = 0 -> 0 <= m -> addHeatRes fuel i m w <> (Ok tt, w').
Proof. exact C16_zero_power_undefined_fact. Qed.
Print Assumptions C16_zero_power_undefined.

(** ... and in floating point reports a run time and energies that are not numbers. *)
Theorem C16_zero_power_nan : exists (w w' : hpwh float) h', 
  map h_power (w_hs w) = [fofZ 0; dec 45 10; dec 45 10]%float /\
  addHeatRes 100 0 (fofZ 1) w = (Ok tt, w') /\ nth_error (w_hs w') 0 = Some h' /\
  is_nan (h_runtime h') = true /\ is_nan (h_eOut h') = true.
Proof. exact C16_zero_power_nan_fact. Qed.
Print Assumptions C16_zero_power_nan.

(** C16, negative power: the element reports a negative energy output although the water keeps its heat. *)
Theorem C16_negative_power_refuted : exists (w w' : hpwh float) h',
  nltb (Num:=FNum) (nofZ 0) (nofZ 1) = true /\
  addHeatRes 100 0 (fofZ 1) w = (Ok tt, w') /\ nth_error (w_hs w') 0 = Some h' /\
  t_Ts (w_tank w') = t_Ts (w_tank w) /\ nltb (Num:=FNum) (h_eOut h') (fofZ 0) = true.
Proof. exact C16_negative_power_refuted_fact. Qed.
Print Assumptions C16_negative_power_refuted.

Example C16_example : forall w, w = exUnit (T:=R) [20; 30; 45; 50] -> forall i, (i < 2)%nat ->
  exists h w', nth_error (w_hs w) i = Some h /\ srcOK 4 20 (fun _ => True) h /\ addHeatRes 100 i 1 w = (Ok tt, w').
Proof. exact C16_example_fact. Qed.

(** C17: over one call for [m] minutes, a wrapped or submerged condenser runs for rt minutes with
    0 <= rt <= m at the performance of the tank temperature it sees; the reported input and output are the
    input and output powers times rt; the water gains exactly the reported output; no node is heated
    beyond the compressor's maximum setpoint or the setpoint. *)
Theorem C17_integrated_accounting : forall fuel air D i m (w w' : hpwh R) h,
  wf_tank (w_tank w) -> stratified (t_Ts (w_tank w)) -> nth_error (w_hs w) i = Some h ->
  h_type h = TCompressor -> h_config h <> External ->
  srcOK (length (t_Ts (w_tank w))) air D h -> domOn D (t_Ts (w_tank w)) -> 0 <= m ->
  addHeatCond fuel i air m w = (Ok tt, w') ->
  exists cond p h', hsTankTemp w h = Ok cond /\ getPerformance w h air cond = Ok p /\
    nth_error (w_hs w') i = Some h' /\ 0 <= h_runtime h' <= m /\
    h_eIn h' - h_eIn h = p_in p / 1000 * (h_runtime h' / 60) /\ h_eOut h' - h_eOut h = p_out p / 1000 * (h_runtime h' / 60) /\
    tankHeat (w_tank w') - tankHeat (w_tank w) = 3600 * (h_eOut h' - h_eOut h) /\
    (forall j, j <> i -> nth_error (w_hs w') j = nth_error (w_hs w) j) /\
    stratified (t_Ts (w_tank w')) /\
    (forall j, (j < length (t_Ts (w_tank w)))%nat ->
       node (t_Ts (w_tank w)) j <= node (t_Ts (w_tank w')) j <= Rmax (node (t_Ts (w_tank w)) j) (Rmin (h_maxSet h) (w_setpoint w))) /\
    (h_runtime h' < m -> exists j, (j < length (t_Ts (w_tank w)))%nat /\ Rmin (h_maxSet h) (w_setpoint w) <= node (t_Ts (w_tank w')) j).
Proof. exact C17_integrated_accounting_fact. Qed.
Print Assumptions C17_integrated_accounting.

Example C17_example : forall w, w = exUnit (T:=R) [20; 30; 45; 50] ->
  exists h w', nth_error (w_hs w) 2 = Some h /\ h_type h = TCompressor /\ h_config h <> External /\ srcOK 4 20 (fun _ => True) h /\ domOn (fun _ => True) (t_Ts (w_tank w)) /\
    wf_tank (w_tank w) /\ stratified (t_Ts (w_tank w)) /\ addHeatCond 100 2 20 1 w = (Ok tt, w').
Proof. exact C17_example_fact. Qed.

(** C18: one call of an external single-pass condenser for [m] minutes: it runs for rt minutes with
    0 <= rt <= m; the water gains exactly the reported output; every node stays between any bounds that
    hold for the old profile and the delivered temperature; the volume recorded as heated is at least the
    heat given divided by what a litre takes from the coldest node to the delivered temperature. *)
Theorem C18_single_pass_accounting : forall fuel air D i m (w w' : hpwh R) h,
  wf_tank (w_tank w) -> stratified (t_Ts (w_tank w)) -> t_doMix (w_tank w) = true -> nth_error (w_hs w) i = Some h ->
  h_type h = TCompressor -> h_config h = External -> h_multipass h = false ->
  srcOK (length (t_Ts (w_tank w))) air D h -> domUp D (t_Ts (w_tank w)) \/ domTo D (Rmin (h_maxSet h) (w_setpoint w)) (t_Ts (w_tank w)) -> 0 <= m ->
  addHeatCond fuel i air m w = (Ok tt, w') ->
  exists h', nth_error (w_hs w') i = Some h' /\ 0 <= h_runtime h' <= m /\ 0 <= h_eOut h' - h_eOut h /\
    tankHeat (w_tank w') - tankHeat (w_tank w) = 3600 * (h_eOut h' - h_eOut h) /\
    (forall j, j <> i -> nth_error (w_hs w') j = nth_error (w_hs w) j) /\
    stratified (t_Ts (w_tank w')) /\ w_setpoint w' = w_setpoint w /\
    (forall lo hi, Rmin (h_maxSet h) (w_setpoint w) <= hi -> within lo hi (t_Ts (w_tank w)) ->
       within lo hi (t_Ts (w_tank w')) /\
       3600 * (h_eOut h' - h_eOut h) <= CPWATER * DENSITYWATER * (w_extVol w' - w_extVol w) * (Rmin (h_maxSet h) (w_setpoint w) - lo)).
Proof. exact C18_single_pass_accounting_fact. Qed.
Print Assumptions C18_single_pass_accounting.

(** C19: one call of an external multi-pass condenser for [m] minutes: it runs for rt minutes with
    0 <= rt <= m; the water gains exactly the reported output; no node ends colder than the coldest node
    before; the volume recorded as heated is the flow rate times the run time. *)
Theorem C19_multi_pass_accounting : forall fuel air D i m (w w' : hpwh R) h,
  wf_tank (w_tank w) -> stratified (t_Ts (w_tank w)) -> t_doMix (w_tank w) = true -> nth_error (w_hs w) i = Some h ->
  h_type h = TCompressor -> h_config h = External -> h_multipass h = true ->
  srcOK (length (t_Ts (w_tank w))) air D h -> domUp D (t_Ts (w_tank w)) -> 0 <= m ->
  addHeatCond fuel i air m w = (Ok tt, w') ->
  exists h', nth_error (w_hs w') i = Some h' /\ 0 <= h_runtime h' <= m /\ 0 <= h_eOut h' - h_eOut h /\
    tankHeat (w_tank w') - tankHeat (w_tank w) = 3600 * (h_eOut h' - h_eOut h) /\
    (forall j, j <> i -> nth_error (w_hs w') j = nth_error (w_hs w) j) /\
    stratified (t_Ts (w_tank w')) /\ w_setpoint w' = w_setpoint w /\
    (forall lo, (forall x, In x (t_Ts (w_tank w)) -> lo <= x) -> forall x, In x (t_Ts (w_tank w')) -> lo <= x) /\
    w_extVol w' - w_extVol w <= h_mpFlow h * 60 * h_runtime h' /\
    ((forall (v : hpwh R) cond p, D cond -> getPerformance v h air cond = Ok p -> 0 < p_out p) ->
       w_extVol w' - w_extVol w = h_mpFlow h * 60 * h_runtime h').
Proof. exact C19_multi_pass_accounting_fact. Qed.
Print Assumptions C19_multi_pass_accounting.

(** C18: The reported energies of such a call are those of the performance data over the run time: whenever the input
    power plus the power of the secondary heat exchanger's pump stays within a range (at the water temperatures that can occur) the
    input reported is within that range times the run time, and likewise the output. *)
Theorem C18_energy_bounds : forall fuel air D i m (w w' : hpwh R) h,
  wf_tank (w_tank w) -> stratified (t_Ts (w_tank w)) -> t_doMix (w_tank w) = true -> nth_error (w_hs w) i = Some h ->
  h_type h = TCompressor -> h_config h = External -> h_multipass h = false ->
  srcOK (length (t_Ts (w_tank w))) air D h -> domUp D (t_Ts (w_tank w)) \/ domTo D (Rmin (h_maxSet h) (w_setpoint w)) (t_Ts (w_tank w)) -> 0 <= m ->
  addHeatCond fuel i air m w = (Ok tt, w') ->
  exists h', nth_error (w_hs w') i = Some h' /\
    (forall lo hi, (forall (v : hpwh R) cond q, D cond -> getPerformance v h air cond = Ok q -> lo <= p_in q + h_shxPump h <= hi) ->
       lo / 1000 * (h_runtime h' / 60) <= h_eIn h' - h_eIn h <= hi / 1000 * (h_runtime h' / 60)) /\
    (forall lo hi, (forall (v : hpwh R) cond q, D cond -> getPerformance v h air cond = Ok q -> lo <= p_out q <= hi) ->
       lo / 1000 * (h_runtime h' / 60) <= h_eOut h' - h_eOut h <= hi / 1000 * (h_runtime h' / 60)).
Proof. exact C18_energy_bounds_fact. Qed.
Print Assumptions C18_energy_bounds.

(** C19: The same for a multi-pass condenser. *)
Theorem C19_energy_bounds : forall fuel air D i m (w w' : hpwh R) h,
  wf_tank (w_tank w) -> stratified (t_Ts (w_tank w)) -> t_doMix (w_tank w) = true -> nth_error (w_hs w) i = Some h ->
  h_type h = TCompressor -> h_config h = External -> h_multipass h = true ->
  srcOK (length (t_Ts (w_tank w))) air D h -> domUp D (t_Ts (w_tank w)) -> 0 <= m ->
  addHeatCond fuel i air m w = (Ok tt, w') ->
  exists h', nth_error (w_hs w') i = Some h' /\
    (forall lo hi, (forall (v : hpwh R) cond q, D cond -> getPerformance v h air cond = Ok q -> lo <= p_in q + h_shxPump h <= hi) ->
       lo / 1000 * (h_runtime h' / 60) <= h_eIn h' - h_eIn h <= hi / 1000 * (h_runtime h' / 60)) /\
    (forall lo hi, (forall (v : hpwh R) cond q, D cond -> getPerformance v h air cond = Ok q -> lo <= p_out q <= hi) ->
       lo / 1000 * (h_runtime h' / 60) <= h_eOut h' - h_eOut h <= hi / 1000 * (h_runtime h' / 60)).
Proof. exact C19_energy_bounds_fact. Qed.
Print Assumptions C19_energy_bounds.

Example C18_example : exists w', wf_tank (w_tank (exExtUnit false)) /\ stratified (t_Ts (w_tank (exExtUnit false))) /\
  srcOK 4 20 (fun c => 0 <= c) (exExt false) /\ domUp (fun c => 0 <= c) (t_Ts (w_tank (exExtUnit false))) /\ addHeatCond 100 0 20 1 (exExtUnit false) = (Ok tt, w').
Proof. exact C18_example_fact. Qed.

Example C19_example : exists w', wf_tank (w_tank (exExtUnit true)) /\ stratified (t_Ts (w_tank (exExtUnit true))) /\
  srcOK 4 20 (fun c => 0 <= c) (exExt true) /\ domUp (fun c => 0 <= c) (t_Ts (w_tank (exExtUnit true))) /\ addHeatCond 100 0 20 1 (exExtUnit true) = (Ok tt, w').
Proof. exact C19_example_fact. Qed.

(** C20: extra heat with a positive total (or without negative entries) raises the stored heat by exactly
    its total power times the step length, and the reported extra energy is the same amount. *)
Theorem C20_extra_heat : forall fuel l (w w' : hpwh R), extraOK l -> l <> [] ->
  wf_tank (w_tank w) -> INR (length (t_Ts (w_tank w))) <= 10000 -> stratified (t_Ts (w_tank w)) -> 0 <= w_minStep w ->
  addExtraHeat fuel l w = (Ok tt, w') ->
  w_extraE w' = Rsum l / 1000 * (w_minStep w / 60) /\
  tankHeat (w_tank w') = tankHeat (w_tank w) + 3600 * w_extraE w' /\
  stratified (t_Ts (w_tank w')) /\
  (forall j, (j < length (t_Ts (w_tank w)))%nat -> node (t_Ts (w_tank w)) j <= node (t_Ts (w_tank w')) j) /\
  w' = set_w_extraE (w_extraE w') (set_w_tank (set_t_Ts (t_Ts (w_tank w')) (w_tank w)) w).
Proof. exact C20_extra_heat_fact. Qed.
Print Assumptions C20_extra_heat.

(** It succeeds unless the computed shrinkage factor of the distribution is exactly zero. *)
Theorem C20_succeeds : forall fuel l (w : hpwh R), l <> [] -> (0 < length (t_Ts (w_tank w)) < fuel)%nat ->
  findShrinkageT (wd_of_nodes (map (fun x => x / Rsum l) l)) (length (t_Ts (w_tank w))) <> 0 ->
  exists w', addExtraHeat fuel l w = (Ok tt, w').
Proof. exact C20_succeeds_fact. Qed.
Print Assumptions C20_succeeds.

(** A negative total is reported as negative extra energy, but the water keeps its heat ... *)
Theorem C20_negative_total_refuted : exists (w w' : hpwh float),
  addExtraHeat 100 [fofZ (-1000)] w = (Ok tt, w') /\ t_Ts (w_tank w') = t_Ts (w_tank w) /\
  nltb (Num:=FNum) (w_extraE w') (fofZ 0) = true.
Proof. exact C20_negative_total_refuted_fact. Qed.
Print Assumptions C20_negative_total_refuted.

(** ... and with entries of both signs that sum to zero, heat is added though none is reported. *)
Theorem C20_zero_total_refuted : exists (w w' : hpwh float),
  addExtraHeat 100 [fofZ 1000; fofZ (-1000)] w = (Ok tt, w') /\ w_extraE w' = fofZ 0 /\
  nltb (Num:=FNum) (heatContent (w_tank w)) (heatContent (w_tank w')) = true.
Proof. exact C20_zero_total_refuted_fact. Qed.
Print Assumptions C20_zero_total_refuted.

Example C20_example : forall w, w = exUnit (T:=R) [20; 30; 45; 50] -> exists w',
  extraOK [1000] /\ wf_tank (w_tank w) /\ stratified (t_Ts (w_tank w)) /\ addExtraHeat 100 [1000] w = (Ok tt, w').
Proof. exact C20_example_fact. Qed.

(** C21: after a step, the heat stored in the tank is the heat stored before, plus the heat of the water
    that came in minus that of the water that left, plus what the heat sources report as output, plus the
    reported extra heat, minus the reported standby losses. *)
Theorem C21_step_balance : forall fuel x D (w w' : hpwh R), unitOK (sourceAir w x) D w -> covered D x w ->
  extraOK (extraList x) -> (extraList x <> [] -> INR (length (t_Ts (w_tank w))) <= 10000) ->
  runOneStep fuel x w = (Ok tt, w') ->
  tankHeat (w_tank w') = tankHeat (w_tank w)
    + drawnHeat (t_hasHX (w_tank w)) (i_draw x) (w_inletT w) (i_vol2 x) (i_inT2 x) (t_outletT (w_tank w'))
    + 3600 * Rsum (map h_eOut (w_hs w')) + 3600 * w_extraE w' - 3600 * w_stbyE w' /\
  w_extraE w' = Rsum (extraList x) / 1000 * (w_minStep w / 60) /\
  w_envE w' = Rsum (map (fun h => h_eOut h - h_eIn h) (w_hs w')) /\
  Forall (fun h => 0 <= h_eOut h) (w_hs w') /\ stratified (t_Ts (w_tank w')).
Proof. exact C21_step_balance_fact. Qed.
Print Assumptions C21_step_balance.

(** C22: directly after such a step, the built-in check of the energy balance succeeds for every
    tolerance, zero included, when given the volumes and temperatures of the draw. *)
Theorem C22_no_false_alarm : forall fuel x D (w w' : hpwh R) tol, unitOK (sourceAir w x) D w -> covered D x w ->
  extraOK (extraList x) -> (extraList x <> [] -> INR (length (t_Ts (w_tank w))) <= 10000) ->
  0 <= i_vol2 x <= i_draw x -> (t_hasHX (w_tank w) = true -> i_vol2 x = 0) -> 0 <= tol ->
  runOneStep fuel x w = (Ok tt, w') ->
  isEnergyBalanced (i_draw x - i_vol2 x) (w_inletT w) (i_vol2 x) (i_inT2 x) (heatContent (w_tank w)) tol w' = true.
Proof. exact C22_no_false_alarm_fact. Qed.
Print Assumptions C22_no_false_alarm.

(** the check also detects: after any state change, it fails for small tolerances exactly if the heats do
    not balance *)
Theorem C22_detects : forall (w' : hpwh R) d1 t1 d2 t2 prev tol, wf_tank (w_tank w') -> 0 <= tol ->
  isEnergyBalanced d1 t1 d2 t2 prev tol w' = true <->
  Rabs (tankHeat (w_tank w') - (prev + 3600 * Rsum (map h_eIn (w_hs w')) + 3600 * w_extraE w' + 3600 * w_envE w' - 3600 * w_stbyE w'
     - CPWATER * DENSITYWATER * (d1 * (t_outletT (w_tank w') - t1) + d2 * (t_outletT (w_tank w') - t2)))) <= tol * Rmax prev 1.
Proof. exact C22_detects_fact. Qed.
Print Assumptions C22_detects.

Example C21_example : exists w', unitOK 20 (fun _ => True) (exUnit (T:=R) [20; 30; 45; 50]) /\
  runOneStep 100 (exIn 3 20 0) (exUnit (T:=R) [20; 30; 45; 50]) = (Ok tt, w').
Proof. exact C21_example_fact. Qed.

Example C22_example : exists w', runOneStep 100 (exIn 3 20 0) (exUnit (T:=R) [20; 30; 45; 50]) = (Ok tt, w') /\
  isEnergyBalanced 3 10 0 0 (heatContent (w_tank (exUnit (T:=R) [20; 30; 45; 50]))) 0 w' = true.
Proof. exact C22_example_fact. Qed.

(** C23: the balance of C21 telescopes: over a whole run, the tank gains what the drawn water brings (at the
    reported outlet temperature), plus the reported output of the sources, minus the reported losses. *)
Theorem C23_run_balance : forall fuel D rows (w w' : hpwh R),
  (forall air, w_doDepress w = true \/ In air (map r_ext rows) -> unitOK air D w) -> coveredRun D rows w ->
  Forall (fun r => 0 <= r_draw r) rows ->
  runNSteps fuel rows w = (Ok tt, w') ->
  tankHeat (w_tank w') = tankHeat (w_tank w)
    + CPWATER * DENSITYWATER * (Rsum (map (fun r => r_draw r * r_inletT r) rows) - t_outletT (w_tank w') * Rsum (map r_draw rows))
    + 3600 * Rsum (map h_eOut (w_hs w')) - 3600 * w_stbyE w'.
Proof. exact C23_run_balance_fact. Qed.
Print Assumptions C23_run_balance.

(** C73: a ready unit completes every step without an error, out-of-range access, division by zero or
    endless loop; the loops need no more than n*n+1 (n nodes) and draw/node-volume iterations. *)
Theorem C73_step_completes : forall fuel x D (w : hpwh R), unitOK (sourceAir w x) D w -> covered D x w -> unitReady (sourceAir w x) D w ->
  0 < w_minStep w -> (w_doDepress w = true -> w_minStep w = 1) ->
  (0 < i_draw x -> i_vol2 x <= i_draw x) -> t_mixBelowFrac (w_tank w) <= 1 ->
  (t_doCond (w_tank w) = true -> condTau (w_tank w) (w_secStep w) <= 1) ->
  extraList x = [] ->
  (length (t_Ts (w_tank w)) * length (t_Ts (w_tank w)) < fuel)%nat -> i_draw x / t_nodeVol (w_tank w) <= INR fuel ->
  exists w', runOneStep fuel x w = (Ok tt, w').
Proof. exact C73_step_completes_fact. Qed.
Print Assumptions C73_step_completes.

(** ... and so does every run of steps, if some water is drawn. *)
Theorem C73_run_completes : forall fuel D rows (w : hpwh R), w_doDepress w = false -> 0 < w_minStep w -> coveredRun D rows w ->
  (forall r, In r rows -> unitOK (r_ext r) D w /\ unitReady (r_ext r) D w /\ 0 <= r_draw r /\ r_draw r / t_nodeVol (w_tank w) <= INR fuel) ->
  Rsum (map r_draw rows) <> 0 ->
  t_mixBelowFrac (w_tank w) <= 1 -> (t_doCond (w_tank w) = true -> condTau (w_tank w) (w_secStep w) <= 1) ->
  (length (t_Ts (w_tank w)) * length (t_Ts (w_tank w)) < fuel)%nat ->
  exists w', runNSteps fuel rows w = (Ok tt, w').
Proof. exact C73_run_completes_fact. Qed.
Print Assumptions C73_run_completes.

(** the example unit: any profile of four nodes, any draw up to 1000 L, any signal *)
Example C73_example : forall draw amb dr Ts, length Ts = 4%nat -> -100 < amb -> 0 <= draw <= 1000 ->
  exists w', runOneStep 100 (exIn draw amb dr) (exUnit (T:=R) Ts) = (Ok tt, w').
Proof. exact C73_example_fact. Qed.

Example C23_balance_example : exists w', runNSteps 100 exRowsR (exUnit (T:=R) [20; 30; 45; 50]) = (Ok tt, w') /\
  (forall air, unitOK air (fun _ => True) (exUnit (T:=R) [20; 30; 45; 50])) /\ Forall (fun r => 0 <= r_draw r) exRowsR.
Proof. exact C23_balance_example_fact. Qed.

(** C74: an external multi-pass condenser always finishes: its loop needs at most one pass per node volume
    pumped. *)
Theorem C74_multi_pass_completes : forall fuel i air (D : R -> Prop) h m (w : hpwh R), (0 <= h_extOut h <= h_extIn h)%Z -> 0 < h_mpFlow h ->
  h_config h = External -> h_multipass h = true ->
  (forall (v : hpwh R) cond, D cond -> exists p, getPerformance v h air cond = Ok p /\ 0 < p_out p) ->
  wf_tank (w_tank w) -> nth_error (w_hs w) i = Some h -> Forall (logicReady (w_haveInletT w)) (h_shutOff h) -> socReady w ->
  (length (t_Ts (w_tank w)) * length (t_Ts (w_tank w)) < fuel)%nat ->
  (h_extIn h < Z.of_nat (length (t_Ts (w_tank w))))%Z -> 0 <= m -> domUp D (t_Ts (w_tank w)) ->
  h_mpFlow h * (m * 60) / t_nodeVol (w_tank w) <= INR fuel -> 
  exists w', addHeatCond fuel i air m w = (Ok tt, w').
Proof. exact C74_multi_pass_completes_fact. Qed.
Print Assumptions C74_multi_pass_completes.

(** C29: after a step, every source reports a run time between zero and the step length. *)
Theorem C29_run_time : forall fuel x D (w w' : hpwh R), unitOK (sourceAir w x) D w -> covered D x w ->
  extraOK (extraList x) -> (extraList x <> [] -> INR (length (t_Ts (w_tank w))) <= 10000) ->
  runOneStep fuel x w = (Ok tt, w') -> Forall (fun h => 0 <= h_runtime h <= w_minStep w) (w_hs w').
Proof. exact C29_run_time_fact. Qed.
Print Assumptions C29_run_time.

Theorem C29_power_times_run_time_refuted : exists (w w' : hpwh float) h, 
  runOneStep 100 (exIn (fofZ 0) (fofZ 20) 0) w = (Ok tt, w') /\ nth_error (w_hs w') 1 = Some h /\ h_type h = TResistance /\
  nltb (Num:=FNum) (fofZ 0) (h_runtime h) = true /\
  h_eIn h = (fofZ 2 * (h_power h * (h_runtime h / fofZ 60)))%float /\
  nltb (Num:=FNum) (h_power h * (h_runtime h / fofZ 60))%float (h_eIn h) = true.
Proof. exact C29_power_times_run_time_refuted_fact. Qed.
Print Assumptions C29_power_times_run_time_refuted.

Example C29_example : exists w', unitOK 20 (fun _ => True) (exUnit (T:=R) [20; 30; 45; 50]) /\
  runOneStep 100 (exIn 3 20 0) (exUnit (T:=R) [20; 30; 45; 50]) = (Ok tt, w').
Proof. exact C29_example_fact. Qed.

(** C30: over a step without extra heat, without heat exchanger and without external multi-pass condensers,
    every node stays between [lo] and [hi] if the old profile, the inlet waters, the ambient temperature
    and (for [hi]) the setpoint do, provided the standby losses of one step are not unstable. *)
Theorem C30_step_range : forall fuel x (w w' : hpwh R) D lo hi, unitOK (sourceAir w x) D w -> (forall c, lo <= c <= hi -> D c) ->
  calm lo hi x w -> extraList x = [] ->
  runOneStep fuel x w = (Ok tt, w') -> within lo hi (t_Ts (w_tank w')).
Proof. exact C30_step_range_fact. Qed.
Print Assumptions C30_step_range.

Example C30_example : exists w', runOneStep 100 (exIn 3 20 0) (exUnit (T:=R) [20; 30; 45; 50]) = (Ok tt, w') /\ within 10 60 (t_Ts (w_tank w')).
Proof. exact C30_example_fact. Qed.

Example C73_domain_matters : ~ unitOK 20 (fun _ => True) exPolyUnit.
Proof. exact C73_domain_matters_fact. Qed.

(** ... so that its steps complete, keep the water between 10 C and 60 C, and balance. *)
Example C73_polynomial_example : forall draw air dr, 0 <= draw <= 1000 -> 10 <= air <= 30 ->
  exists w', runOneStep 100 (exIn draw air dr) exPolyUnit = (Ok tt, w') /\ within 10 60 (t_Ts (w_tank w')) /\
    tankHeat (w_tank w') = tankHeat (w_tank exPolyUnit) + drawnHeat false draw 10 0 0 (t_outletT (w_tank w'))
      + 3600 * Rsum (map h_eOut (w_hs w')) - 3600 * w_stbyE w'.
Proof. exact C73_polynomial_example_fact. Qed.
