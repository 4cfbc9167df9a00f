(** Properties of the tank: mixing, draws, standby losses, adding heat.  Statements only; proofs in TankFacts.v. *)

From Coq Require Import ZArith List Bool Reals Lra Lia.
From Verif Require Import Num FNum Base Units Utils Types TankM Spec SpecState.
From Verif Require Import RList FrameProofs MixProofs DrawProofs TankProofs StandbyProofs HeatProofs.
From Verif Require Import TankFacts.
Import ListNotations.
Local Open Scope R_scope.

(** The reported heat content is the heat stored in the nodes. *)
Theorem C04_heat_content_is_stored_heat : forall t, wf_tank t -> heatContent t = tankHeat t.
Proof. exact C04_heat_content_is_stored_heat_fact. Qed.
Print Assumptions C04_heat_content_is_stored_heat.

(** C01: mixing finishes within n*n+1 passes, stratifies the tank and conserves its heat. *)
Theorem C01_mixing_terminates_stratifies_conserves : forall t fuel,
  wf_tank t -> t_doMix t = true -> (length (t_Ts t) * length (t_Ts t) < fuel)%nat ->
  exists t', mixInversions fuel t = (Ok tt, t') /\
    t' = set_t_Ts (t_Ts t') t /\ length (t_Ts t') = length (t_Ts t) /\
    stratified (t_Ts t') /\ tankHeat t' = tankHeat t /\ heatContent t' = heatContent t.
Proof. exact C01_mixing_terminates_stratifies_conserves_fact. Qed.
Print Assumptions C01_mixing_terminates_stratifies_conserves.

Example C01_example : wf_tank (exTank [50; 20; 60; 10]) /\ t_doMix (exTank [50; 20; 60; 10]) = true /\
  ~ stratified (t_Ts (exTank [50; 20; 60; 10])).
Proof. exact C01_example_fact. Qed.

(** C02: whatever the number of passes, the result is the unique isotonic rearrangement of the heat. *)
Theorem C02_mixing_is_the_unique_isotonic_profile : forall t fuel t',
  wf_tank t -> t_doMix t = true -> mixInversions fuel t = (Ok tt, t') ->
  isotonic_of (t_Ts t) (t_Ts t') /\
  (forall Ts, isotonic_of (t_Ts t) Ts -> Ts = t_Ts t').
Proof. exact C02_mixing_is_the_unique_isotonic_profile_fact. Qed.
Print Assumptions C02_mixing_is_the_unique_isotonic_profile.

Example C02_example : exists t', mixInversions 17 (exTank [50; 20; 60; 10]) = (Ok tt, t').
Proof. exact C02_example_fact. Qed.

(** C03: mixing stays in range; a stratified tank is left alone; mixing twice equals mixing once. *)
Theorem C03_mixing_range_and_idempotence : forall t fuel t',
  wf_tank t -> mixInversions fuel t = (Ok tt, t') ->
  (forall lo hi, within lo hi (t_Ts t) -> within lo hi (t_Ts t')) /\
  (stratified (t_Ts t) -> t' = t) /\
  (forall fuel', (0 < fuel')%nat -> mixInversions fuel' t' = (Ok tt, t')).
Proof. exact C03_mixing_range_and_idempotence_fact. Qed.
Print Assumptions C03_mixing_range_and_idempotence.

Example C03_example : wf_tank (exTank [10; 20; 20; 60]) /\ stratified (t_Ts (exTank [10; 20; 20; 60])) /\
  within 10 60 [50; 20; 60; 10].
Proof. exact C03_example_fact. Qed.

(** C04: a draw conserves energy, counting both inlets by volume and the outlet at its reported temperature. *)
Theorem C04_draw_conserves_energy : forall fuel draw inT v2 inT2 t t',
  wf_tank t -> ports_ok t -> t_hasHX t = false -> 0 < draw ->
  drawPhase fuel draw inT v2 inT2 t = (Ok tt, t') ->
  sameTank t t' /\ v2 <= draw /\
  tankHeat t' = tankHeat t
    + CPWATER * DENSITYWATER * ((draw - v2) * inT + v2 * inT2)
    - CPWATER * DENSITYWATER * draw * t_outletT t'.
Proof. exact C04_draw_conserves_energy_fact. Qed.
Print Assumptions C04_draw_conserves_energy.

(** C05: a draw creates no temperature outside the range of the tank and the inlets in use, and keeps a
    stratified tank (with inversion mixing) stratified. *)
Theorem C05_draw_stays_in_range : forall fuel draw inT v2 inT2 t t' lo hi,
  wf_tank t -> ports_ok t -> t_hasHX t = false -> 0 < draw -> 0 <= v2 ->
  within lo hi (t_Ts t) -> (v2 < draw -> lo <= inT <= hi) -> (0 < v2 -> lo <= inT2 <= hi) ->
  drawPhase fuel draw inT v2 inT2 t = (Ok tt, t') ->
  within lo hi (t_Ts t') /\ lo <= t_outletT t' <= hi /\
  (t_doMix t = true -> stratified (t_Ts t) -> stratified (t_Ts t')).
Proof. exact C05_draw_stays_in_range_fact. Qed.
Print Assumptions C05_draw_stays_in_range.

(** The draw phase succeeds whenever the volumes are consistent and the mixing fraction is at most one. *)
Theorem C07_draw_terminates : forall fuel draw inT v2 inT2 t,
  wf_tank t -> t_hasHX t = false -> v2 <= draw -> t_mixBelowFrac t <= 1 ->
  (length (t_Ts t) * length (t_Ts t) < fuel)%nat -> draw / t_nodeVol t <= INR fuel ->
  exists t', drawPhase fuel draw inT v2 inT2 t = (Ok tt, t').
Proof. exact C07_draw_terminates_fact. Qed.
Print Assumptions C07_draw_terminates.

Example C07_example : let t := exTank [10; 20; 20; 60] in
  wf_tank t /\ ports_ok t /\ t_hasHX t = false /\ t_mixBelowFrac t <= 1 /\ 400 / t_nodeVol t <= INR 17 /\
  exists t', drawPhase 17 400 10 5 15 t = (Ok tt, t').
Proof. exact C07_example_fact. Qed.

(** C07 (negative half): in double precision a draw of 2^54 node volumes never finishes. *)
Theorem C07_draw_float_never_ends_refuted :
  forall (t : tank PrimFloat.float) fuel hours seconds draw inT amb vol2 inT2,
  t_hasHX t = false -> t_Ts t <> [] ->
  PrimFloat.ltb PrimFloat.zero draw = true -> PrimFloat.ltb draw vol2 = false ->
  PrimFloat.div draw (t_nodeVol t) = fofZ (2 ^ 54) ->
  fst (updateNodes fuel hours seconds draw inT amb vol2 inT2 t) = NoFuel.
Proof. exact C07_draw_float_never_ends_refuted_fact. Qed.
Print Assumptions C07_draw_float_never_ends_refuted.

Example C07_refuted_example :
  let d := fofZ (2 ^ 54) in
  PrimFloat.ltb PrimFloat.zero d = true /\ PrimFloat.ltb d PrimFloat.zero = false /\ PrimFloat.div d PrimFloat.one = d.
Proof. exact C07_refuted_example_fact. Qed.

(** C06: without a (positive) draw the draw phase does nothing; an over-large second inlet is rejected
    before anything changes.  Holds for every number type, in particular for doubles. *)
Theorem C06_no_draw_no_change : forall (T : Type) (N : Num T) fuel draw inT v2 inT2 (t : tank T),
  (nltb (nofZ 0) draw = false -> drawPhase fuel draw inT v2 inT2 t = (Ok tt, t)) /\
  (nltb (nofZ 0) draw = true -> nltb draw v2 = true ->
     exists msg, drawPhase fuel draw inT v2 inT2 t = (Err msg, t)).
Proof. exact C06_no_draw_no_change_fact. Qed.
Print Assumptions C06_no_draw_no_change.

Example C06_example : nltb (T:=PrimFloat.float) (nofZ 0) PrimFloat.nan = false /\
  nltb (T:=R) (nofZ 0) 5 = true /\ nltb (T:=R) 5 6 = true.
Proof. exact C06_example_fact. Qed.

(** C08: heat-exchanger draws. *)
Theorem C08_hx_draw : forall fuel draw inT v2 inT2 t t',
  wf_tank t -> t_hasHX t = true -> 0 < draw ->
  drawPhase fuel draw inT v2 inT2 t = (Ok tt, t') ->
  sameTank t t' /\
  tankHeat t - tankHeat t' = CPWATER * DENSITYWATER * draw * (t_outletT t' - inT) /\
  (forall lo hi, 0 <= t_nodeHxEff t <= 1 -> within lo hi (t_Ts t) -> lo <= inT <= hi ->
     lo <= t_outletT t' <= hi /\
     (t_nodeHxEff t * draw <= t_nodeVol t -> within lo hi (t_Ts t'))).
Proof. exact C08_hx_draw_fact. Qed.
Print Assumptions C08_hx_draw.

Example C08_example : let t := set_t_mixesOnDraw false (set_t_hasHX true (exTank [10; 20; 20; 60])) in
  wf_tank t /\ t_hasHX t = true /\ t_mixesOnDraw t = false /\ 0 <= t_nodeHxEff t <= 1 /\
  t_nodeHxEff t * 30 <= t_nodeVol t /\ exists t', drawPhase 5 30 12 0 0 t = (Ok tt, t').
Proof. exact C08_example_fact. Qed.

(** C09: the standby phase changes the heat content by exactly minus the reported losses, and the losses
    are those of the two ends, the side and the fittings at the temperatures at its start. *)
Theorem C09_standby_accounting : forall fuel hours seconds amb t t',
  wf_tank t -> standbyPhase fuel hours seconds amb t = (Ok tt, t') ->
  length (t_Ts t') = length (t_Ts t) /\
  t' = set_t_stby (t_stby t') (set_t_Ts (t_Ts t') t) /\
  tankHeat t' = tankHeat t - (t_stby t' - t_stby t) /\
  t_stby t' - t_stby t =
    hours * (t_UA t * t_fracTop t * ((node (t_Ts t) 0 - amb) + (node (t_Ts t) (length (t_Ts t) - 1) - amb)) +
             (t_UA t * t_fracSide t + t_fitUA t) *
               (Rsum (t_Ts t) / INR (length (t_Ts t)) - amb)).
Proof. exact C09_standby_accounting_fact. Qed.
Print Assumptions C09_standby_accounting.

(** The standby phase fails only through the stability check. *)
Theorem C09_standby_succeeds : forall fuel hours seconds amb t,
  wf_tank t -> (length (t_Ts t) * length (t_Ts t) < fuel)%nat ->
  (t_doCond t = true -> condTau t seconds <= 1) ->
  exists t', standbyPhase fuel hours seconds amb t = (Ok tt, t').
Proof. exact C09_standby_succeeds_fact. Qed.
Print Assumptions C09_standby_succeeds.

Example C09_example : let t := exTank [10; 20; 20; 60] in
  wf_tank t /\ exists t', standbyPhase 17 (1/60) 60 20 t = (Ok tt, t').
Proof. exact C09_example_fact. Qed.

(** C10: a stratified tank stays within the range of its temperatures and the ambient.  With inversion
    mixing it is enough that no node would lose more than its excess over ambient in one step;
    without mixing the conduction number has to be added to that fraction. *)
Theorem C10_standby_range : forall fuel hours seconds amb t t' lo hi,
  wf_tank t -> stratified (t_Ts t) -> within lo hi (t_Ts t) -> lo <= amb <= hi ->
  0 <= hours -> 0 <= seconds -> 0 <= t_UA t -> 0 <= t_fitUA t -> 0 <= t_fracTop t -> 0 <= t_fracSide t ->
  t_nodeHeight t <> 0 ->
  (forall ends : R, ends = (if Nat.eqb (length (t_Ts t)) 1 then 2 else 1) ->
     hours * (ends * (t_UA t * t_fracTop t) + (t_UA t * t_fracSide t + t_fitUA t) / INR (length (t_Ts t)))
       / t_nodeCp t + (if (t_doMix t || negb (t_doCond t))%bool then 0 else condTau t seconds) <= 1) ->
  standbyPhase fuel hours seconds amb t = (Ok tt, t') ->
  within lo hi (t_Ts t').
Proof. exact C10_standby_range_fact. Qed.
Print Assumptions C10_standby_range.

Example C10_example : let t := exTank [10; 20; 20; 60] in
  wf_tank t /\ stratified (t_Ts t) /\ within 10 60 (t_Ts t) /\ t_nodeHeight t <> 0 /\
  (1/60) * (1 * (t_UA t * t_fracTop t) + (t_UA t * t_fracSide t + t_fitUA t) / INR (length (t_Ts t))) / t_nodeCp t <= 1 /\
  exists t', standbyPhase 17 (1/60) 60 20 t = (Ok tt, t').
Proof. exact C10_example_fact. Qed.

(** C10 (negative half): the stability check alone does not keep temperatures in range: a tank at 20 degrees
    in a 10 degree room ends at 0 degrees although the check passes. *)
Theorem C10_standby_range_refuted : exists t t',
  wf_tank t /\ stratified (t_Ts t) /\ within 10 20 (t_Ts t) /\ 0 <= t_UA t /\ 0 <= t_fitUA t /\
  0 <= t_fracTop t /\ 0 <= t_fracSide t /\ 2 * t_fracTop t + t_fracSide t = 1 /\
  t_doCond t = true /\ t_doMix t = true /\
  standbyPhase 5 1 3600 10 t = (Ok tt, t') /\ t_Ts t' = [0].
Proof. exact C10_standby_range_refuted_fact. Qed.
Print Assumptions C10_standby_range_refuted.

(** C11: partial mixing of the nodes bot .. below-1 by a factor f in [0,1]. *)
Theorem C11_bottom_mixing : forall bot below f Ts,
  (bot <= below <= length Ts)%nat -> 0 <= f <= 1 ->
  let Ts' := mixNodes_list bot below f Ts in
  length Ts' = length Ts /\ Rsum Ts' = Rsum Ts /\
  (forall lo hi, (forall j, (bot <= j < below)%nat -> lo <= node Ts j <= hi) ->
     forall k, (bot <= k < below)%nat -> lo <= node Ts' k <= hi) /\
  (forall k, (k < length Ts)%nat -> ~ (bot <= k < below)%nat -> node Ts' k = node Ts k) /\
  (stratified Ts -> stratified Ts') /\
  (f = 1 -> forall j k, (bot <= j < below)%nat -> (bot <= k < below)%nat -> node Ts' j = node Ts' k).
Proof. exact C11_bottom_mixing_fact. Qed.
Print Assumptions C11_bottom_mixing.

Example C11_example : (0 <= 2 <= length [10; 20; 20; 60])%nat /\ 0 <= 1 / 3 <= 1 /\
  node (mixNodes_list 0 2 (1 / 3) [10; 20; 20; 60]) 0 <> 10.
Proof. exact C11_example_fact. Qed.

(** C12: adding heat above a node. *)
Theorem C12_add_heat : forall q nd maxT t,
  wf_tank t -> (nd < length (t_Ts t))%nat -> 0 <= q -> stratified_from nd (t_Ts t) ->
  exists q' t', addHeatAboveNode q nd maxT t = (Ok q', t') /\
    0 <= q' <= q /\
    tankHeat t' = tankHeat t + (q - q') /\
    t' = set_t_Ts (t_Ts t') t /\ length (t_Ts t') = length (t_Ts t) /\
    (forall j, (j < length (t_Ts t))%nat ->
       node (t_Ts t) j <= node (t_Ts t') j <= Rmax (node (t_Ts t) j) maxT) /\
    (forall j, (j < nd)%nat -> node (t_Ts t') j = node (t_Ts t) j) /\
    stratified_from nd (t_Ts t') /\ (stratified (t_Ts t) -> stratified (t_Ts t')).
Proof. exact C12_add_heat_fact. Qed.
Print Assumptions C12_add_heat.

Example C12_example : let t := exTank [10; 20; 20; 60] in
  wf_tank t /\ (1 < length (t_Ts t))%nat /\ 0 <= 5000 /\ stratified_from 1 (t_Ts t).
Proof. exact C12_example_fact. Qed.

(** C13: the result is the water-filling solution. *)
Theorem C13_add_heat_fills_like_water : forall q nd maxT t q' t',
  wf_tank t -> (nd < length (t_Ts t))%nat -> 0 <= q -> stratified_from nd (t_Ts t) ->
  addHeatAboveNode q nd maxT t = (Ok q', t') ->
  (exists L, filled nd L (t_Ts t) (t_Ts t') /\
     ((exists j, (nd <= j < length (t_Ts t))%nat /\ node (t_Ts t) j < node (t_Ts t') j) -> L <= maxT)) /\
  (0 < q' -> forall j, (nd <= j < length (t_Ts t))%nat -> maxT <= node (t_Ts t') j).
Proof. exact C13_add_heat_fills_like_water_fact. Qed.
Print Assumptions C13_add_heat_fills_like_water.

(** C13 (uniqueness): the heat delivered determines the profile. *)
Theorem C13_water_filling_unique : forall nd Ts A B L1 L2,
  filled nd L1 Ts A -> filled nd L2 Ts B -> Rsum A = Rsum B -> A = B.
Proof. exact C13_water_filling_unique_fact. Qed.
Print Assumptions C13_water_filling_unique.

(** C14: on a profile that is inverted above the heated node heat is not conserved: 10 units of heat are
    added and the heat content rises by 40. *)
Theorem C14_add_heat_inverted_refuted : exists cp q nd maxT Ts,
  0 < cp /\ 0 <= q /\ (nd < length Ts)%nat /\
  let '(q', Ts') := addHeatAboveNode_list cp q nd maxT Ts in
  q' = 0 /\ cp * Rsum Ts' = cp * Rsum Ts + 40 /\ q = 10.
Proof. exact C14_add_heat_inverted_refuted_fact. Qed.
Print Assumptions C14_add_heat_inverted_refuted.
