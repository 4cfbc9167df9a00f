(** Properties of the heating loop of single-pass external condensers.  Statements only; proofs in SinglePassFacts.v. *)

From Coq Require Import ZArith String List Bool Reals Lra Lia Floats.
From Verif Require Import Num FNum Base Units Utils Types TankM Logic HeatSrc Step Spec SpecState SpecDist SpecEnergy SpecStep SpecExt.
From Verif Require Import RList FrameProofs SimFrame MixProofs DrawProofs TankProofs StandbyProofs HeatProofs ControlProofs SeqProofs.
From Verif Require Import DistProofs EnergyProofs ExtProofs StepEnergy AvgProofs Progress StepProgress ExtProgress SPProgress EnergyFacts Example.
From Verif Require Import SinglePassFacts.
Import ListNotations.
Local Open Scope R_scope.

(** A single-pass condenser over the whole height of a tank of at least twelve nodes, whose shut-off logics
    stop it when water is hot, completes its heating call: every pass that does not end the loop either moves a whole
    node or heats the tank by at least a ten thousandth of a degree of one node (Condenser.cc:1048-1164). *)
Theorem C100_single_pass_completes : forall fuel i air lo (D : R -> Prop) h m (w : hpwh R),
  h_config h = External -> h_multipass h = false -> wholeHeight (length (t_Ts (w_tank w))) h ->
  (12 <= length (t_Ts (w_tank w)))%nat -> Forall stopsHot (h_shutOff h) ->
  (forall (v : hpwh R) cond, D cond -> exists p, getPerformance v h air cond = Ok p /\ 0 < p_out p) ->
  (forall c, lo <= c <= w_setpoint w -> D c) ->
  wf_tank (w_tank w) -> stratified (t_Ts (w_tank w)) -> within lo (w_setpoint w) (t_Ts (w_tank w)) ->
  w_setpoint w <= h_maxSet h -> nth_error (w_hs w) i = Some h -> socReady w -> 0 <= m ->
  (length (t_Ts (w_tank w)) * length (t_Ts (w_tank w)) < fuel)%nat ->
  passes (length (t_Ts (w_tank w))) (w_setpoint w) lo <= INR fuel ->
  exists w', addHeatCond fuel i air m w = (Ok tt, w').
Proof. exact C100_single_pass_completes_fact. Qed.
Print Assumptions C100_single_pass_completes.

(** The finding: with a shut-off logic that stops heating when water is colder than a value, the loop never ends
    if that water is at the value or less than a ten thousandth of a degree above: the logic does not stop the
    condenser, but the fraction of a node that it asks for is zero, so no pass takes any time (HPWHHeatingLogic.cc:226-292). *)
Theorem C100_less_than_never_ends : forall fuel i air h m (w : hpwh R) nm d dp a y s v,
  h_config h = External -> h_multipass h = false -> (0 <= h_extOut h <= h_extIn h)%Z -> (h_extIn h < Z.of_nat (length (t_Ts (w_tank w))))%Z ->
  (forall u : hpwh R, exists p, getPerformance u h air (node (t_Ts (w_tank w)) (Z.to_nat (h_extOut h))) = Ok p /\ 0 < p_out p) ->
  wf_tank (w_tank w) -> stratified (t_Ts (w_tank w)) -> node (t_Ts (w_tank w)) (Z.to_nat (h_extOut h)) < w_setpoint w ->
  w_setpoint w <= h_maxSet h -> nth_error (w_hs w) i = Some h -> socReady w -> 0 < m ->
  (length (t_Ts (w_tank w)) * length (t_Ts (w_tank w)) < fuel)%nat ->
  h_shutOff h = [TempLogic nm d dp a CLess y s] -> (d_type d = DWeighted -> goodDist (d_w d)) ->
  averageT_distribution d (w_tank w) = Ok v ->
  (let c := if a then dp else w_setpoint w - dp in c <= v < c + 1 / 10000) ->
  fst (addHeatCond fuel i air m w) = NoFuel.
Proof. exact C100_less_than_never_ends_fact. Qed.
Print Assumptions C100_less_than_never_ends.

(** a tank at 40 C whose condenser is to stop if the bottom is colder than 40 C *)
Example C100_less_than_example : forall fuel, (144 < fuel)%nat ->
  fst (addHeatCond fuel 0 20 1 (exSPUnit (TempLogic "off" (mkdist DBottom []) 40 true CLess false false) (repeat 40 12))) = NoFuel.
Proof. exact C100_less_than_example_fact. Qed.

(** In double precision, with the same kind of logic and 24 nodes, a heating call of one minute cools the water:
    it ends with a negative run time and reports a large output. *)
Theorem C100_single_pass_heats_refuted : exists (w w' : hpwh float) h,
  addHeatCond 1000 0 (fofZ 20) (fofZ 1) w = (Ok tt, w') /\ nth_error (w_hs w') 0 = Some h /\
  nltb (Num:=FNum) (h_runtime h) (fofZ (-33)) = true /\ nltb (Num:=FNum) (fofZ 28) (h_eOut h) = true /\
  forallb (fun x => nleb (Num:=FNum) (fofZ 44) x) (t_Ts (w_tank w)) = true /\
  forallb (fun x => nltb (Num:=FNum) x (fofZ 42)) (t_Ts (w_tank w')) = true.
Proof. exact C100_single_pass_heats_refuted_fact. Qed.
Print Assumptions C100_single_pass_heats_refuted.

(** The second finding: with fewer than twelve nodes the loop can also never end although the logic stops
    heating when water is hot: if the logic looks at the top node, which is at the setpoint, and its value is not
    below the setpoint, every pass moves only n/12 of the bottom node, which approaches the setpoint without reaching it. *)
Theorem C100_few_nodes_never_end : forall fuel i air h m (w : hpwh R) nm d dp a y s P,
  h_config h = External -> h_multipass h = false -> wholeHeight (length (t_Ts (w_tank w))) h ->
  (2 <= length (t_Ts (w_tank w)) < 12)%nat ->
  (forall (u : hpwh R) cond, exists p, getPerformance u h air cond = Ok p /\ P <= p_out p) -> 0 < P ->
  wf_tank (w_tank w) -> node (t_Ts (w_tank w)) 0 < w_setpoint w ->
  (forall k, (0 < k < length (t_Ts (w_tank w)))%nat -> node (t_Ts (w_tank w)) k = w_setpoint w) ->
  w_setpoint w <= h_maxSet h -> nth_error (w_hs w) i = Some h -> socReady w ->
  t_nodeCp (w_tank w) * (w_setpoint w - node (t_Ts (w_tank w)) 0) < P / 1000 * (m * 60) ->
  (length (t_Ts (w_tank w)) * length (t_Ts (w_tank w)) < fuel)%nat ->
  h_shutOff h = [TempLogic nm d dp a CGreater y s] -> d_type d = DTop -> w_setpoint w <= (if a then dp else w_setpoint w - dp) ->
  fst (addHeatCond fuel i air m w) = NoFuel.
Proof. exact C100_few_nodes_never_end_fact. Qed.
Print Assumptions C100_few_nodes_never_end.

(** two nodes, the upper at the setpoint of 55 C, the condenser to stop when the top is hotter than 60 C *)
Example C100_few_nodes_example : forall fuel, (4 < fuel)%nat ->
  fst (addHeatCond fuel 0 20 200 (exSPUnit (TempLogic "off" (mkdist DTop []) 60 true CGreater false false) [45; 55])) = NoFuel.
Proof. exact C100_few_nodes_example_fact. Qed.

(** twenty-four nodes at 20 C: the call completes *)
Example C100_example : exists fuel w', addHeatCond fuel 0 20 60 (exSPUnit (exOff 60) (repeat 20 24)) = (Ok tt, w').
Proof. exact C100_example_fact. Qed.
