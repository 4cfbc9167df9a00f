(** Properties of central systems written to the data model and read back.  Statements only; proofs in CentralRTFacts.v. *)

From Coq Require Import ZArith String List Bool Reals Lra Lia Floats Sorted.
From Verif Require Import Num FNum Base Units Utils Types TankM Logic HeatSrc Step Setters Perf DataModel Spec SpecDist.
From Verif Require Import RList FrameProofs SimFrame ControlProofs DistFacts PerfFacts StepEnergy SeqProofs DataModelFacts RoundTripFacts CentralFacts Example.
From Verif Require Import CentralRTFacts.
Import ListNotations.
Local Open Scope R_scope.

(** The port heights of the compressor read are those of the one written, for every number of nodes. *)
Theorem C69_ports : forall itp junk (u u0 : usim R) c d w' v,
  (0 <= w_compIx (u_w u))%Z -> nth_error (w_hs (u_w u)) (Z.to_nat (w_compIx (u_w u))) = Some c -> h_config c = External -> (0 < numNodes (w_tank (u_w u)))%nat ->
  simTo u (u_w u) = (Ok d, w') -> simFrom itp junk d u0 = Ok v ->
  exists c', nth_error (w_hs (u_w v)) (Z.to_nat (w_compIx (u_w v))) = Some c' /\ h_config c' = External /\ h_extIn c' = h_extIn c /\ h_extOut c' = h_extOut c.
Proof. exact C69_ports_fact. Qed.
Print Assumptions C69_ports.

(** In double precision the heights are kept for the node counts of the list (all up to 21, and 24, 48 and 96 among others) ... *)
Theorem C69_doubles : forall itp junk (u u0 : usim float) c d w' v,
  (0 <= w_compIx (u_w u))%Z -> nth_error (w_hs (u_w u)) (Z.to_nat (w_compIx (u_w u))) = Some c -> h_config c = External -> In (numNodes (w_tank (u_w u))) exactCounts ->
  (-1 <= h_extIn c <= Z.of_nat (numNodes (w_tank (u_w u))))%Z -> (-1 <= h_extOut c <= Z.of_nat (numNodes (w_tank (u_w u))))%Z ->
  simTo u (u_w u) = (Ok d, w') -> simFrom itp junk d u0 = Ok v ->
  exists c', nth_error (w_hs (u_w v)) (Z.to_nat (w_compIx (u_w v))) = Some c' /\ h_config c' = External /\ h_extIn c' = h_extIn c /\ h_extOut c' = h_extOut c.
Proof. exact C69_doubles_fact. Qed.
Print Assumptions C69_doubles.

Example C69_example : exists d w' v, let u := exCentral (T:=float) (map fofZ [20; 30; 40; 50]%Z) in
  simTo u (u_w u) = (Ok d, w') /\ simFrom (fun _ _ _ _ => fofZ 1) exExternal d u = Ok v /\ In (numNodes (w_tank (u_w u))) exactCounts.
Proof. exact C69_example_fact. Qed.

(** ... but not for all: with 22 nodes a port at node 15 is read back at node 14. *)
Theorem C69_refuted : exists (u : usim float) itp junk d w' v c c', simTo u (u_w u) = (Ok d, w') /\ simFrom itp junk d u = Ok v /\
  numNodes (w_tank (u_w u)) = 22%nat /\ nth_error (w_hs (u_w u)) 0 = Some c /\ h_config c = External /\ nth_error (w_hs (u_w v)) 0 = Some c' /\ h_extIn c = 15%Z /\ h_extIn c' = 14%Z.
Proof. exact C69_refuted_fact. Qed.
Print Assumptions C69_refuted.

(** What was written for a central system can be read into any simulator.  The system read has the same heat
    sources in the same order under the same names, with the same associations and primary source; the
    compressor has the same ports, flow, secondary heat exchanger, limits and defrost settings. *)
Theorem C88_central : forall itp junk (u u0 : usim R) d w', centralUnit u -> simTo u (u_w u) = (Ok d, w') -> exists v, simFrom itp junk d u0 = Ok v /\
  Forall2 (fun h h' => sameSource h h' /\ (h_type h = TCompressor -> sameExternal h h')) (w_hs (u_w u)) (w_hs (u_w v)) /\ u_names v = u_names u /\
  w_setpoint (u_w v) = w_setpoint (u_w u) /\ w_doDepress (u_w v) = w_doDepress (u_w u) /\
  numNodes (w_tank (u_w v)) = numNodes (w_tank (u_w u)) /\ t_volume (w_tank (u_w v)) = t_volume (w_tank (u_w u)) /\
  t_UA (w_tank (u_w v)) = t_UA (w_tank (u_w u)) /\ t_fixed (w_tank (u_w v)) = t_fixed (w_tank (u_w u)) /\
  w_compIx (u_w v) = w_compIx (u_w u) /\ u_cop v = u_cop u.
Proof. exact C88_central_fact. Qed.
Print Assumptions C88_central.

(** With an interpolator that returns the tabulated values at grid points, the compressor read has, at every
    point of the written grid, the input power and capacity the written one has there, the outlet axis
    being the setpoint plus the temperature difference of the secondary heat exchanger.  The grid spans the
    operating range; of a compressor with a grid of its own it holds every point within the operating range. *)
Theorem C88_grid_points : forall itp junk (u u0 : usim R) d w' v, centralUnit u -> exact3 itp -> simTo u (u_w u) = (Ok d, w') -> simFrom itp junk d u0 = Ok v ->
  forall i h g h', nth_error (w_hs (u_w u)) i = Some h -> nth_error (u_rgi u) i = Some g -> h_type h = TCompressor -> nth_error (w_hs (u_w v)) i = Some h' ->
  exists env src lvg, StronglySorted Rlt env /\ StronglySorted Rlt src /\ StronglySorted Rlt lvg /\ hd 0 env = h_minT h /\ last env 0 = h_maxT h /\
    match g with Some [a0; a1; a2] => src = a1 /\ lvg = a2 /\ (forall e, In e a0 -> h_minT h <= e <= h_maxT h -> In e env) | _ => True end /\
    forall sp e s, In e env -> In s src -> In (sp + h_shxHot h) lvg ->
      p_in (h_eval h' sp e s) = p_in (h_eval h sp e s) /\ p_out (h_eval h' sp e s) = p_out (h_eval h sp e s) /\
      p_cop (h_eval h' sp e s) = p_out (h_eval h sp e s) / p_in (h_eval h sp e s).
Proof. exact C88_grid_points_fact. Qed.
Print Assumptions C88_grid_points.

Example C88_example : exact3 lookup3 /\ centralUnit (exCentral (T:=R) [20; 30; 40; 50]) /\
  exists d w', simTo (exCentral (T:=R) [20; 30; 40; 50]) (u_w (exCentral [20; 30; 40; 50])) = (Ok d, w').
Proof. exact C88_example_fact. Qed.
