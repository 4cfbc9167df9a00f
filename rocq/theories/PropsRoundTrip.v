(** Properties of whole simulators written to the data model and read back.  Statements only; proofs in RoundTripFacts.v. *)

From Coq Require Import ZArith String List Bool Reals Lra Lia Floats Sorted.
From Verif Require Import Num FNum Base Units Utils Types TankM Logic HeatSrc Step Setters Perf DataModel Spec SpecDist.
From Verif Require Import RList FrameProofs SimFrame ControlProofs DistFacts PerfFacts StepEnergy SeqProofs DataModelFacts Example.
From Verif Require Import RoundTripFacts.
Import ListNotations.
Local Open Scope R_scope.

(** An integrated unit that is written can be read into any simulator.  Writing leaves the simulator as
    it was.  The unit read has the same heat sources in the same order under the same names, with the same
    associations and primary source, and the same setpoint, tank and compressor. *)
Theorem C84_integrated : forall itp junk (u u0 : usim R), integratedUnit u -> exists d v,
  simTo u (u_w u) = (Ok d, u_w u) /\ simFrom itp junk d u0 = Ok v /\
  Forall2 sameSource (w_hs (u_w u)) (w_hs (u_w v)) /\ u_names v = u_names u /\
  w_setpoint (u_w v) = w_setpoint (u_w u) /\ w_doDepress (u_w v) = w_doDepress (u_w u) /\
  numNodes (w_tank (u_w v)) = numNodes (w_tank (u_w u)) /\ t_volume (w_tank (u_w v)) = t_volume (w_tank (u_w u)) /\
  t_UA (w_tank (u_w v)) = t_UA (w_tank (u_w u)) /\ t_fixed (w_tank (u_w v)) = t_fixed (w_tank (u_w u)) /\
  ((0 <= w_compIx (u_w u))%Z -> w_compIx (u_w v) = w_compIx (u_w u) /\ u_cop v = u_cop u).
Proof. exact C84_integrated_fact. Qed.
Print Assumptions C84_integrated.

Example C84_example : forall itp junk u0, integratedUnit (exSim [20; 30; 40]) /\ exists d v, simTo (exSim [20; 30; 40]) (exUnit [20; 30; 40]) = (Ok d, exUnit [20; 30; 40]) /\
  simFrom itp junk d u0 = Ok v /\ map (@h_vip R) (w_hs (u_w v)) = [true; false; false] /\ map (@h_backup R) (w_hs (u_w v)) = [None; None; Some 1%nat].
Proof. exact C84_example_fact. Qed.

(** With an interpolator that returns the tabulated values at grid points, the unit read has, at every
    point of the written grid and at any setpoint, the input power and capacity the written one had at its
    setpoint.  The grid spans the operating range; of a unit with a grid of its own it holds every point
    within the operating range. *)
Theorem C85_grid_points : forall itp junk (u u0 : usim R) d v, integratedUnit u -> exact2 itp ->
  simTo u (u_w u) = (Ok d, u_w u) -> simFrom itp junk d u0 = Ok v ->
  forall i h g h', nth_error (w_hs (u_w u)) i = Some h -> nth_error (u_rgi u) i = Some g -> h_type h = TCompressor -> nth_error (w_hs (u_w v)) i = Some h' ->
  exists env src, StronglySorted Rlt env /\ StronglySorted Rlt src /\ hd 0 env = h_minT h /\ last env 0 = h_maxT h /\
    match g with Some [a0; a1] => src = a1 /\ (forall e, In e a0 -> h_minT h <= e <= h_maxT h -> In e env) | _ => True end /\
    forall sp e s, In e env -> In s src ->
      p_in (h_eval h' sp e s) = p_in (h_eval h (w_setpoint (u_w u)) e s) /\ p_out (h_eval h' sp e s) = p_out (h_eval h (w_setpoint (u_w u)) e s) /\
      p_cop (h_eval h' sp e s) = p_out (h_eval h (w_setpoint (u_w u)) e s) / p_in (h_eval h (w_setpoint (u_w u)) e s).
Proof. exact C85_grid_points_fact. Qed.
Print Assumptions C85_grid_points.

Example C85_example : exact2 lookupItp /\ integratedUnit (exSim [20; 30]).
Proof. exact C85_example_fact. Qed.

(** The defrost derating of an integrated unit is not written: no compressor read back has it. *)
Theorem C85_defrost_lost : forall itp junk (u u0 : usim R) d v, integratedUnit u ->
  simTo u (u_w u) = (Ok d, u_w u) -> simFrom itp junk d u0 = Ok v ->
  forall i h h', nth_error (w_hs (u_w u)) i = Some h -> h_type h = TCompressor -> nth_error (w_hs (u_w v)) i = Some h' -> h_doDefrost h' = false.
Proof. exact C85_defrost_lost_fact. Qed.
Print Assumptions C85_defrost_lost.

(** So the natural claim, that a unit with a defrost derating keeps it, is false. *)
Theorem C85_defrost_refuted : exists (u : usim R) i h, integratedUnit u /\ nth_error (w_hs (u_w u)) i = Some h /\ h_type h = TCompressor /\ h_doDefrost h = true /\
  forall itp junk u0, exists d v h', simTo u (u_w u) = (Ok d, u_w u) /\ simFrom itp junk d u0 = Ok v /\ nth_error (w_hs (u_w v)) i = Some h' /\ h_doDefrost h' = false.
Proof. exact C85_defrost_refuted_fact. Qed.
Print Assumptions C85_defrost_refuted.
