(** Properties of central systems written to the data model and read back, and of names in the data model.  Statements only; proofs in CentralFacts.v. *)

From Coq Require Import ZArith String List Bool Reals Lra Lia Floats Sorted.
From Verif Require Import Num FNum Base Units Utils Types TankM Logic HeatSrc Step Setters Perf DataModel Spec SpecDist.
From Verif Require Import RList FrameProofs SimFrame ControlProofs DistFacts PerfFacts StepEnergy SeqProofs DataModelFacts RoundTripFacts Example.
From Verif Require Import CentralFacts.
Import ListNotations.
Local Open Scope R_scope.

(** Whatever the unit and whatever the outcome, writing changes nothing but the setpoint. *)
Theorem C86_only_setpoint : forall (T : Type) (N : Num T) (u : usim T) o w', simTo u (u_w u) = (o, w') -> exists sp, w' = set_w_setpoint sp (u_w u).
Proof. exact C86_only_setpoint_fact. Qed.
Print Assumptions C86_only_setpoint.

(** Writing a unit without an external compressor leaves the simulator as it was. *)
Theorem C86_integrated : forall (T : Type) (N : Num T) (u : usim T) o w',
  (forall h, In h (w_hs (u_w u)) -> h_type h = TCompressor -> h_config h <> External) -> simTo u (u_w u) = (o, w') -> w' = u_w u.
Proof. exact C86_integrated_fact. Qed.
Print Assumptions C86_integrated.

(** An external compressor described by functions: a successful writing leaves the simulator as it was. *)
Theorem C86_functions : forall (T : Type) (N : Num T) (u : usim T) d w',
  (forall i h g, nth_error (w_hs (u_w u)) i = Some h -> nth_error (u_rgi u) i = Some g -> h_type h = TCompressor -> h_config h = External -> g = None) ->
  simTo u (u_w u) = (Ok d, w') -> w' = u_w u.
Proof. exact C86_functions_fact. Qed.
Print Assumptions C86_functions.

(** An external compressor described by a grid: a successful writing leaves the simulator with the setpoint of
    the last grid point instead of its own, and the one written is its own. *)
Theorem C86_grid : forall (T : Type) (N : Num T) (u : usim T) i c a0 a1 a2 r d w',
  nth_error (w_hs (u_w u)) i = Some c -> h_type c = TCompressor -> h_config c = External ->
  nth_error (u_rgi u) i = Some (Some (a0 :: a1 :: a2 :: r)) -> a1 <> [] -> a2 <> [] ->
  trimGridVector (a0 ++ [h_minT c; h_maxT c])%list (h_minT c) (h_maxT c) <> [] ->
  (forall j h, nth_error (w_hs (u_w u)) j = Some h -> h_type h = TCompressor -> j = i) ->
  simTo u (u_w u) = (Ok d, w') ->
  w' = set_w_setpoint (nsub (last a2 (nofZ 0)) (h_shxHot c)) (u_w u) /\ du_setpoint d = Some (C_TO_K (w_setpoint (u_w u))).
Proof. exact C86_grid_fact. Qed.
Print Assumptions C86_grid.

Example C86_example : exists d w', simTo (exCentral (T:=float) (map fofZ [20; 30; 40; 50]%Z)) (u_w (exCentral (map fofZ [20; 30; 40; 50]%Z))) = (Ok d, w') /\
  nltb (nofZ 54) (w_setpoint (u_w (exCentral (map fofZ [20; 30; 40; 50]%Z)))) = true /\ nltb (w_setpoint (u_w (exCentral (map fofZ [20; 30; 40; 50]%Z)))) (nofZ 56) = true.
Proof. exact C86_example_fact. Qed.

(** The natural claim, that writing is without effect and gives the same description twice, is false. *)
Theorem C86_refuted : exists (u : usim float) d1 w1 d2 w2 s1 s2,
  simTo u (u_w u) = (Ok d1, w1) /\ neqb (w_setpoint w1) (w_setpoint (u_w u)) = false /\
  simTo (mkusim w1 (u_names u) (u_rgi u) (u_cop u)) w1 = (Ok d2, w2) /\ du_setpoint d1 = Some s1 /\ du_setpoint d2 = Some s2 /\ neqb s1 s2 = false.
Proof. exact C86_refuted_fact. Qed.
Print Assumptions C86_refuted.
