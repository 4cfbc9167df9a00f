(** Properties of runs of several steps.  Statements only; proofs in RunsFacts.v. *)

From Coq Require Import ZArith List Bool Reals Lra Lia Floats.
From Verif Require Import Num FNum Base Units Utils Types TankM Logic HeatSrc Step Spec RList.
From Verif Require Import FrameProofs SimFrame ControlProofs SeqProofs Example.
From Verif Require Import RunsFacts.
Import ListNotations.
Local Open Scope R_scope.

(** C23: a successful run of N steps consists of N successful steps through states [ws]; run times and
    energies it reports are the sums over the steps, everything else is as after the last step. *)
Theorem C23_sums : forall fuel rows (w w' : hpwh R),
  runNSteps fuel rows w = (Ok tt, w') ->
  exists ws wl, runs fuel rows w ws wl /\
    w_envE w' = Rsum (map w_envE ws) /\ w_stbyE w' = Rsum (map w_stbyE ws) /\
    length (w_hs w') = length (w_hs w) /\
    (forall i h', nth_error (w_hs w') i = Some h' ->
       h_runtime h' = Rsum (map (field h_runtime i) ws) /\
       h_eIn h' = Rsum (map (field h_eIn i) ws) /\
       h_eOut h' = Rsum (map (field h_eOut i) ws) /\
       exists h, nth_error (w_hs wl) i = Some h /\
         h' = set_h_eOut (h_eOut h') (set_h_eIn (h_eIn h') (set_h_runtime (h_runtime h') h))) /\
    w' = set_w_hs (w_hs w') (set_w_tank (set_t_outletT (t_outletT (w_tank w')) (w_tank wl))
           (set_w_stbyE (w_stbyE w') (set_w_envE (w_envE w') wl))).
Proof. exact C23_sums_fact. Qed.
Print Assumptions C23_sums.

(** C24: the outlet temperature of the run is the draw-weighted mean of the steps' outlet temperatures. *)
Theorem C24_outlet_mean : forall fuel rows (w w' : hpwh R),
  runNSteps fuel rows w = (Ok tt, w') ->
  exists ws wl, runs fuel rows w ws wl /\
    t_outletT (w_tank w') * Rsum (map r_draw rows) =
      Rsum (map (fun '(v, r) => t_outletT (w_tank v) * r_draw r) (combine ws rows)) /\
    Rsum (map r_draw rows) <> 0.
Proof. exact C24_outlet_mean_fact. Qed.
Print Assumptions C24_outlet_mean.

(** C23, C24: a run of successful steps with a non-zero total draw always succeeds. *)
Theorem C24_succeeds : forall fuel rows (w : hpwh R) ws wl,
  runs fuel rows w ws wl -> Rsum (map r_draw rows) <> 0 -> exists w', runNSteps fuel rows w = (Ok tt, w').
Proof. exact C24_succeeds_fact. Qed.
Print Assumptions C24_succeeds.

(** the run of the example unit succeeds and the compressor runs in both steps *)
Example C23_example : exists w', runNSteps (T:=float) 100 (exRows float FNum) (exUnit (map fofZ [20; 30; 45; 50]%Z)) = (Ok tt, w') /\
  map h_runtime (w_hs w') = map fofZ [0; 0; 2]%Z.
Proof. exact C23_example_fact. Qed.

(** C24: a step without draw reports outlet temperature zero ... *)
Theorem C24_no_draw_step : forall (T : Type) (N : Num T) fuel (x : stepIn (T:=T)) (w w' : hpwh T),
  nltb (nofZ 0) (i_draw x) = false -> runOneStep fuel x w = (Ok tt, w') -> t_outletT (w_tank w') = nofZ 0.
Proof. exact C24_no_draw_step_fact. Qed.
Print Assumptions C24_no_draw_step.

(** ... but a run of steps without draw reports a NaN (floating point). *)
Theorem C24_no_draw_run : forall fuel rows (w w' : hpwh float),
  Forall (fun r => r_draw r = 0%float) rows -> runNSteps fuel rows w = (Ok tt, w') ->
  is_nan (t_outletT (w_tank w')) = true.
Proof. exact C24_no_draw_run_fact. Qed.
Print Assumptions C24_no_draw_run.

Example C24_nan_example : exists w', runNSteps (T:=float) 100 [mkrow (fofZ 10) 0%float (fofZ 20) (fofZ 20) 0%Z] (exUnit (map fofZ [20; 30; 45; 50]%Z)) = (Ok tt, w').
Proof. exact C24_nan_example_fact. Qed.
