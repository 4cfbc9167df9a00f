(** Properties of the configuration check.  Statements only; proofs in ConfigFacts.v. *)

From Coq Require Import ZArith String List Bool Reals Lra Lia Floats Sorting.Sorted.
From Verif Require Import Num FNum Base Units Utils Types TankM Logic HeatSrc Step Setters Config Spec SpecState SpecDist SpecStep.
From Verif Require Import RList FrameProofs SimFrame MixProofs DistProofs TankFacts ControlProofs EnergyFacts SettersFacts SourcesFacts Example.
From Verif Require Import ConfigFacts.
Import ListNotations.
Local Open Scope R_scope.

(** the check accepts a model exactly if the model is acceptable *)
Theorem C59_accepts_iff : forall w : hpwh R, checkInputs w = Ok tt <-> acceptable w.
Proof. exact C59_accepts_iff_fact. Qed.
Print Assumptions C59_accepts_iff.

(** after the indices have been derived the check either accepts or raises an error: it never goes out of range, and the
    error raised is one of the complaints or that of the sizing query *)
Theorem C59_rejects : forall w : hpwh R, let d := calcDerivedValues w in ~ acceptable d -> exists e, checkInputs d = Err e.
Proof. exact C59_rejects_fact. Qed.
Print Assumptions C59_rejects.

(** a model under state-of-charge control that has a compressor is never accepted *)
Theorem C59_soc_rejected : forall w : hpwh R, w_usesSoC w = true -> (0 <= w_compIx w)%Z -> checkInputs w = Err "Current model uses SOC control logic".
Proof. exact C59_soc_rejected_fact. Qed.
Print Assumptions C59_soc_rejected.

(** a configured model is acceptable, its tank is at the setpoint throughout, and it is heating exactly if a source is on *)
Theorem C59_configured : forall p (w w' : hpwh R), configure p w = (Ok tt, w') ->
  acceptable w' /\ Forall (fun t => t = w_setpoint w') (t_Ts (w_tank w')) /\ length (t_Ts (w_tank w')) = length (t_Ts (w_tank w)) /\
  w_setpoint w' = w_setpoint w /\ (w_heating w' = true <-> exists h, In h (w_hs w') /\ h_on h = true) /\ calcDerivedValues w' = w'.
Proof. exact C59_configured_fact. Qed.
Print Assumptions C59_configured.

(** a rejected model keeps the temperatures of its tank and its setpoint *)
Theorem C59_rejected_keeps : forall p (w w' : hpwh R) e, configure p w = (Err e, w') -> t_Ts (w_tank w') = t_Ts (w_tank w) /\ w_setpoint w' = w_setpoint w.
Proof. exact C59_rejected_keeps_fact. Qed.
Print Assumptions C59_rejected_keeps.

(** configuring a model that is already configured succeeds and changes nothing (presets without adjustments) *)
Theorem C59_idempotent : forall (w w' : hpwh R), configure POther w = (Ok tt, w') -> configure POther w' = (Ok tt, w').
Proof. exact C59_idempotent_fact. Qed.
Print Assumptions C59_idempotent.

Theorem C59_ready : forall (w : hpwh R) air D, let d := calcDerivedValues w in acceptable d ->
  Forall (leftToUser (w_haveInletT d) (w_setpoint d) air D (length (w_hs d))) (w_hs d) -> (w_usesSoC d = true -> (0 <= w_compIx d)%Z) -> unitReady air D d.
Proof. exact C59_ready_fact. Qed.
Print Assumptions C59_ready.

Theorem C59_accepted_runs_refuted :
  (exists w' w'' e, configure POther exSoCElement = (Ok tt, w') /\ runOneStep 100 (exIn (fofZ 0) (fofZ 20) 0) w' = (Err e, w'')) /\
  (exists w' w'' e, configure POther exNoVolume = (Ok tt, w') /\ runOneStep 100 (exIn (fofZ 0) (fofZ 20) 0) w' = (Err e, w'')) /\
  (exists w' w'', configure POther exNoPower = (Ok tt, w') /\ runOneStep 200 (exIn (fofZ 150) (fofZ 20) 0) w' = (Ok tt, w'') /\ existsb (fun h => isNaN (h_runtime h)) (w_hs w'') = true).
Proof. exact C59_accepted_runs_refuted_fact. Qed.
Print Assumptions C59_accepted_runs_refuted.

(** the hybrid example unit is accepted *)
Example C59_example : forall Ts, length Ts = 4%nat -> acceptable (exUnit (T:=R) Ts) /\
  ~ acceptable (set_w_hs (map (set_h_airflow 0) (w_hs (exUnit (T:=R) Ts))) (exUnit (T:=R) Ts)).
Proof. exact C59_example_fact. Qed.
