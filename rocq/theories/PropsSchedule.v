(** Schedules of the command "hpwh run": what the minutes of a schedule hold..  Statements only; proofs in ScheduleFacts.v. *)

From Coq Require Import Reals Lra Lia ZArith String List Bool.
From Verif Require Import Num Base RList Units Types Utils Spec TankM Logic HeatSrc Step Setters Rating Report Cli FNum Example.
From Verif Require Import ScheduleFacts.
Import ListNotations.
Local Open Scope R_scope.
Local Open Scope monad_scope.

(** C96: a schedule file whose entries are all for minutes of the simulation is read, and every minute gets the value of the last entry for it, or
    the default. *)
Theorem C96_schedule : forall h (d : R) n es, Forall (fun e => fits h n (fst e)) es ->
  exists s, readSchedule (Some (mksched (Some d) (Some h) es)) n = Ok (true, s) /\ isSchedule h d n es s.
Proof. exact C96_schedule_fact. Qed.
Print Assumptions C96_schedule.

(** A file that does not exist or does not begin with the default is an error; one without a line on the unit of time is all default. *)
Theorem C96_other_files : forall (d : R) f h es n, readSchedule None n = Ok (false, @nil R) /\ readSchedule (Some (mksched None h es)) n = Ok (false, @nil R) /\
  (sf_default f = Some d -> sf_hours f = None -> exists s, readSchedule (Some f) n = Ok (true, s) /\ isSchedule true d n [] s).
Proof. exact C96_other_files_fact. Qed.
Print Assumptions C96_other_files.

(** An entry whose number is at least the number of minutes is an error, and the entries before it stay: the setpoint and state-of-charge schedules,
    for which the error is ignored, are used like this. *)
Theorem C96_too_late : forall h (d : R) n es1 m v es2, Forall (fun e => fits h n (fst e)) es1 -> (Z.of_nat n <= m)%Z ->
  exists s, readSchedule (Some (mksched (Some d) (Some h) (es1 ++ (m, v) :: es2))) n = Ok (false, s) /\ isSchedule h d n es1 s /\
    forall w : hpwh R, (exists e, needSchedule (Some (mksched (Some d) (Some h) (es1 ++ (m, v) :: es2))) n w = (Err e, w)) /\
                       maySchedule (Some (mksched (Some d) (Some h) (es1 ++ (m, v) :: es2))) n w = (Ok s, w).
Proof. exact C96_too_late_fact. Qed.
Print Assumptions C96_too_late.

(** The number of an hour is compared with the number of minutes: the natural claim that every file is read or rejected fails for all the hours after
    the end of the simulation but before that limit, and for negative numbers; values are written outside the array. *)
Theorem C96_rejects_refuted : forall h (d : R) n es1 m v es2, Forall (fun e => fits h n (fst e)) es1 ->
  (m < 0 \/ h = true /\ Z.of_nat n < 60 * m + 60 /\ m < Z.of_nat n)%Z ->
  exists e, readSchedule (Some (mksched (Some d) (Some h) (es1 ++ (m, v) :: es2))) n = UB e.
Proof. exact C96_rejects_refuted_fact. Qed.
Print Assumptions C96_rejects_refuted.

Example C96_example : (exists s, readSchedule (Some (mksched (Some 10%R) (Some true) [(0%Z, 20); (0%Z, 30)])) 120 = Ok (true, s) /\ nth_error s 59 = Some 30 /\ nth_error s 60 = Some 10) /\
  (exists e, readSchedule (Some (mksched (Some 10%R) (Some true) [(0%Z, 20); (2%Z, 30)])) 120 = UB e).
Proof. exact C96_example_fact. Qed.
