(** Properties of the control of the heat sources: demand response, choice, idle steps, lock-outs, depression.  Statements only; proofs in ControlFacts.v. *)

From Coq Require Import ZArith List Bool Reals Lra Lia Floats.
From Verif Require Import Num FNum Base Units Utils Types TankM Logic HeatSrc Step Spec RList.
From Verif Require Import FrameProofs SimFrame ControlProofs ChoiceProofs SeqProofs Example.
From Verif Require Import ControlFacts.
Import ListNotations.
Local Open Scope R_scope.

(** C25: with both lock-outs no source is on after the step, nothing ran, only standby power was used,
    and the tank is exactly what draw and losses make of it; floating point included. *)
Theorem C25_full_lock_out : forall (T : Type) (N : Num T) fuel (x : stepIn (T:=T)) (w w' : hpwh T),
  dr_has DR_LOC (i_dr x) = true -> dr_has DR_LOR (i_dr x) = true ->
  runOneStep fuel x w = (Ok tt, w') ->
  w_heating w' = false /\
  (forall i h, nth_error (w_hs w') i = Some h ->
     h_on h = false /\ h_runtime h = nofZ 0 /\ h_eOut h = nofZ 0 /\
     h_eIn h = match h_type h with
               | TResistance => nofZ 0
               | TCompressor => nadd (nofZ 0) (nmul (h_stbyPwr h) (ndiv (nsub (w_minStep w) (nofZ 0)) min_per_hr))
               end) /\
  (i_extra x = None -> w_doDepress w = false ->
     updateNodes fuel (w_hrStep w) (w_secStep w) (i_draw x) (w_inletT w) (i_amb x) (i_vol2 x) (i_inT2 x)
       (set_t_stby (nofZ 0) (set_t_outletT (nofZ 0) (w_tank w))) = (Ok tt, w_tank w')).
Proof. exact C25_full_lock_out_fact. Qed.
Print Assumptions C25_full_lock_out.

(** the example unit wants heat, and gets none under signal 3 *)
Example C25_example : exists w', runOneStep (T:=float) 100 (exIn (fofZ 5) (fofZ 20) 3) (exUnit (map fofZ [20; 30; 45; 50]%Z)) = (Ok tt, w') /\
  match nth_error (w_hs w') 2 with Some h => shouldHeat w' h = Ok true | None => False end.
Proof. exact C25_example_fact. Qed.

(** C25 at the reals: a compressor's input is its standby power times the step. *)
Theorem C25_compressor_standby_only : forall fuel (x : stepIn (T:=R)) (w w' : hpwh R),
  dr_has DR_LOC (i_dr x) = true -> runOneStep fuel x w = (Ok tt, w') ->
  forall i h, nth_error (w_hs w') i = Some h -> h_type h = TCompressor ->
    h_eIn h = h_stbyPwr h * w_minStep w / 60.
Proof. exact C25_compressor_standby_only_fact. Qed.
Print Assumptions C25_compressor_standby_only.

Example C25_standby_example : exists w',
  runOneStep (T:=float) 100 (exIn (fofZ 5) (fofZ 20) 3) (exUnit (map fofZ [20; 30; 45; 50]%Z)) = (Ok tt, w') /\
  match nth_error (w_hs w') 2 with Some h => PrimFloat.ltb PrimFloat.zero (h_eIn h) = true | None => False end.
Proof. exact C25_standby_example_fact. Qed.

(** C26: under the compressor lock-out no compressor runs or delivers energy. *)
Theorem C26_compressor_lock_out : forall (T : Type) (N : Num T) fuel (x : stepIn (T:=T)) (w w' : hpwh T),
  dr_has DR_LOC (i_dr x) = true -> runOneStep fuel x w = (Ok tt, w') ->
  forall i h, nth_error (w_hs w') i = Some h -> h_type h = TCompressor ->
    h_runtime h = nofZ 0 /\ h_eOut h = nofZ 0.
Proof. exact C26_compressor_lock_out_fact. Qed.
Print Assumptions C26_compressor_lock_out.

(** here the locked-out compressor is chosen and its backup element heats in its place *)
Example C26_example : exists w', runOneStep (T:=float) 100 (exIn (fofZ 5) (fofZ 20) 1) (exUnit (map fofZ [20; 30; 45; 50]%Z)) = (Ok tt, w') /\
  map (fun h => PrimFloat.ltb PrimFloat.zero (h_eOut h)) (w_hs w') = [false; true; false] /\ map h_on (w_hs w') = [false; false; true].
Proof. exact C26_example_fact. Qed.

(** C27: under the resistance lock-out no element runs or uses energy. *)
Theorem C27_resistance_lock_out : forall (T : Type) (N : Num T) fuel (x : stepIn (T:=T)) (w w' : hpwh T),
  dr_has DR_LOR (i_dr x) = true -> runOneStep fuel x w = (Ok tt, w') ->
  forall i h, nth_error (w_hs w') i = Some h -> h_type h = TResistance ->
    h_runtime h = nofZ 0 /\ h_eOut h = nofZ 0 /\ h_eIn h = nofZ 0.
Proof. exact C27_resistance_lock_out_fact. Qed.
Print Assumptions C27_resistance_lock_out.

(** only the compressor runs *)
Example C27_example : exists w', runOneStep (T:=float) 100 (exIn (fofZ 5) (fofZ 20) 2) (exUnit (map fofZ [20; 30; 45; 50]%Z)) = (Ok tt, w') /\
  map (fun h => PrimFloat.ltb PrimFloat.zero (h_eOut h)) (w_hs w') = [false; false; true].
Proof. exact C27_example_fact. Qed.

(** C27, finding: "under the resistance lock-out the compressor heats whenever it should" is false.
    A VIP element that wants to heat is chosen first, is then switched off by the lock-out, and the
    compressor, neither locked nor out of range, does not take over. *)
Theorem C27_compressor_takes_over_refuted :
  exists (w w' : hpwh float) (x : stepIn (T:=float)) h,
    dr_has DR_LOR (i_dr x) = true /\ dr_has DR_LOC (i_dr x) = false /\ runOneStep 100 x w = (Ok tt, w') /\ nth_error (w_hs w') 2 = Some h /\ h_type h = TCompressor /\ h_locked h = false /\ shouldHeat w' h = Ok true /\ h_on h = false /\ h_runtime h = fofZ 0 /\ w_heating w' = false.
Proof. exact C27_compressor_takes_over_refuted_fact. Qed.
Print Assumptions C27_compressor_takes_over_refuted.

(** C28: without a top-off bit the timer is zero after the step. *)
Theorem C28_timer_zero_without_top_off : forall (T : Type) (N : Num T) fuel (x : stepIn (T:=T)) (w w' : hpwh T),
  dr_has DR_TOO (i_dr x) = false -> dr_has DR_TOT (i_dr x) = false ->
  runOneStep fuel x w = (Ok tt, w') -> w_timer w' = nofZ 0.
Proof. exact C28_timer_zero_without_top_off_fact. Qed.
Print Assumptions C28_timer_zero_without_top_off.

(** C28: with the timed top-off bit the timer ends each step below its limit. *)
Theorem C28_timer_below_limit : forall fuel (x : stepIn (T:=R)) (w w' : hpwh R),
  dr_has DR_TOT (i_dr x) = true -> 0 < w_timerLimit w ->
  runOneStep fuel x w = (Ok tt, w') ->
  w_timer w' < w_timerLimit w' /\
  (w_timer w' = w_timer w + w_minStep w \/ (w_timer w' = 0 /\ w_timerLimit w <= w_timer w + w_minStep w)).
Proof. exact C28_timer_below_limit_fact. Qed.
Print Assumptions C28_timer_below_limit.

(** C28: top-off-once held over a whole run: the timer counts the time since the start. *)
Theorem C28_timer_counts : forall fuel rows (w : hpwh R) ws w',
  runs fuel rows w ws w' ->
  Forall (fun r => dr_has DR_TOO (r_dr r) = true /\ dr_has DR_TOT (r_dr r) = false) rows ->
  w_timer w' = w_timer w + INR (length rows) * w_minStep w /\ w_minStep w' = w_minStep w.
Proof. exact C28_timer_counts_fact. Qed.
Print Assumptions C28_timer_counts.

(** C28: while the timer runs the top-off bits have no effect beyond the timer itself. *)
Theorem C28_no_second_top_off : forall (T : Type) (N : Num T) fuel (x : stepIn (T:=T)) dr' (w w' : hpwh T),
  neqb (w_timer w) (nofZ 0) = false ->
  dr_has DR_LOC dr' = dr_has DR_LOC (i_dr x) -> dr_has DR_LOR dr' = dr_has DR_LOR (i_dr x) ->
  dr_has DR_TOO dr' = false -> dr_has DR_TOT dr' = false ->
  runOneStep fuel x w = (Ok tt, w') ->
  exists v', runOneStep fuel (mkin (i_draw x) (i_amb x) (i_ext x) dr' (i_vol2 x) (i_inT2 x) (i_extra x)) w = (Ok tt, v') /\
    w' = set_w_timer (w_timer w') (set_w_prevDR (w_prevDR w') v').
Proof. exact C28_no_second_top_off_fact. Qed.
Print Assumptions C28_no_second_top_off.

Example C28_example : exists w1 w2,
  runs (T:=float) 100 [mkrow (fofZ 10) (fofZ 5) (fofZ 20) (fofZ 20) 4; mkrow (fofZ 10) (fofZ 5) (fofZ 20) (fofZ 20) 4]%Z
    (exUnit (map fofZ [51; 52; 53; 54]%Z)) [w1; w2] w2 /\
  map h_on (w_hs w1) = [false; true; true] /\ w_timer w2 = fofZ 2.
Proof. exact C28_example_fact. Qed.

(** C51: a source that should heat does not shut off, and the bottom of the tank is below setpoint. *)
Theorem C51_should_heat_means_not_shut_off : forall (T : Type) (N : Num T) (w : hpwh T) h,
  shouldHeat w h = Ok true ->
  shutsOff w h = Ok false /\ (exists b r, t_Ts (w_tank w) = b :: r /\ nleb (w_setpoint w) b = false).
Proof. exact C51_should_heat_means_not_shut_off_fact. Qed.
Print Assumptions C51_should_heat_means_not_shut_off.

(** a tank whose bottom node is at setpoint does not start heating *)
Theorem C51_hot_tank_does_not_start : forall (T : Type) (N : Num T) (w : hpwh T) b r h,
  t_Ts (w_tank w) = b :: r -> nleb (w_setpoint w) b = true ->
  shouldHeat w h <> Ok true /\ shutsOff w h = Ok true.
Proof. exact C51_hot_tank_does_not_start_fact. Qed.
Print Assumptions C51_hot_tank_does_not_start.

Example C51_example :
  match nth_error (w_hs (exUnit (T:=float) (map fofZ [20; 30; 45; 50]%Z))) 2 with
  | Some h => shouldHeat (exUnit (map fofZ [20; 30; 45; 50]%Z)) h = Ok true /\
              shutsOff (exUnit (map fofZ [55; 55; 56; 57]%Z)) h = Ok true
  | None => False end.
Proof. exact C51_example_fact. Qed.

(** C52: if nothing is on, nothing should heat after the draw, and no top-off is forced, the step adds no heat. *)
Theorem C52_idle_stays_idle : forall (T : Type) (N : Num T) fuel (x : stepIn (T:=T)) (w w1 w' : hpwh T) amb,
  preControl fuel x w w1 amb ->
  Forall (fun h => h_on h = false) (w_hs w) -> w_heating w = false ->
  ((dr_has DR_TOO (i_dr x) || dr_has DR_TOT (i_dr x)) && neqb (w_timer w) (nofZ 0))%bool = false ->
  Forall (fun h => shouldHeat w1 h = Ok false) (w_hs w1) ->
  runOneStep fuel x w = (Ok tt, w') ->
  w_heating w' = false /\ (i_extra x = None -> w_tank w' = w_tank w1) /\
  Forall2 (fun h h' => h_on h' = false /\ h_runtime h' = nofZ 0 /\ h_eOut h' = nofZ 0 /\
      h_eIn h' = match h_type h with
                 | TResistance => nofZ 0
                 | TCompressor => nadd (nofZ 0) (nmul (h_stbyPwr h) (ndiv (nsub (w_minStep w) (nofZ 0)) min_per_hr))
                 end) (w_hs w) (w_hs w').
Proof. exact C52_idle_stays_idle_fact. Qed.
Print Assumptions C52_idle_stays_idle.

Example C52_example : exists w', runOneStep (T:=float) 100 (exIn (fofZ 1) (fofZ 20) 0) (exUnit (map fofZ [52; 53; 54; 55]%Z)) = (Ok tt, w') /\
  map h_on (w_hs w') = [false; false; false] /\ map h_runtime (w_hs w') = [fofZ 0; fofZ 0; fofZ 0].
Proof. exact C52_example_fact. Qed.

(** C53: outside the range (by the margin) the compressor is locked, inside it (by the margin) it is
    unlocked, in between the lock is kept; a maxed-out compressor is always locked. *)
Theorem C53_lock_decision : forall i amb (w w' : hpwh R) h m b,
  nth_error (w_hs w) i = Some h -> h_type h = TCompressor -> 0 <= h_hyst h -> maxedOut w h = Ok m ->
  toLockOrUnlock i amb w = (Ok b, w') ->
  (exists h', nth_error (w_hs w') i = Some h' /\ h' = set_h_locked b h) /\
  (m = true -> b = true) /\
  (amb < h_minT h - lockMargin h - tolT \/ h_maxT h + lockMargin h + tolT < amb -> b = true) /\
  (m = false -> h_minT h + lockMargin h + tolT < amb -> amb < h_maxT h - lockMargin h - tolT -> b = false) /\
  (m = false -> h_minT h - lockMargin h - tolT <= amb <= h_maxT h + lockMargin h + tolT ->
     amb <= h_minT h + lockMargin h + tolT \/ h_maxT h - lockMargin h - tolT <= amb -> b = h_locked h).
Proof. exact C53_lock_decision_fact. Qed.
Print Assumptions C53_lock_decision.

(** C53: at a constant air temperature the lock changes at most once, whatever else happens to the
    on flag, the tank and the unit in between (as long as the compressor is not maxed out). *)
Theorem C53_no_oscillation : forall i j amb (w v w' v' : hpwh R) h g b c,
  nth_error (w_hs w) i = Some h -> h_type h = TCompressor -> 0 <= h_hyst h -> maxedOut w h = Ok false ->
  toLockOrUnlock i amb w = (Ok b, w') -> b <> h_locked h ->
  nth_error (w_hs v) j = Some g -> h_type g = TCompressor -> maxedOut v g = Ok false ->
  h_minT g = h_minT h -> h_maxT g = h_maxT h -> h_hyst g = h_hyst h -> h_locked g = b ->
  toLockOrUnlock j amb v = (Ok c, v') -> c = b.
Proof. exact C53_no_oscillation_fact. Qed.
Print Assumptions C53_no_oscillation.

Example C53_example : let u := exUnit (T:=R) [20; 30; 45; 50] in
  exists h, nth_error (w_hs u) 2 = Some h /\ h_type h = TCompressor /\ 0 <= h_hyst h /\ maxedOut u h = Ok false.
Proof. exact C53_example_fact. Qed.

(** the lock of the example unit closes at 0 degrees and keeps closed at 2.5 when on *)
Example C53_run : exists w1 w2,
  toLockOrUnlock (T:=float) 2 (fofZ 0) (exUnit (map fofZ [20; 30; 45; 50]%Z)) = (Ok true, w1) /\
  toLockOrUnlock 2 (fofZ 3) w1 = (Ok false, w2).
Proof. exact C53_run_fact. Qed.

(** C54: each minute the gap to the goal shrinks by the same factor, without overshoot. *)
Theorem C54_depression_step : forall fuel (x : stepIn (T:=R)) (w w' : hpwh R),
  w_doDepress w = true -> runOneStep fuel x w = (Ok tt, w') ->
  let before := if Req_EM_T (w_locT w) UNINITIALIZED_LOCATIONTEMP then i_amb x else w_locT w in
  let goal := depGoal (i_amb x) w' in
  w_locT w' - goal = 9289 / 10000 * (before - goal) /\
  Rmin before goal <= w_locT w' <= Rmax before goal /\
  w_doDepress w' = true /\ w_maxDep w' = w_maxDep w.
Proof. exact C54_depression_step_fact. Qed.
Print Assumptions C54_depression_step.

(** C54: over any run the location stays in any band that contains its start, the ambient
    temperatures and the ambient temperatures less the depression. *)
Theorem C54_depression_bounded : forall fuel rows (w : hpwh R) ws w' lo hi,
  runs fuel rows w ws w' -> w_doDepress w = true -> 0 <= w_maxDep w ->
  lo <= w_locT w <= hi -> Forall (fun r => lo + w_maxDep w <= r_amb r <= hi) rows ->
  Forall (fun v => lo <= w_locT v <= hi) ws /\ lo <= w_locT w' <= hi.
Proof. exact C54_depression_bounded_fact. Qed.
Print Assumptions C54_depression_bounded.

(** C54: under constant conditions the gap to the goal is a geometric sequence. *)
Theorem C54_depression_converges : forall fuel rows (w : hpwh R) ws w' amb goal,
  runs fuel rows w ws w' -> w_doDepress w = true ->
  UNINITIALIZED_LOCATIONTEMP < w_locT w -> UNINITIALIZED_LOCATIONTEMP < goal ->
  Forall (fun r => r_amb r = amb) rows -> Forall (fun v => depGoal amb v = goal) ws ->
  w_locT w' - goal = (9289 / 10000) ^ length rows * (w_locT w - goal).
Proof. exact C54_depression_converges_fact. Qed.
Print Assumptions C54_depression_converges.

Example C54_example : exists w1,
  runs (T:=float) 100 [mkrow (fofZ 10) (fofZ 5) (fofZ 20) (fofZ 20) 0]%Z (exDep float FNum (map fofZ [20; 30; 45; 50]%Z)) [w1] w1 /\
  w_doDepress (exDep float FNum (map fofZ [20; 30; 45; 50]%Z)) = true /\
  PrimFloat.ltb (w_locT w1) (fofZ 20) = true.
Proof. exact C54_example_fact. Qed.

(** C55: energy removed from the environment is output minus input, summed over the sources. *)
Theorem C55_energy_removed_from_environment : forall fuel (x : stepIn (T:=R)) (w w' : hpwh R),
  runOneStep fuel x w = (Ok tt, w') ->
  w_envE w' = Rsum (map (fun h => h_eOut h - h_eIn h) (w_hs w')) /\
  KWH_TO_KJ (w_stbyE w') = t_stby (w_tank w').
Proof. exact C55_energy_removed_from_environment_fact. Qed.
Print Assumptions C55_energy_removed_from_environment.

Example C55_example : exists w', runOneStep (T:=float) 100 (exIn (fofZ 5) (fofZ 20) 0) (exUnit (map fofZ [20; 30; 45; 50]%Z)) = (Ok tt, w') /\
  PrimFloat.ltb PrimFloat.zero (w_envE w') = true.
Proof. exact C55_example_fact. Qed.

(** C71: first come, first served: with nothing on and no VIP, exactly the first source that should
    heat is switched on, and nothing else changes. *)
Theorem C71_first_come : forall (T : Type) (N : Num T) dr i (w : hpwh T) h,
  Forall (fun h => h_on h = false) (w_hs w) -> w_heating w = false -> Forall (fun h => h_vip h = false) (w_hs w) ->
  nth_error (w_hs w) i = Some h -> h_companion h = None -> shouldHeat w h = Ok true ->
  (forall j hj, (j < i)%nat -> nth_error (w_hs w) j = Some hj -> shouldHeat w hj = Ok false) ->
  exists w', chooseLoop dr w = (Ok tt, w') /\ w_heating w' = true /\ onlyOn i w' /\
    w' = set_w_heating true (set_w_hs (w_hs w') w) /\
    Forall2 (fun h h' => h' = set_h_on (h_on h') h) (w_hs w) (w_hs w').
Proof. exact C71_first_come_fact. Qed.
Print Assumptions C71_first_come.

(** C71: the only VIP source that should heat takes over from whatever was on. *)
Theorem C71_vip_takes_over : forall (T : Type) (N : Num T) dr i (w w' : hpwh T) h,
  w_heating w = true \/ Forall (fun h => h_on h = false) (w_hs w) ->
  nth_error (w_hs w) i = Some h -> h_vip h = true -> h_companion h = None ->
  (forall j hj, j <> i -> nth_error (w_hs w) j = Some hj -> h_vip hj = false) ->
  shouldHeat w h = Ok true -> shouldDRLockOut (h_type h) dr = false ->
  chooseLoop dr w = (Ok tt, w') -> w_heating w' = true /\ onlyOn i w'.
Proof. exact C71_vip_takes_over_fact. Qed.
Print Assumptions C71_vip_takes_over.

Example C71_example : let u := exUnit (T:=float) (map fofZ [20; 20; 20; 25]%Z) in
  exists h w', nth_error (w_hs u) 0 = Some h /\ h_vip h = true /\ shouldHeat u h = Ok true /\
    chooseLoop 0 u = (Ok tt, w') /\ map h_on (w_hs w') = [true; false; false].
Proof. exact C71_example_fact. Qed.

Example C71_first_example : let u := set_w_hs (map (set_h_vip false) exSources) (exUnit (T:=float) (map fofZ [20; 30; 45; 50]%Z)) in
  map (shouldHeat u) (w_hs u) = [Ok false; Ok false; Ok true] /\
  exists w', chooseLoop 0 u = (Ok tt, w') /\ map h_on (w_hs w') = [false; false; true].
Proof. exact C71_first_example_fact. Qed.
