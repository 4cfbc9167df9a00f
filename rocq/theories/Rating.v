(** The standard test procedures: preparation, first-hour rating and the 24-hour test.
    Models /repo/src/HPWH.cc:77-143, 3570-4265 and /repo/src/HPWH.hh:1094-1252.

    The loops "while (!done)" of prepareForTest and findFirstHourRating and the idle loop of
    run24hrTest have no bound in the source; here each takes a number of rounds [k] and yields
    [NoFuel] when they are used up.  The [fuel] argument is that of runOneStep. *)

From Coq Require Import ZArith String List Bool.
From Verif Require Import Num Base Units Types Utils TankM Logic HeatSrc Step Setters.
Import ListNotations.
Local Open Scope string_scope.

(** HPWH.hh:1098-1104 *)
Inductive designation : Set := VerySmall | Low | Medium | High.

Section Rating.
  Context {T : Type} `{Num T}.
  Local Open Scope num_scope.
  Local Open Scope monad_scope.
  Notation W := (hpwh T).

  (** HPWH.hh:1202-1207, HPWH.cc:77-79 *)
  Record testConf : Type := mkconf { tc_amb : T; tc_inlet : T; tc_ext : T }.
  Definition conf_E50 : testConf := mkconf (F_TO_C #50) (F_TO_C #50) (F_TO_C #50).
  Definition conf_UEF : testConf := mkconf (F_TO_C (dec 675 10)) (F_TO_C #58) (F_TO_C (dec 675 10)).
  Definition conf_E95 : testConf := mkconf (F_TO_C #95) (F_TO_C #67) (F_TO_C #95).
  (** HPWH.cc:82 *)
  Definition testSetpoint : T := F_TO_C #125.

  (** HPWH.hh:1230-1244; the times are whole minutes in every pattern *)
  Record draw : Type := mkdraw { d_start : nat; d_vol : T; d_flow : T }.
  (** HPWH.hh HM_TO_MIN *)
  Definition hm (h m : nat) : nat := 60 * h + m.

  (** HPWH.cc:90-143 drawPatterns *)
  Definition pattern (d : designation) : list draw :=
    match d with
    | VerySmall =>
        [mkdraw (hm 0 0) #2 #1; mkdraw (hm 1 0) #1 #1; mkdraw (hm 1 5) (dec 5 10) #1;
         mkdraw (hm 1 10) (dec 5 10) #1; mkdraw (hm 1 15) (dec 5 10) #1; mkdraw (hm 8 0) #1 #1;
         mkdraw (hm 8 15) #2 #1; mkdraw (hm 9 0) (dec 15 10) #1; mkdraw (hm 9 15) #1 #1]
    | Low =>
        [mkdraw (hm 0 0) #15 (dec 17 10); mkdraw (hm 0 30) #2 #1; mkdraw (hm 1 0) #1 #1;
         mkdraw (hm 10 30) #6 (dec 17 10); mkdraw (hm 11 30) #4 (dec 17 10); mkdraw (hm 12 0) #1 #1;
         mkdraw (hm 12 45) #1 #1; mkdraw (hm 12 50) #1 #1; mkdraw (hm 16 15) #2 #1;
         mkdraw (hm 16 45) #2 (dec 17 10); mkdraw (hm 17 0) #3 (dec 17 10)]
    | Medium =>
        [mkdraw (hm 0 0) #15 (dec 17 10); mkdraw (hm 0 30) #2 #1; mkdraw (hm 1 40) #9 (dec 17 10);
         mkdraw (hm 10 30) #9 (dec 17 10); mkdraw (hm 11 30) #5 (dec 17 10); mkdraw (hm 12 0) #1 #1;
         mkdraw (hm 12 45) #1 #1; mkdraw (hm 12 50) #1 #1; mkdraw (hm 16 0) #1 #1;
         mkdraw (hm 16 15) #2 #1; mkdraw (hm 16 45) #2 (dec 17 10); mkdraw (hm 17 0) #7 (dec 17 10)]
    | High =>
        [mkdraw (hm 0 0) #27 #3; mkdraw (hm 0 30) #2 #1; mkdraw (hm 0 40) #1 #1;
         mkdraw (hm 1 40) #9 (dec 17 10); mkdraw (hm 10 30) #15 #3; mkdraw (hm 11 30) #5 (dec 17 10);
         mkdraw (hm 12 0) #1 #1; mkdraw (hm 12 45) #1 #1; mkdraw (hm 12 50) #1 #1;
         mkdraw (hm 16 0) #2 #1; mkdraw (hm 16 15) #2 #1; mkdraw (hm 16 30) #2 (dec 17 10);
         mkdraw (hm 16 45) #2 (dec 17 10); mkdraw (hm 17 0) #14 #3]
    end.

  (** ** Preparation *)

  (** HPWH.cc:3578-3580, 3650-3652 *)
  Definition testFlow (vol : T) : T := if vol <? GAL_TO_L #20 then GAL_TO_L (dec 15 10) else GAL_TO_L #3.
  (** HPWH.cc:3624-3629, 3707-3712: one minute of drawing, at most the tank volume *)
  Definition minuteDraw (flow vol : T) (drawing : bool) : T :=
    let v := if drawing then flow * #1 else #0 in
    if v >? vol then vol else v.
  (** the calls of runOneStep made by the tests *)
  Definition testStep (fuel : nat) (c : testConf) (v : T) (dr : Z) : M W unit :=
    runOneStepInlet fuel (tc_inlet c) (mkin v (tc_amb c) (tc_ext c) dr #0 (tc_inlet c) None).

  (** HPWH.cc:3590-3621: (step, isDrawing, done) *)
  Definition prepAdvance (step : nat) (drawing heating : bool) : nat * bool * bool :=
    match step with
    | O => if heating then (0%nat, drawing, false) else (1%nat, true, false)
    | S O => if heating then (2%nat, false, false) else (1%nat, drawing, false)
    | _ => if heating then (step, drawing, false) else (step, false, true)
    end.
  (** HPWH.cc:3588-3640 *)
  Fixpoint prepLoop (k fuel : nat) (c : testConf) (flow : T) (step : nat) (drawing : bool) : M W unit :=
    match k with
    | O => nofuel
    | S k' =>
        w <- get ;;
        let '(step', drawing', done) := prepAdvance step drawing (w_heating w) in
        testStep fuel c (minuteDraw flow (t_volume (w_tank w)) drawing') DR_ALLOW ;;
        if done then ret tt else prepLoop k' fuel c flow step' drawing'
    end.
  (** HPWH.cc:3575-3641 prepareForTest *)
  Definition prepareForTest (k fuel : nat) (c : testConf) : M W unit :=
    w <- get ;; prepLoop k fuel c (testFlow (t_volume (w_tank w))) 0 false.

  (** HPWH.cc:3658-3670, 3835-3846: DOE setpoint, or the highest available *)
  Definition setTestSetpoint : M W unit :=
    w <- get ;;
    '(ok, mx) <- lift (isNewSetpointPossible testSetpoint U_C w) ;;
    if (ok : bool) then setSetpoint testSetpoint U_C
    else
      '(ok2, mx2) <- lift (isNewSetpointPossible mx U_C w) ;;
      when ok2 (setSetpoint mx2 U_C).

  (** ** First-hour rating *)

  (** local variables of findFirstHourRating *)
  Record fhr : Type := mkfhr {
    f_rating : T;      (* firstHourRating.drawVolume_L *)
    f_vol : T;         (* drawVolume_L *)
    f_sumVT : T;       (* sumOutletVolumeT_LC *)
    f_sumV : T;        (* sumOutletVolume_L *)
    f_prevAvg : T;     (* previousAverageOutletT_C *)
    f_prevMin : T;     (* prevMinOutletT_C *)
    f_maxTank : T;     (* maxTankT_C *)
    f_maxOut : T;      (* maxOutletT_C *)
    f_drawing : bool;
    f_dr : Z;
    f_first : bool;    (* firstDraw *)
    f_step : nat;
    f_time : nat;      (* elapsedTime_min *)
    f_done : bool }.

  (** HPWH.cc:3727-3794, what one round does with the observed outlet, tank temperature and
      isHeating; [inc] is the volume drawn in this round *)
  Definition fhrSwitch (inc outT tankT : T) (heating : bool) (s : fhr) : outc fhr :=
    match f_step s with
    | O =>
        let sumV := f_sumV s + inc in
        let sumVT := f_sumVT s + inc * outT in
        let maxOut := nmax outT (f_maxOut s) in
        if outT <? maxOut - dF_TO_dC #15 then
          obind (div_chk sumVT sumV) (fun avg =>
          if Nat.leb 60 (f_time s) then
            obind (if f_first s then Ok #1 else div_chk (avg - f_prevMin s) (f_prevAvg s - f_prevMin s)) (fun fac =>
            Ok (mkfhr (f_rating s + fac * f_vol s) (f_vol s) sumVT sumV (f_prevAvg s) (f_prevMin s) (f_maxTank s) maxOut
                      (f_drawing s) (f_dr s) (f_first s) 0 (f_time s) true))
          else
            Ok (mkfhr (f_rating s + f_vol s) #0 sumVT sumV avg outT tankT outT
                      false DR_ALLOW (f_first s) 1 (f_time s) false))
        else
          Ok (mkfhr (f_rating s) (f_vol s) sumVT sumV (f_prevAvg s) (f_prevMin s) (f_maxTank s) maxOut
                    (f_drawing s) (f_dr s) (f_first s) 0 (f_time s) false)
    | S O =>
        Ok (mkfhr (f_rating s) (f_vol s) (f_sumVT s) (f_sumV s) (f_prevAvg s) (f_prevMin s) (f_maxTank s) (f_maxOut s)
                  (f_drawing s) (f_dr s) (f_first s) (if heating then 2 else 1) (f_time s) false)
    | _ =>
        if ((tankT >? f_maxTank s) && heating && Nat.ltb (f_time s) 60)%bool then
          Ok (mkfhr (f_rating s) (f_vol s) (f_sumVT s) (f_sumV s) (f_prevAvg s) (f_prevMin s) (nmax tankT (f_maxTank s)) (f_maxOut s)
                    (f_drawing s) (f_dr s) (f_first s) (f_step s) (f_time s) false)
        else
          Ok (mkfhr (f_rating s) #0 (f_sumVT s) (f_sumV s) (f_prevAvg s) (f_prevMin s) (f_maxTank s) (f_maxOut s)
                    true DR_LOC false 0 (f_time s) false)
    end.
  (** HPWH.cc:3796-3797 *)
  Definition fhrTick (inc : T) (s : fhr) : fhr :=
    mkfhr (f_rating s) (f_vol s + inc) (f_sumVT s) (f_sumV s) (f_prevAvg s) (f_prevMin s) (f_maxTank s) (f_maxOut s)
          (f_drawing s) (f_dr s) (f_first s) (f_step s) (S (f_time s)) (f_done s).
  (** HPWH.cc:3703-3798 *)
  Fixpoint fhrLoop (k fuel : nat) (flow : T) (s : fhr) : M W fhr :=
    match k with
    | O => nofuel
    | S k' =>
        w <- get ;;
        let inc := minuteDraw flow (t_volume (w_tank w)) (f_drawing s) in
        testStep fuel conf_UEF inc (f_dr s) ;;
        w' <- get ;;
        s' <- lift (fhrSwitch inc (t_outletT (w_tank w')) (averageT (w_tank w')) (w_heating w') s) ;;
        let s'' := fhrTick inc s' in
        if f_done s'' then ret s'' else fhrLoop k' fuel flow s''
    end.
  (** HPWH.cc:3801-3816 *)
  Definition designate (v : T) : designation :=
    if v <? GAL_TO_L #18 then VerySmall
    else if v <? GAL_TO_L #51 then Low
    else if v <? GAL_TO_L #75 then Medium
    else High.
  (** HPWH.cc:3648-3818 findFirstHourRating: (designation, drawVolume_L) *)
  Definition findFirstHourRating (k fuel : nat) : M W (designation * T) :=
    w <- get ;;
    let flow := testFlow (t_volume (w_tank w)) in
    setTestSetpoint ;;
    w <- get ;;
    let tankT := averageT (w_tank w) in
    prepareForTest k fuel conf_UEF ;;
    s <- fhrLoop k fuel flow (mkfhr #0 #0 #0 #0 #0 #0 tankT #0 true DR_LOC true 0 0 false) ;;
    ret (designate (f_rating s), f_rating s).

  (** ** The 24-hour test *)

  (** HPWH.hh:1118-1131 *)
  Record testData : Type := mkdata {
    td_time : Z; td_amb : T; td_setpoint : T; td_inlet : T; td_draw : T; td_dr : Z;
    td_in : list T;   (* h_srcIn_kWh *)
    td_out : list T;  (* h_srcOut_kWh *)
    td_tc : list T;   (* thermocoupleT_C *)
    td_outlet : T }.

  (** the getters called for one row, HPWH.cc:3881-3894, 4019-4032; they read the state only *)
  Fixpoint omap {A B} (f : A -> outc B) (l : list A) : outc (list B) :=
    match l with
    | [] => Ok []
    | x :: r => obind (f x) (fun y => obind (omap f r) (fun ys => Ok (y :: ys)))
    end.
  Definition record (time : Z) (c : testConf) (v : T) (dr : Z) (outlet : T) (w : W) : outc testData :=
    let ids := map Z.of_nat (seq 0 (numHS w)) in
    obind (omap (fun i => getNthEnergyInput i U_KWH w) ids) (fun ins =>
    obind (omap (fun i => getNthEnergyOutput i U_KWH w) ids) (fun outs =>
    obind (omap (fun i => nthThermocouple i 6 (w_tank w)) [1; 2; 3; 4; 5; 6]%Z) (fun tcs =>
    Ok (mkdata time (tc_amb c) (w_setpoint w) (tc_inlet c) v dr ins outs tcs outlet)))).

  (** HPWH.cc:3857-3900: idle for an hour, and on until no source is engaged *)
  Fixpoint idleLoop (k fuel : nat) (c : testConf) (n : nat) (on : bool) (rows : list testData) : M W (nat * list testData) :=
    if (Nat.ltb n 60 || on)%bool then
      match k with
      | O => nofuel
      | S k' =>
          testStep fuel c #0 DR_ALLOW ;;
          w <- get ;;
          r <- lift (record (Z.of_nat n) c #0 DR_ALLOW #0 w) ;;
          idleLoop k' fuel c (S n) (existsb (fun h => h_on h) (w_hs w)) (rows ++ [r])
      end
    else ret (n, rows).
  (** HPWH.cc:3903-3906 *)
  Definition shiftTime (n : nat) (r : testData) : testData :=
    mkdata (td_time r - Z.of_nat n) (td_amb r) (td_setpoint r) (td_inlet r) (td_draw r) (td_dr r) (td_in r) (td_out r) (td_tc r) (td_outlet r).

  (** the draw scheduling variables *)
  Record sched : Type := mksched {
    sc_ready : bool;       (* readyForNextDraw *)
    sc_drawing : bool;     (* isDrawing *)
    sc_step : T;           (* stepDrawVolume_L *)
    sc_rem : T;            (* remainingDrawVolume_L *)
    sc_next : list draw    (* [draw, end) *) }.
  (** HPWH.cc:3962-3983: start the next draw when it is due *)
  Definition startDraw (vol : T) (t : nat) (s : sched) : sched :=
    if sc_ready s then
      match sc_next s with
      | [] => s
      | d :: r =>
          if Nat.leb (d_start d) t then
            let v := GAL_TO_L (d_flow d) * #1 in
            mksched false true (if v >? vol then vol else v) (GAL_TO_L (d_vol d)) r
          else s
      end
    else s.
  (** HPWH.cc:3986-4005: this minute's share; the flag tells whether the minute counts as no-draw *)
  Definition takeDraw (s : sched) : sched * bool :=
    if sc_drawing s then
      if sc_step s >=? sc_rem s then (mksched (sc_ready s) false (sc_rem s) #0 (sc_next s), false)
      else (mksched (sc_ready s) true (sc_step s) (sc_rem s - sc_step s) (sc_next s), false)
    else (mksched true false #0 #0 (sc_next s), true).

  (** the sums over the whole test *)
  Record totals : Type := mktot {
    to_outVT : T; to_inVT : T; to_delivered : T; to_removed : T; to_el : T; to_used : T }.
  (** what one minute contributes: volume, outlet, tank temperature, isHeating, isDrawing, energy used *)
  Record obs : Type := mkobs {
    o_time : nat; o_draw : T; o_out : T; o_tank : T; o_heating : bool; o_drawing : bool; o_used : T }.
  (** HPWH.cc:4038-4063 *)
  Definition addTotals (c : testConf) (o : obs) (s : totals) : totals :=
    let el := o_used o in
    mktot (to_outVT s + o_draw o * o_out o) (to_inVT s + o_draw o * tc_inlet c)
          (to_delivered s + CPWATER * DENSITYWATER * o_draw o * (o_out o - tc_inlet c))
          (to_removed s + o_draw o) (to_el s + el) (to_used s + (#0 + el)).

  (** the first recovery period *)
  Record recov : Type := mkrec {
    rc_on : bool; rc_vol : T; rc_inVT : T; rc_outVT : T; rc_used : T; rc_end : nat; rc_stored : T; rc_delivered : T }.
  (** HPWH.cc:4066-4089; [hasHeated] includes this minute, [prevT] is the tank temperature a minute ago *)
  Definition addRecovery (c : testConf) (vol initT prevT : T) (hasHeated : bool) (o : obs) (s : recov) : recov :=
    let vol' := rc_vol s + o_draw o in
    let inVT := rc_inVT s + o_draw o * tc_inlet c in
    let outVT := rc_outVT s + o_draw o * o_out o in
    let used := rc_used s + (#0 + o_used o) in
    if (negb (o_drawing o) && hasHeated && negb (o_heating o))%bool then
      mkrec false vol' inVT outVT used (o_time o)
            (CPWATER * DENSITYWATER * vol * (prevT - initT)) (CPWATER * DENSITYWATER * (outVT - inVT))
    else mkrec true vol' inVT outVT used (rc_end s) (rc_stored s) (rc_delivered s).

  (** the standby period *)
  Record stby : Type := mkstby {
    sb_on : bool; sb_ended : bool; sb_startT : T; sb_endT : T; sb_used : T;
    sb_start : T; sb_end : T; sb_sumT : T; sb_sumA : T }.
  (** HPWH.cc:4090-4124 *)
  Definition addStandby (c : testConf) (prevT : T) (recEnd : nat) (o : obs) (s : stby) : stby :=
    let t := nofN (o_time o) in
    if sb_on s then
      if (o_drawing o || o_heating o || (t >=? sb_start s + #8 * min_per_hr))%bool then
        mkstby false true (sb_startT s) prevT (sb_used s) (sb_start s) (t - #1) (sb_sumT s) (sb_sumA s)
      else
        mkstby true (sb_ended s) (sb_startT s) (sb_endT s) (sb_used s + (#0 + o_used o)) (sb_start s) (sb_end s)
               (sb_sumT s + #1 * o_tank o) (sb_sumA s + #1 * tc_amb c)
    else if (negb (sb_ended s) && (t >? nofN recEnd + #5))%bool then
      mkstby true (sb_ended s) (o_tank o) (sb_endT s) (sb_used s) t (sb_end s) (sb_sumT s) (sb_sumA s)
    else s.

  (** all variables carried through the main loop *)
  Record test : Type := mktest {
    te_sched : sched; te_tot : totals; te_rec : recov; te_stby : stby;
    te_heated : bool; te_noDraw : nat; te_noDrawA : T; te_prevT : T; te_rows : list testData }.

  (** HPWH.cc:4048-4052: the inputs in kJ, added one by one *)
  Definition usedEnergy (w : W) : outc T :=
    obind (omap (fun i => getNthEnergyInput i U_KJ w) (map Z.of_nat (seq 0 (numHS w)))) (fun l => Ok (fold_left nadd l #0)).

  (** HPWH.cc:4036-4126, the bookkeeping of one minute *)
  Definition tally (c : testConf) (vol initT : T) (o : obs) (noDraw : bool) (sc : sched) (row : testData) (s : test) : test :=
    let heated := (te_heated s || o_heating o)%bool in
    let tot := addTotals c o (te_tot s) in
    let rec' := if rc_on (te_rec s) then addRecovery c vol initT (te_prevT s) heated o (te_rec s) else te_rec s in
    let sb := if rc_on (te_rec s) then te_stby s else addStandby c (te_prevT s) (rc_end (te_rec s)) o (te_stby s) in
    mktest sc tot rec' sb heated
           (if noDraw then S (te_noDraw s) else te_noDraw s)
           (if noDraw then te_noDrawA s + #1 * tc_amb c else te_noDrawA s)
           (o_tank o) (te_rows s ++ [row]).
  (** HPWH.cc:3952-4126, one minute; inLastHour is false throughout, drMode stays DR_ALLOW *)
  Definition minute24 (fuel : nat) (c : testConf) (initT : T) (t : nat) (s : test) : M W test :=
    w <- get ;;
    let '(sc, noDraw) := takeDraw (startDraw (t_volume (w_tank w)) t (te_sched s)) in
    testStep fuel c (sc_step sc) DR_ALLOW ;;
    w <- get ;;
    row <- lift (record (Z.of_nat t) c (sc_step sc) DR_ALLOW (t_outletT (w_tank w)) w) ;;
    used <- lift (usedEnergy w) ;;
    let o := mkobs t (sc_step sc) (t_outletT (w_tank w)) (averageT (w_tank w)) (w_heating w) (sc_drawing sc) used in
    ret (tally c (t_volume (w_tank w)) initT o noDraw sc row s).

  (** HPWH.hh:1152-1198; the fields are in the order of the source, [ts_rows] is testDataSet *)
  Record summary : Type := mksum {
    ts_recEnd : T; ts_recVol : T; ts_recDelivered : T; ts_recStored : T; ts_recUsed : T; ts_recEff : T;
    ts_stbyStartT : T; ts_stbyEndT : T; ts_stbyUsed : T; ts_stbyDuration : T; ts_stbyLoss : T; ts_stbyUA : T;
    ts_noDrawTime : T; ts_noDrawAmb : T;
    ts_removed : T; ts_heating : T; ts_avgOut : T; ts_avgIn : T;
    ts_fossil : T; ts_el : T; ts_used : T; ts_delivered : T;
    ts_consumed : T; ts_standard : T; ts_adjusted : T; ts_modified : T; ts_EF : T;
    ts_annualEl : T; ts_annual : T;
    ts_designation : designation; ts_qualifies : bool; ts_rows : list testData }.

  (** HPWH.cc:4128-4264; [vol] is the tank volume *)
  Definition summarise (d : designation) (vol initT : T) (pre : list testData) (s : test) : outc summary :=
    let tot := te_tot s in
    let rc := te_rec s in
    let sb := te_stby s in
    let endTime := #24 * min_per_hr in
    let sbEnd := if sb_ended sb then sb_end sb else endTime in
    let sbEndT := if sb_ended sb then sb_endT sb else te_prevT s in
    let finalT := te_prevT s in
    obind (div_chk (to_outVT tot) (to_removed tot)) (fun avgOut =>
    obind (div_chk (to_inVT tot) (to_removed tot)) (fun avgIn =>
    let tankCap := CPWATER * DENSITYWATER * vol in
    let remCap := CPWATER * DENSITYWATER * to_removed tot in
    let qualifies := (te_heated s && negb (sc_drawing (te_sched s)))%bool in
    let eff := if rc_used rc >? #0 then (rc_stored rc + rc_delivered rc) / rc_used rc else #0 in
    let minutes := sbEnd - sb_start sb - #1 in
    let duration := minutes / min_per_hr in
    let lossAt := ((duration >? #0) && (eff >? #0))%bool in
    let loss := if lossAt then (sb_used sb - tankCap * (sbEndT - sb_startT sb) / eff) / duration else #0 in
    let dT := sb_sumT sb / minutes - sb_sumA sb / minutes in
    let ua := if (lossAt && nneqb dT #0)%bool then loss / dT else #0 in
    let noDrawTime := nofN (te_noDraw s) / min_per_hr in
    let noDrawAmb := if Nat.ltb 0 (te_noDraw s) then te_noDrawA s / nofN (te_noDraw s) else #0 in
    let consumed := if eff >? #0 then to_used tot - tankCap * (finalT - initT) / eff else to_used tot in
    let heating := if eff >? #0 then to_delivered tot / eff else #0 in
    let stdDelivered := remCap * (F_TO_C #125 - F_TO_C #50) in
    let standard := if eff >? #0 then stdDelivered / eff else #0 in
    let adjusted := consumed - (F_TO_C (dec 675 10) - noDrawAmb) * ua * noDrawTime in
    let modified := adjusted + (standard - heating) in
    let ef := if modified >? #0 then stdDelivered / modified else #0 in
    let annual := if ef >? #0 then #365 * remCap * F_TO_C #67 / ef else #0 in
    let annualEl := if to_used tot >? #0 then (to_el tot / to_used tot) * annual else #0 in
    Ok (mksum (nofN (rc_end rc)) (rc_vol rc) (rc_delivered rc) (rc_stored rc) (rc_used rc) eff
              (sb_startT sb) sbEndT (sb_used sb) duration loss ua
              noDrawTime noDrawAmb
              (to_removed tot) heating avgOut avgIn
              #0 (to_el tot) (to_used tot) (to_delivered tot)
              consumed standard adjusted modified ef
              annualEl annual
              d qualifies (pre ++ te_rows s)))).

  (** HPWH.cc:3907-3950 *)
  Definition test0 (d : designation) (initT : T) : test :=
    mktest (mksched true false #0 #0 (pattern d)) (mktot #0 #0 #0 #0 #0 #0) (mkrec true #0 #0 #0 #0 0 #0 #0)
           (mkstby false false #0 #0 #0 #0 #0 #0 #0) false 0 #0 initT [].
  (** HPWH.cc:3820-4265 run24hrTest; runTime_min takes the values 0, 1, ..., 1440 *)
  Definition run24hrTest (k fuel : nat) (c : testConf) (d : designation) : M W summary :=
    setTestSetpoint ;;
    prepareForTest k fuel c ;;
    '(n, pre) <- idleLoop k fuel c 0 false [] ;;
    w <- get ;;
    let initT := averageT (w_tank w) in
    s <- foldM (seq 0 1441) (minute24 fuel c initT) (test0 d initT) ;;
    w <- get ;;
    lift (summarise d (t_volume (w_tank w)) initT (map (shiftTime n) pre) s).
End Rating.
