(** The command "hpwh run": reading schedules, preparing the unit, simulating minute by minute and
    writing the results.  Models /repo/src/hpwh/run.cpp:105-602, /repo/src/HPWH.cc:2170-2249 and
    /repo/src/Tank.cc:198-214.

    Files are given by the words they consist of.  Messages on the console are left out.  exit(1) is [Err].
    The lines of the result file are the result; when the command fails, what it has written
    before is not modelled. *)

From Coq Require Import ZArith String List Bool.
From Verif Require Import Num Base Units Types Utils TankM Logic HeatSrc Step Setters Rating Report.
Import ListNotations.
Local Open Scope string_scope.

Section Cli.
  Context {T : Type} `{Num T}.
  Local Open Scope num_scope.
  Local Open Scope monad_scope.
  Notation W := (hpwh T).

  (** ** Schedules *)

  (** A schedule file: the value after the first word if that is "default"; whether the first word of the
      next line starts with an h (None if there is no such line); the pairs on the other lines, up to the first
      that is not of the form "number , number". *)
  Record schedFile : Type := mksched {
    sf_default : option T; sf_hours : option bool; sf_entries : list (Z * T) }.

  (** scheduleArray[j] = v *)
  Definition setAt (j : Z) (v : T) (l : list T) : outc (list T) :=
    if ((0 <=? j) && (j <? Z.of_nat (length l)))%Z%bool then Ok (upd l (Z.to_nat j) v)
    else UB "scheduleArray index out of range".
  (** run.cpp:588-593 *)
  Fixpoint setRange (n : nat) (j : Z) (v : T) (l : list T) : outc (list T) :=
    match n with
    | O => Ok l
    | S n' => obind (setAt j v l) (setRange n' (j + 1) v)
    end.
  (** run.cpp:572-596; the entry is compared with the number of minutes also if it is an hour *)
  Fixpoint applyEntries (hours : bool) (es : list (Z * T)) (l : list T) : outc (bool * list T) :=
    match es with
    | [] => Ok (true, l)
    | (m, v) :: r =>
        if (m >=? Z.of_nat (length l))%Z then Ok (false, l)
        else obind (if hours then setRange 60 (m * 60) v l else setAt m v l) (applyEntries hours r)
    end.
  (** run.cpp:529-601 readSchedule: whether it returns 0, and the array (empty at the call) *)
  Definition readSchedule (f : option schedFile) (minutes : nat) : outc (bool * list T) :=
    match f with
    | None => Ok (false, [])
    | Some f =>
        match sf_default f with
        | None => Ok (false, [])
        | Some d =>
            match sf_hours f with
            | None => Ok (true, repeat d minutes)
            | Some h => applyEntries h (sf_entries f) (repeat d minutes)
            end
        end
    end.

  (** ** Simulation *)

  (** what the loop reads: the schedules, "-a", and whether getModel() is at least 210 *)
  Record runConf : Type := mkconf {
    rc_minutes : Z; rc_inlet : list T; rc_draw : list T; rc_amb : list T; rc_ext : list T; rc_dr : list T;
    rc_setpoint : list T; rc_soc : list T; rc_useSoC : bool; rc_air : option T; rc_large : bool }.
  (** minutesToRun > 500000., minutesToRun < 500000. *)
  Definition isYear (c : runConf) : bool := (rc_minutes c >? 500000)%Z.
  Definition isShort (c : runConf) : bool := (rc_minutes c <? 500000)%Z.

  (** run.cpp:408-420: draws of large units in yearly runs are reduced; the inlet temperature is in C *)
  Definition mixDown (c : runConf) (inlet draw : T) (w : W) : outc T :=
    if (rc_large c && isYear c && (w_setpoint w <=? #125))%bool then
      obind (getNodeT (Z.of_nat (numNodes (w_tank w)) - 1) (w_tank w)) (fun top =>
      obind (div_chk (#125 - inlet) (C_TO_F top - inlet)) (fun q => Ok (draw * q)))
    else Ok draw.

  (** run.cpp:382-470, one minute up to the recording: ambient temperature, inlet temperature and draw (L)
      used, and whether the message about inconsistent volumes is shown *)
  Definition minute (fuel : nat) (c : runConf) (i : nat) : M W (T * T * T * bool) :=
    amb <- match rc_air c with Some a => ret (F_TO_C a) | None => lift (at_ (rc_amb c) i) end ;;
    start <- gets (fun w => heatContent (w_tank w)) ;;
    dr <- lift (at_ (rc_dr c) i) ;;
    w <- get ;;
    (match rc_setpoint c with
     | [] => ret tt
     | _ => if w_setFixed w then ret tt else sp <- lift (at_ (rc_setpoint c) i) ;; setSetpoint sp U_C
     end) ;;
    (if rc_useSoC c then s <- lift (at_ (rc_soc c) i) ;; setTargetSoCFraction s else ret tt) ;;
    inlet <- lift (at_ (rc_inlet c) i) ;;
    draw0 <- lift (at_ (rc_draw c) i) ;;
    w <- get ;;
    draw <- lift (mixDown c inlet draw0 w) ;;
    ext <- lift (at_ (rc_ext c) i) ;;
    let vol := GAL_TO_L draw in
    runOneStepInlet fuel inlet (mkin vol amb ext (ntrunc dr) (#1 * vol) inlet None) ;;
    w <- get ;;
    if negb (isEnergyBalanced vol inlet #0 #0 start (dec 1 1000000) w) then throw "energy balance error"
    else
      forM (seq 0 (numHS w)) (fun k =>
        r <- lift (getNthRunTime (Z.of_nat k) w) ;;
        if r >? #1 then throw "heat source ran too long" else ret tt) ;;
      mp <- lift (isExternalMultipass w) ;;
      bad <- (if mp : bool then
                v <- lift (getExternalVolumeHeated U_GAL w) ;;
                h <- lift (compressor w) ;;
                r <- lift (getNthRunTime (w_compIx w) w) ;;
                ret (nabs (v - LPS_TO_GPM (h_mpFlow h) * r) >? dec 1 1000000)
              else ret false) ;;
      ret (amb, inlet, vol, bad).

  (** the lines of the result file *)
  Inductive line : Type :=
  | LHead (l : list col) | LDayHead (n : nat) | LRow (l : list (cell T)) | LDay (d : Z) (l : list (T * T)).

  (** a line written by one of the writers of Report.v *)
  Definition written {A S} (m : M (list A) unit) : M S (list A) :=
    match m [] with
    | (Ok _, l) => ret l
    | (Err e, _) => throw e
    | (UB e, _) => undef e
    | (NoFuel, _) => nofuel
    end.

  (** run.cpp:472-497 *)
  Definition recordRow (c : runConf) (i : nat) (amb inlet vol : T) (w : W) : outc (testData (T:=T)) :=
    let ids := map Z.of_nat (seq 0 (numHS w)) in
    obind (omap (fun i => getNthEnergyInput i U_KWH w) ids) (fun ins =>
    obind (omap (fun i => getNthEnergyOutput i U_KWH w) ids) (fun outs =>
    obind (omap (fun i => nthThermocouple i 6 (w_tank w)) [1; 2; 3; 4; 5; 6]%Z) (fun tcs =>
    Ok (mkdata (Z.of_nat i) (match rc_air c with Some _ => w_locT w | None => amb end) (w_setpoint w) inlet vol 0
               ins outs tcs (t_outletT (w_tank w)))))).

  (** run.cpp:128-129: arrays of length three; 501-505 *)
  Fixpoint addCum (hs : list (hsrc T)) (cum : list (T * T)) : outc (list (T * T)) :=
    match hs, cum with
    | [], _ => Ok cum
    | _ :: _, [] => UB "cumHeatIn index out of range"
    | h :: hs', (a, b) :: cum' => obind (addCum hs' cum') (fun r => Ok ((a + h_eIn h * #1000, b + h_eOut h * #1000) :: r))
    end.

  (** state of the loop: sums of the day, minutes of the day, lines *)
  Record loopSt : Type := mkloop { lp_cum : list (T * T); lp_sub : Z; lp_lines : list line; lp_bad : list nat }.
  Definition zeroCum : list (T * T) := [(#0, #0); (#0, #0); (#0, #0)].

  (** run.cpp:471-522 *)
  Definition output (c : runConf) (i : nat) (amb inlet vol : T) (s : loopSt) : M W loopSt :=
    w <- get ;;
    if isShort c then
      td <- lift (recordRow c i amb inlet vol w) ;;
      l <- written (csvRow td 0 w) ;;
      ret (mkloop (lp_cum s) (lp_sub s) (lp_lines s ++ [LRow l])%list (lp_bad s))
    else
      cum <- lift (addCum (w_hs w) (lp_cum s)) ;;
      if (lp_sub s >=? 1439)%Z then
        ret (mkloop (map (fun _ => (#0, #0)) (firstn (numHS w) cum) ++ skipn (numHS w) cum)%list 0
                    (lp_lines s ++ [LDay ((Z.of_nat i + 1) / 1440 - 1) (firstn (numHS w) cum)])%list (lp_bad s))
      else ret (mkloop cum (lp_sub s + 1) (lp_lines s) (lp_bad s)).

  Definition body (fuel : nat) (c : runConf) (i : nat) (s : loopSt) : M W loopSt :=
    '(amb, inlet, vol, bad) <- minute fuel c i ;;
    output c i amb inlet vol (if bad : bool then mkloop (lp_cum s) (lp_sub s) (lp_lines s) (lp_bad s ++ [i])%list else s).

  (** run.cpp:358-524 *)
  Definition simulate (fuel : nat) (c : runConf) : M W loopSt :=
    w <- get ;;
    l0 <- (if isYear c then ret (LDayHead (numHS w))
           else l <- written (csvHeading 0 w) ;; ret (LHead l)) ;;
    foldM (seq 0 (Z.to_nat (rc_minutes c))) (body fuel c) (mkloop zeroCum 0 [l0] []).

  (** ** Preparation *)

  (** the lines of testInfo.txt, run.cpp:196-252 *)
  Inductive info : Type :=
  | ISetpoint (x : T) | ILength (n : Z) | IInversion (x : T) | IConduction (x : T) | IInletH (x : T)
  | ITankSize (x : T) | ITot (x : T) | ISoC (n : Z) | IInitial (l : list T) | IOther.
  Record settings : Type := mkset {
    se_setpoint : T; se_minutes : Z; se_mix : bool; se_cond : bool; se_inletH : T; se_size : T; se_tot : T;
    se_soc : bool; se_init : option (list T) }.
  (** run.cpp:180-190 *)
  Definition settings0 : settings := mkset #0 0 true true #0 #0 #0 false None.
  Definition addInfo (s : settings) (x : info) : settings :=
    match s with
    | mkset a b m k h z t q i =>
        match x with
        | ISetpoint y => mkset y b m k h z t q i
        | ILength n => mkset a n m k h z t q i
        | IInversion y => mkset a b (y >? #0) k h z t q i
        | IConduction y => mkset a b m (y >? #0) h z t q i
        | IInletH y => mkset a b m k y z t q i
        | ITankSize y => mkset a b m k h y t q i
        | ITot y => mkset a b m k h z y q i
        | ISoC n => mkset a b m k h z t (negb (Z.eqb n 0)) i
        | IInitial l => mkset a b m k h z t q (Some (match i with Some l0 => l0 ++ l | None => l end)%list)
        | IOther => s
        end
    end.

  (** HPWH.cc:2170-2249 setTankFromMeasured.  Of a line of the file only the number of its fields and whether it
      matches the expression TankT[1-6](C) matter: the variable irow is never incremented, so that every line is taken
      for the heading; the expression is searched in the line (not in the field), its group is "C", and std::stoi of that throws. *)
  Record measLine : Type := mkmeas { ml_fields : nat; ml_match : bool }.
  Definition setTankFromMeasured (file : option (list measLine)) : M W unit :=
    match file with
    | None => throw "Could not open measured file"
    | Some ls =>
        forM ls (fun l => forM (seq 0 (ml_fields l)) (fun _ => if ml_match l then throw "stoi" else ret tt)) ;;
        onTank (setNodeTs [])
    end.

  (** Tank.cc:198-214 setProfileTs_C: the library btwxt interpolates in the profile [p] given at the middles of
      equal layers; [itp z values x] is its answer at [x] *)
  Definition setProfile (itp : list T -> list T -> T -> T) (p : list T) : M (tank T) unit :=
    let z := map (fun i => (nofN i + dec 1 2) / nofN (length p)) (seq 0 (length p)) in
    modify (fun t => set_t_Ts (map (fun i => itp z p ((nofN i + dec 1 2) / nofN (numNodes t))) (seq 0 (numNodes t))) t).

  (** run.cpp:275-290 *)
  Definition needSchedule (f : option schedFile) (minutes : nat) : M W (list T) :=
    '(ok, l) <- lift (readSchedule f minutes) ;;
    if ok : bool then ret l else throw "readSchedule returns an error".
  Definition maySchedule (f : option schedFile) (minutes : nat) : M W (list T) :=
    '(_, l) <- lift (readSchedule f minutes) ;; ret l.

  (** run.cpp:303-327 *)
  Definition initialState (itp : list T -> list T -> T -> T) (meas : option (option (list measLine)))
      (se : settings) (sps : list T) : M W unit :=
    if se_setpoint se >? #0 then
      (let new := match sps with [] => se_setpoint se | x :: _ => x end in
       w <- get ;;
       '(ok, _) <- lift (isNewSetpointPossible new U_C w) ;;
       if ok : bool then setSetpoint new U_C else ret tt) ;;
      match se_init se, meas with
      | Some p, _ => onTank (setProfile itp p)
      | None, Some f => setTankFromMeasured f
      | None, None => resetTankToSetpoint
      end
    else ret tt.

  (** run.cpp:105-528 run: [air] is the value of "-a" (-1000 if not given), [meas] that of "-i"; the seven schedules are
      inletT, draw, ambientT, evaporatorT, DR, setpoint, SoC *)
  Definition runCmd (fuel : nat) (itp : list T -> list T -> T -> T) (large : bool) (air : T) (meas : option (option (list measLine)))
      (infos : list info) (f0 f1 f2 f3 f4 f5 f6 : option schedFile) : M W loopSt :=
    let dep := air >? #0 in
    setMaxTempDepression #4 U_C ;;
    modify (set_w_doDepress dep) ;;
    let se := fold_left addInfo infos settings0 in
    if (se_minutes se =? 0)%Z then throw "must record length_of_test"
    else if (se_minutes se <? 0)%Z then throw "cannot create std::vector larger than max_size()"
    else
      let n := Z.to_nat (se_minutes se) in
      s0 <- needSchedule f0 n ;; s1 <- needSchedule f1 n ;; s2 <- needSchedule f2 n ;;
      s3 <- needSchedule f3 n ;; s4 <- needSchedule f4 n ;; s5 <- maySchedule f5 n ;; s6 <- maySchedule f6 n ;;
      (if se_mix se then ret tt else modify (fun w => set_w_tank (set_t_doMix false (w_tank w)) w)) ;;
      (if se_cond se then ret tt else modify (fun w => set_w_tank (set_t_doCond false (w_tank w)) w)) ;;
      initialState itp meas se s5 ;;
      (if se_inletH se >? #0 then onTank (setInletByFraction (se_inletH se)) else ret tt) ;;
      (if se_size se >? #0 then setTankSize (se_size se) U_GAL false else ret tt) ;;
      (if se_tot se >? #0 then setTimerLimitTOT (se_tot se) else ret tt) ;;
      (if se_soc se then switchToSoCControls #1 (dec 5 100) (F_TO_C #110) true (F_TO_C #65) U_C else ret tt) ;;
      simulate fuel (mkconf (se_minutes se) s0 s1 s2 s3 s4 s5 s6 (se_soc se) (if dep then Some air else None) large).
End Cli.
Arguments schedFile T : clear implicits.
Arguments runConf T : clear implicits.
Arguments loopSt T : clear implicits.
Arguments line T : clear implicits.
Arguments info T : clear implicits.
