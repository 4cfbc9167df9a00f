(** Setters, getters and configuration queries.
    Models /repo/src/HPWH.cc:822-985, 1040-1555, 1844-2100, 2299-2314, 2361-2598 and 2686-2801. *)

From Coq Require Import ZArith String List Bool.
From Verif Require Import Num Base Units Types Utils TankM Logic HeatSrc.
Import ListNotations.
Local Open Scope string_scope.

Section Setters.
  Context {T : Type} `{Num T}.
  Local Open Scope num_scope.
  Local Open Scope monad_scope.
  Notation W := (hpwh T).

  (** ** The unit switches *)

  Definition badUnits {A} : outc A := Err "Invalid units.".
  (** case UNITS_C / UNITS_F of an absolute temperature argument *)
  Definition tempToC (t : T) (u : units) : outc T :=
    match u with U_C => Ok t | U_F => Ok (F_TO_C t) | _ => badUnits end.
  Definition tempFromC (t : T) (u : units) : outc T :=
    match u with U_C => Ok t | U_F => Ok (C_TO_F t) | _ => badUnits end.
  (** case UNITS_L / UNITS_GAL *)
  Definition volToL (v : T) (u : units) : outc T :=
    match u with U_L => Ok v | U_GAL => Ok (GAL_TO_L v) | _ => badUnits end.
  Definition volFromL (v : T) (u : units) : outc T :=
    match u with U_L => Ok v | U_GAL => Ok (L_TO_GAL v) | _ => badUnits end.
  (** case UNITS_KWH / UNITS_BTU / UNITS_KJ *)
  Definition energyFromKWH (e : T) (u : units) : outc T :=
    match u with U_KWH => Ok e | U_BTU => Ok (KWH_TO_BTU e) | U_KJ => Ok (KWH_TO_KJ e) | _ => badUnits end.
  (** HPWH.cc:1199-1208, 1229-1238 and 1215-1224, 1245-1254 *)
  Definition uaToSI (ua : T) (u : units) : outc T :=
    match u with U_kJperHrC => Ok ua | U_BTUperHrF => Ok (UAf_TO_UAc ua) | _ => badUnits end.
  Definition uaFromSI (ua : T) (u : units) : outc T :=
    match u with U_kJperHrC => Ok ua | U_BTUperHrF => Ok (ua / UAf_TO_UAc #1) | _ => badUnits end.

  (** ** Setpoint *)

  (** HPWH.cc:822-849 setSetpoint *)
  Definition setSetpoint (new : T) (u : units) : M W unit :=
    newC <- lift (tempToC new u) ;; setSetpointC newC.
  (** HPWH.cc:851-865 *)
  Definition getSetpoint (u : units) (w : W) : outc T := tempFromC (w_setpoint w) u.
  (** HPWH.cc:890-985 isNewSetpointPossible: the answer and maxAllowedSetpoint *)
  Definition isNewSetpointPossible (new : T) (u : units) (w : W) : outc (bool * T) :=
    obind (tempToC new u) (fun newC =>
    obind (setpointPossible newC w) (fun '(r, mx) =>
    obind (tempFromC mx u) (fun mx' => Ok (r, mx')))).

  (** the condenser object heatSources[compressorIndex] *)
  Definition compressor (w : W) : outc (hsrc T) :=
    if Z.ltb (w_compIx w) 0 then UB "heatSources[-1]"
    else match nth_error (w_hs w) (Z.to_nat (w_compIx w)) with
         | Some h => Ok h
         | None => UB "heatSources index out of range"
         end.
  Definition noCompressor {A} : outc A := Err "Current model does not have a compressor.".

  (** HPWH.cc:867-888, 1011-1032 *)
  Definition getMaxCompressorSetpoint (u : units) (w : W) : outc T :=
    if hasCompressor w then obind (compressor w) (fun h => tempFromC (h_maxSet h) u) else noCompressor.
  Definition getMinOperatingTemp (u : units) (w : W) : outc T :=
    if hasCompressor w then obind (compressor w) (fun h => tempFromC (h_minT h) u) else noCompressor.

  (** ** Tank temperatures, size, UA *)

  (** Tank.cc:181-184 setNodeT_C; HPWH.cc:1034 resetTankToSetpoint *)
  Definition setNodeT (x : T) : M (tank T) unit :=
    modify (fun t => set_t_Ts (map (fun _ => x) (t_Ts t)) t).
  Definition resetTankToSetpoint : M W unit := w <- get ;; onTank (setNodeT (w_setpoint w)).

  (** HPWH.cc:1040-1058 setTankLayerTemperatures *)
  Definition setTankLayerTemperatures (Ts : list T) (u : units) : M W unit :=
    Cs <- lift (match u with U_C => Ok Ts | U_F => Ok (map F_TO_C Ts) | _ => badUnits end) ;;
    onTank (setNodeTs Cs).

  (** HPWH.cc:1061-1079 setAirFlowFreedom *)
  Definition setAirFlowFreedom (f : T) : M W unit :=
    if ((f <? #0) || (f >? #1))%bool then throw "You have attempted to set the fan fraction outside of bounds."
    else modify (fun w => set_w_hs (map (fun h => match h_type h with
                                                  | TCompressor => set_h_airflow f h
                                                  | TResistance => h end) (w_hs w)) w).

  (** HPWH.cc:1083-1096 setTankSize_adjustUA *)
  Definition setTankSize_adjustUA (v : T) (u : units) (force : bool) : M W unit :=
    l <- lift (volToL v u) ;; onTank (setVolumeAndAdjustUA l force).
  (** HPWH.cc:1174-1188 setTankSize *)
  Definition setTankSize (v : T) (u : units) (force : bool) : M W unit :=
    l <- lift (volToL v u) ;; onTank (setVolume l force ;; modify calcSizeConstants).
  (** HPWH.cc:2043-2057 *)
  Definition getTankSize (u : units) (w : W) : outc T := volFromL (t_volume (w_tank w)) u.

  (** HPWH.cc:1098-1139 getTankSurfaceArea: the static version accepts any units silently *)
  Definition getSurfaceArea_static (vol : T) (vu su : units) : T :=
    let l := match vu with U_GAL => GAL_TO_L vol | _ => vol end in
    match su with U_FT2 => M2_TO_FT2 (surfaceArea_m2 l) | _ => surfaceArea_m2 l end.
  Definition getTankSurfaceArea (u : units) (w : W) : outc T :=
    match u with
    | U_M2 => Ok (surfaceArea_m2 (t_volume (w_tank w)))
    | U_FT2 => Ok (M2_TO_FT2 (surfaceArea_m2 (t_volume (w_tank w))))
    | _ => badUnits
    end.
  (** HPWH.cc:1141-1170 getTankRadius; the case UNITS_FT applies FT_TO_M to a length in metres *)
  Definition getRadius_static (vol : T) (vu ru : units) : T :=
    let l := match vu with U_GAL => GAL_TO_L vol | _ => vol end in
    match ru with U_FT => FT_TO_M (tankRadius_m l) | _ => tankRadius_m l end.
  Definition getTankRadius (u : units) (w : W) : T := getRadius_static (t_volume (w_tank w)) U_L u.

  (** HPWH.cc:1197-1255 *)
  Definition setUA (ua : T) (u : units) : M W unit :=
    v <- lift (uaToSI ua u) ;; onTank (modify (set_t_UA v)).
  Definition getUA (u : units) (w : W) : outc T := uaFromSI (t_UA (w_tank w)) u.
  Definition setFittingsUA (ua : T) (u : units) : M W unit :=
    v <- lift (uaToSI ua u) ;; onTank (modify (set_t_fitUA v)).
  Definition getFittingsUA (u : units) (w : W) : outc T := uaFromSI (t_fitUA (w_tank w)) u.

  (** ** External ports *)

  (** HPWH.cc:2299-2314 hasExternalHeatSource: walks over all sources but looks at the
      configuration of heatSources[compressorIndex]; returns the index of the loop *)
  Fixpoint externalIx (w : W) (hs : list (hsrc T)) (i : nat) : outc (option nat) :=
    match hs with
    | [] => Ok None
    | h :: r =>
        match h_type h with
        | TCompressor =>
            obind (compressor w) (fun c =>
            match h_config c with External => Ok (Some i) | _ => externalIx w r (S i) end)
        | TResistance => externalIx w r (S i)
        end
    end.
  Definition hasExternalHeatSource (w : W) : outc (option nat) := externalIx w (w_hs w) 0.

  (** HPWH.cc:1267-1297 setExternalPortHeightByFraction, setNodeNumFromFractionalHeight *)
  Definition setExternalPort (set : Z -> hsrc T -> hsrc T) (f : T) : M W unit :=
    w <- get ;;
    k <- lift (hasExternalHeatSource w) ;;
    match k with
    | None => throw "Does not have an external heat source."
    | Some i => z <- lift (nodeFromFraction (numNodes (w_tank w)) f) ;; modHS i (set z)
    end.
  Definition setExternalInletHeightByFraction : T -> M W unit := setExternalPort set_h_extIn.
  Definition setExternalOutletHeightByFraction : T -> M W unit := setExternalPort set_h_extOut.
  (** HPWH.cc:1299-1319 *)
  Definition getExternalPort (g : hsrc T -> Z) (w : W) : outc Z :=
    obind (hasExternalHeatSource w) (fun k =>
    match k with
    | None => Err "Does not have an external heat source."
    | Some i => match nth_error (w_hs w) i with Some h => Ok (g h) | None => UB "heatSources index out of range" end
    end).

  (** ** Timer, depression, shut-off temperature *)

  (** HPWH.cc:1321-1328 *)
  Definition setTimerLimitTOT (l : T) : M W unit :=
    if ((l >? #24 * #60) || (l <? #0))%bool then throw "Out of bounds time limit for setTimerLimitTOT."
    else modify (set_w_timerLimit l).
  (** HPWH.cc:1334-1347: the member is assigned before the units are looked at, and a
      difference in F is converted as a temperature *)
  Definition setMaxTempDepression (d : T) (u : units) : M W unit :=
    modify (set_w_maxDep d) ;;
    match u with
    | U_C => ret tt
    | U_F => modify (set_w_maxDep (F_TO_C d))
    | _ => lift badUnits
    end.

  Definition isHTS (l : logic T) : bool :=
    match l with TempLogic _ _ _ _ _ b _ => b | SoCLogic _ _ _ _ _ _ _ _ => false end.
  (** HPWH.cc:1349-1371 hasEnteringWaterHighTempShutOff *)
  Definition hasHTS (i : Z) (w : W) : bool :=
    if ((i >=? Z.of_nat (length (w_hs w))) || (i <? 0))%Z%bool then false
    else match nth_error (w_hs w) (Z.to_nat i) with
         | Some h => existsb isHTS (h_shutOff h)
         | None => false
         end.
  (** the loop of HPWH.cc:1417-1425: the first such logic gets a new decision point *)
  Fixpoint setHTS (d : T) (absolute : bool) (ls : list (logic T)) : list (logic T) :=
    match ls with
    | [] => []
    | l :: r =>
        if isHTS l then
          match l with
          | TempLogic s dist _ _ c h b => TempLogic s dist d absolute c h b :: r
          | _ => l :: r
          end
        else l :: setHTS d absolute r
    end.
  (** HPWH.cc:1373-1426 setEnteringWaterHighTempShutOff *)
  Definition setEnteringWaterHighTempShutOff (high : T) (absolute : bool) (i : Z) (u : units) : M W unit :=
    w <- get ;;
    if negb (hasHTS i w) then throw "You have attempted to access a heating logic that does not exist."
    else
      highC <- lift (tempToC high u) ;;
      if (if absolute then (w_setpoint w - highC) <? MINSINGLEPASSLIFT else highC <? MINSINGLEPASSLIFT)
      then throw "High temperature shut off is too close to the setpoint"
      else modHS (Z.to_nat i) (fun h => set_h_shutOff (setHTS highC absolute (h_shutOff h)) h).

  (** ** State of charge control *)

  (** HPWHHeatingLogic.cc:48, 190: setDecisionPoint(value) *)
  Definition setDecision (d : T) (l : logic T) : logic T :=
    match l with
    | TempLogic s dist _ a c h b => TempLogic s dist d a c h b
    | SoCLogic s _ hy tm cm m c b => SoCLogic s d hy tm cm m c b
    end.
  (** HPWH.cc:1428-1456 setTargetSoCFraction *)
  Definition retarget (d : T) (h : hsrc T) : hsrc T :=
    set_h_turnOn (map (setDecision d) (h_turnOn h))
      (set_h_shutOff (map (fun l => if isHTS l then l else setDecision d l) (h_shutOff h)) h).
  Definition setTargetSoCFraction (target : T) : M W unit :=
    w <- get ;;
    if negb (w_usesSoC w) then throw "Can not set target state of charge"
    else if target <? #0 then throw "Can not set a negative target state of charge."
    else modify (fun w => set_w_targetSoC target (set_w_hs (map (retarget target) (w_hs w)) w)).

  (** HPWH.cc:1529-1555 turnOnSoC, shutOffSoC *)
  Definition turnOnSoC (target hyst tMin : T) (cm : bool) (mains : T) : logic T :=
    SoCLogic "SoC Turn On" target (- hyst) tMin cm mains CLess false.
  Definition shutOffSoC (target hyst tMin : T) (cm : bool) (mains : T) : logic T :=
    SoCLogic "SoC Shut Off" target hyst tMin cm mains CGreater false.
  (** HPWH.cc:1501-1523, one heat source *)
  Definition toSoC (target hyst tMin : T) (cm : bool) (mains : T) (h : hsrc T) : hsrc T :=
    set_h_turnOn [turnOnSoC target hyst tMin cm mains]
      (set_h_shutOff (filter isHTS (h_shutOff h) ++ [shutOffSoC target hyst tMin cm mains])%list h).
  (** HPWH.cc:1459-1527 canUseSoCControls, switchToSoCControls *)
  Definition switchToSoCControls (target hyst tMin : T) (cm : bool) (mains : T) (u : units) : M W unit :=
    w <- get ;;
    if negb (hasCompressor w) then lift noCompressor
    else
      c <- lift (compressor w) ;;
      match h_config c with
      | External =>
          tMinC <- lift (tempToC tMin u) ;;
          mainsC <- lift (tempToC mains u) ;;
          if mainsC >=? tMinC then throw "The mains temperature can't be equal to or greater than the minimum useful temperature."
          else modify (fun w => set_w_usesSoC true
                                  (set_w_hs (map (toSoC target hyst tMinC cm mainsC) (w_hs w)) w))
      | _ => throw "Cannot set up state of charge controls for integrated or wrapped HPWHs."
      end.

  (** ** Heating logic factories *)

  (** HPWH.cc:1557-1573 getRangeDistribution *)
  Definition rangeDist (bot top : T) : distribution T :=
    mkdist DWeighted
      (((if bot >? #0 then [(bot, #0)] else []) ++ [(top, #1)]
        ++ (if top <? #1 then [(#1, #0)] else []))%list).
  (** HPWH.cc:1575-1741: the factories differ only in these arguments *)
  Definition rangeLogic (s : string) (bot top decision : T) (absolute : bool) (c : cmp) : logic T :=
    TempLogic s (rangeDist bot top) decision absolute c false false.

  (** ** Reported quantities *)

  (** HPWH.cc:1924-2022 *)
  Definition nthSource (N : Z) (w : W) : outc (hsrc T) :=
    if ((N >=? Z.of_nat (length (w_hs w))) || (N <? 0))%Z%bool
    then Err "You have attempted to access a heat source that does not exist."
    else match nth_error (w_hs w) (Z.to_nat N) with Some h => Ok h | None => UB "heatSources[N]" end.
  Definition getNthEnergyInput (N : Z) (u : units) (w : W) : outc T :=
    obind (nthSource N w) (fun h => energyFromKWH (h_eIn h) u).
  Definition getNthEnergyOutput (N : Z) (u : units) (w : W) : outc T :=
    obind (nthSource N w) (fun h => energyFromKWH (h_eOut h) u).
  Definition getNthRunTime (N : Z) (w : W) : outc T := obind (nthSource N w) (fun h => Ok (h_runtime h)).
  Definition isNthRunning (N : Z) (w : W) : outc bool := obind (nthSource N w) (fun h => Ok (h_on h)).
  Definition getNthType (N : Z) (w : W) : outc hstype := obind (nthSource N w) (fun h => Ok (h_type h)).
  (** HPWH.cc:2059-2150 *)
  Definition getExternalVolumeHeated (u : units) (w : W) : outc T := volFromL (w_extVol w) u.
  Definition getEnergyRemoved (u : units) (w : W) : outc T := energyFromKWH (w_envE w) u.
  Definition getStandbyLosses (u : units) (w : W) : outc T := energyFromKWH (w_stbyE w) u.
  Definition getOutletTemp (u : units) (w : W) : outc T := tempFromC (t_outletT (w_tank w)) u.
  Definition getCondInletTemp (u : units) (w : W) : outc T := tempFromC (w_condIn w) u.
  Definition getCondOutletTemp (u : units) (w : W) : outc T := tempFromC (w_condOut w) u.

  (** ** Compressor capacity *)

  (** HPWH.cc:1878-1910, the part with the setpoint; returns the performance *)
  Definition capPerf (h : hsrc T) (air inT outT : T) : M W (perf T) :=
    match h_config h with
    | External =>
        w0 <- get ;;
        '(ok, _) <- lift (setpointPossible outT w0) ;;
        (when ok (setSetpointC outT)) ;;
        w1 <- get ;;
        p <- lift (getPerformance w1 h air (if h_multipass h then (outT + inT) / #2 else inT)) ;;
        '(ok', _) <- lift (setpointPossible (w_setpoint w0) w1) ;;
        (when ok' (setSetpointC (w_setpoint w0))) ;;
        ret p
    | _ => w <- get ;; lift (getPerformance w h air inT)
    end.
  Definition powerFromW (p : T) (u : units) : outc T :=
    match u with U_BTUperHr => Ok (W_TO_BTUperH p) | U_KW => Ok (W_TO_KW p) | _ => badUnits end.
  (** HPWH.cc:1844-1922 getCompressorCapacity *)
  Definition getCompressorCapacity (air inT outT : T) (pu tu : units) : M W T :=
    w <- get ;;
    if negb (hasCompressor w) then lift noCompressor
    else
      airC <- lift (tempToC air tu) ;;
      inC <- lift (tempToC inT tu) ;;
      outC <- lift (tempToC outT tu) ;;
      h <- lift (compressor w) ;;
      if (((airC + tolT) <? h_minT h) || (airC >? (h_maxT h + tolT)))%bool
      then throw "The compressor does not operate at the specified air temperature."
      else if outC >? ((h_maxSet h - h_shxHot h) + tolT)
      then throw "Inputted outlet temperature of the compressor is higher than can be produced."
      else
        p <- capPerf h airC inC outC ;;
        lift (powerFromW (p_out p) pu).

  (** HPWH.cc:2431-2448 setScaleCapacityCOP *)
  Definition setScaleCapacityCOP (cap cop : T) : M W unit :=
    w <- get ;;
    if negb (w_canScale w) then throw "Cannot scale the HPWH Capacity or COP."
    else if negb (hasCompressor w) then lift noCompressor
    else if ((cap <=? #0) || (cop <=? #0))%bool then throw "Can not scale the HPWH Capacity or COP to 0 or less than 0."
    else
      _ <- lift (compressor w) ;;
      modHS (Z.to_nat (w_compIx w)) (fun h => set_h_inScale (h_inScale h * cap) (set_h_copScale (h_copScale h * cop) h)).
  (** HPWH.cc:2450-2461 setCompressorOutputCapacity *)
  Definition setCompressorOutputCapacity (new air inT outT : T) (pu tu : units) : M W unit :=
    old <- getCompressorCapacity air inT outT pu tu ;;
    scale <- lift (div_chk new old) ;;
    setScaleCapacityCOP scale #1.

  (** ** Resistance elements *)

  Definition isRes (h : hsrc T) : bool := match h_type h with TResistance => true | TCompressor => false end.
  (** HPWH.cc:1834-1842 getNumResistanceElements *)
  Definition numRes (w : W) : nat := length (filter isRes (w_hs w)).

  (** HPWH.cc:2585-2598 getResistancePosition *)
  Definition resPos (h : hsrc T) : Z := ntrunc (nofN CONDENSITY_SIZE * wd_lowestNormalizedHeight (h_dist h)).
  Definition getResistancePosition (i : Z) (w : W) : outc Z :=
    if ((i <? 0) || (i >? Z.of_nat (length (w_hs w)) - 1))%Z%bool
    then Err "Out of bounds value for which in getResistancePosition."
    else match nth_error (w_hs w) (Z.to_nat i) with
         | Some h => if isRes h then Ok (resPos h) else Err "This index is not a resistance element."
         | None => UB "heatSources index out of range"
         end.

  (** stand-in for std::sort by position (HPWH.cc:2794-2800); std::sort leaves the order of equal
      positions open, so the theorems are stated for every sorted permutation *)
  Fixpoint insertPos (p : Z * Z) (l : list (Z * Z)) : list (Z * Z) :=
    match l with
    | [] => [p]
    | q :: r => if Z.leb (snd p) (snd q) then p :: l else q :: insertPos p r
    end.
  Definition sortPos (l : list (Z * Z)) : list (Z * Z) := fold_right insertPos [] l.
  (** HPWH.cc:2786-2792: the unsorted map *)
  Fixpoint resPoints (hs : list (hsrc T)) (i : nat) : list (Z * Z) :=
    match hs with
    | [] => []
    | h :: r => if isRes h then (Z.of_nat i, resPos h) :: resPoints r (S i) else resPoints r (S i)
    end.
  (** HPWH.cc:2781-2801 mapResRelativePosToHeatSources *)
  Definition mapRes (w : W) : W := set_w_resMap (sortPos (resPoints (w_hs w) 0)) w.

  (** setPower_W on heatSources[ix]; the cast to Resistance is unchecked, like the index *)
  Definition setPowerAt (kw : T) (ix : Z) : M W unit :=
    w <- get ;;
    match nth_error (w_hs w) (Z.to_nat ix) with
    | Some h => if (isRes h && (0 <=? ix)%Z)%bool then modHS (Z.to_nat ix) (set_h_power kw)
                else undef "not a resistance element"
    | None => undef "heatSources index out of range"
    end.
  Fixpoint setPowers (kw : T) (ixs : list Z) : M W unit :=
    match ixs with
    | [] => ret tt
    | i :: r => setPowerAt kw i ;; setPowers kw r
    end.
  (** HPWH.cc:2493-2520: the which-th entry first, then the others at the same position *)
  Definition sameHeight (m : list (Z * Z)) (n : nat) (which : nat) : outc (list Z) :=
    match nth_error m which with
    | None => UB "resistanceHeightMap[which]"
    | Some (ix, pos) =>
        if Nat.ltb (length m) n then UB "resistanceHeightMap[i]"
        else Ok (ix :: map (fun k => fst (nth k m (0, 0)%Z))
                           (filter (fun k => (negb (Nat.eqb which k) && Z.eqb (snd (nth k m (0, 0)%Z)) pos)%bool)
                                   (seq 0 n)))
    end.
  (** HPWH.cc:2463-2521 setResistanceCapacity.  setPower_W divides by 1000 (Resistance.hh:35) *)
  Definition setResistanceCapacity (power : T) (which : Z) (u : units) : M W unit :=
    w <- get ;;
    if negb (w_canScale w) then throw "Cannot scale the resistance elements."
    else if Nat.eqb (numRes w) 0 then throw "There are no resistance elements."
    else if ((which <? -1) || (which >? Z.of_nat (numRes w) - 1))%Z%bool
    then throw "Out of bounds value for which in setResistanceCapacity()."
    else if power <? #0 then throw "Can not have a negative input power."
    else
      watts <- lift (match u with
                     | U_KW => Ok (KW_TO_W power)
                     | U_BTUperHr => Ok (BTU_TO_KWH (KW_TO_W power))
                     | _ => badUnits end) ;;
      if Z.eqb which (-1) then
        modify (fun w => set_w_hs (map (fun h => if isRes h then set_h_power (watts / #1000) h else h) (w_hs w)) w)
      else
        ixs <- lift (sameHeight (w_resMap w) (numRes w) (Z.to_nat which)) ;;
        setPowers (watts / #1000) ixs.

  (** getPower_W of heatSources[ix] (Resistance.hh:34) *)
  Definition powerAt (w : W) (ix : Z) : outc T :=
    match nth_error (w_hs w) (Z.to_nat ix) with
    | Some h => if (isRes h && (0 <=? ix)%Z)%bool then Ok (#1000 * h_power h)
                else UB "not a resistance element"
    | None => UB "heatSources index out of range"
    end.
  Fixpoint sumPowers (w : W) (ixs : list Z) (acc : T) : outc T :=
    match ixs with
    | [] => Ok acc
    | i :: r => obind (powerAt w i) (fun p => sumPowers w r (acc + p))
    end.
  (** HPWH.cc:2523-2583 getResistanceCapacity *)
  Definition getResistanceCapacity (which : Z) (u : units) (w : W) : outc T :=
    if Nat.eqb (numRes w) 0 then Err "There are no resistance elements."
    else if ((which <? -1) || (which >? Z.of_nat (numRes w) - 1))%Z%bool
    then Err "Out of bounds value for which in getResistanceCapacity()."
    else
      obind (if Z.eqb which (-1)
             then Ok (fold_left (fun acc h => if isRes h then acc + #1000 * h_power h else acc) (w_hs w) #0)
             else obind (sameHeight (w_resMap w) (numRes w) (Z.to_nat which)) (fun ixs => sumPowers w ixs #0))
        (fun p => match u with
                  | U_KW => Ok (W_TO_KW p)
                  | U_BTUperHr => Ok (KWH_TO_BTU (W_TO_KW p))
                  | _ => badUnits end).

  (** ** Derived values *)

  (** local variables of the loop HPWH.cc:2733-2766 *)
  Record scanIx : Type := mkscan { x_comp : Z; x_low : Z; x_high : Z; x_vip : Z; x_lowPos : T; x_highPos : T }.
  Definition scanOne (s : scanIx) (i : nat) (h : hsrc T) : scanIx :=
    match h_type h with
    | TCompressor => mkscan (Z.of_nat i) (x_low s) (x_high s) (x_vip s) (x_lowPos s) (x_highPos s)
    | TResistance =>
        let vip := if (h_vip h && Z.eqb (x_vip s) (-1))%bool then Z.of_nat i else x_vip s in
        let pos := wd_lowestNormalizedHeight (h_dist h) in
        let '(low, lowPos) := if pos <? x_lowPos s then (Z.of_nat i, pos) else (x_low s, x_lowPos s) in
        let '(high, highPos) := if pos >=? x_highPos s then (Z.of_nat i, pos) else (x_high s, x_highPos s) in
        mkscan (x_comp s) low high vip lowPos highPos
    end.
  Fixpoint scanHS (s : scanIx) (i : nat) (hs : list (hsrc T)) : scanIx :=
    match hs with [] => s | h :: r => scanHS (scanOne s i h) (S i) r end.
  (** HPWH.cc:2709-2779 calcDerivedHeatingValues *)
  Definition deriveHS (n : nat) (h : hsrc T) : hsrc T :=
    set_h_depresses (match h_type h with TCompressor => true | TResistance => false end)
      (set_h_lowest (findLowestNode (h_dist h) n) (set_h_shrink (findShrinkageT (h_dist h) n) h)).
  Definition calcDerivedHeating (w : W) : W :=
    let w := set_w_hs (map (deriveHS (numNodes (w_tank w))) (w_hs w)) w in
    let s := scanHS (mkscan (-1) (-1) (-1) (-1) #1 #0) 0 (w_hs w) in
    set_w_compIx (x_comp s) (set_w_lowIx (x_low s) (set_w_highIx (x_high s) (set_w_vipIx (x_vip s) w))).
  (** HPWH.cc:2686-2707 calcDerivedValues *)
  Definition calcDerivedValues (w : W) : W :=
    let w := calcDerivedHeating w in
    mapRes (set_w_tank (calcSizeConstants (w_tank w)) w).

  (** ** Sizing fractions *)

  Definition l_desc (l : logic T) : string :=
    match l with TempLogic s _ _ _ _ _ _ => s | SoCLogic s _ _ _ _ _ _ _ => s end.
  (** HPWH.cc:2361-2417 getSizingFractions: (aquastat fraction, useable fraction) *)
  Definition aquaFract (w : W) (h : hsrc T) : T :=
    fold_left (fun a l => let x := l_nodeWeightAvgFract w l in if x <? a then x else a) (h_turnOn h) #1.
  Definition useFract (w : W) (h : hsrc T) : T :=
    fold_left (fun a l =>
                 let x := if (String.eqb (l_desc l) "large draw" || String.eqb (l_desc l) "larger draw")%bool
                          then #1 else #1 - l_nodeWeightAvgFract w l in
                 if x <? a then x else a) (h_shutOff h) #1.
  Definition getSizingFractions (w : W) : outc (T * T) :=
    if negb (hasCompressor w) then noCompressor
    else if w_usesSoC w then Err "Current model uses SOC control logic"
    else
      obind (compressor w) (fun h =>
      let aqua := aquaFract w h in
      let use := useFract w h in
      Ok (aqua, if nabs (aqua - (#1 - use)) <? TOL_MINVALUE then #1 - aqua + TOL_MINVALUE else use)).
End Setters.
