(** Heat sources adding heat to the tank.
    Models /repo/src/HPWHHeatSource.cc:348-396, /repo/src/Resistance.cc:84-115,
    /repo/src/Condenser.cc:68-80, 882-1277 and the HPWH functions they call
    (/repo/src/HPWH.cc:822-849, 890-985, 999-1009, 2600-2616, 642-674). *)

From Coq Require Import ZArith String List Bool.
From Verif Require Import Num Base Units Types Utils TankM Logic.
Import ListNotations.
Local Open Scope string_scope.

Section HeatSrc.
  Context {T : Type} `{Num T}.
  Local Open Scope num_scope.
  Local Open Scope monad_scope.

  Notation W := (hpwh T).

  (** run a tank action on the tank of the simulator *)
  Definition onTank {A} (m : M (tank T) A) : M W A :=
    fun w => let '(r, t) := m (w_tank w) in (r, set_w_tank t w).

  (** heatSources[i] *)
  Definition getHS (i : nat) : M W (hsrc T) :=
    fun w => match nth_error (w_hs w) i with
             | Some h => (Ok h, w)
             | None => (UB "heatSources index out of range", w)
             end.
  Definition updHS (hs : list (hsrc T)) (i : nat) (f : hsrc T -> hsrc T) : list (hsrc T) :=
    match nth_error hs i with Some h => upd hs i (f h) | None => hs end.
  (** assignment to members of heatSources[i] *)
  Definition modHS (i : nat) (f : hsrc T -> hsrc T) : M W unit :=
    modify (fun w => set_w_hs (updHS (w_hs w) i f) w).
  (** evaluate a query on heatSources[i] *)
  Definition askHS {A} (i : nat) (q : W -> hsrc T -> outc A) : M W A :=
    h <- getHS i ;; w <- get ;; lift (q w h).

  (** HPWH.cc:999-1009, 2600-2606 updateSoCIfNecessary *)
  Definition calcSoC (w : W) : outc T :=
    if Z.ltb (w_compIx w) 0 then UB "heatSources[-1]"
    else match nth_error (w_hs w) (Z.to_nat (w_compIx w)) with
         | None => UB "heatSources index out of range"
         | Some h =>
             match h_turnOn h with
             | SoCLogic _ _ _ tMin cm m _ _ :: _ =>
                 Ok (calcSoCFraction (soc_mains w cm m) tMin (w_setpoint w) (w_tank w))
             | TempLogic _ _ _ _ _ _ _ :: _ => UB "NULL logicSoC"
             | [] => UB "turnOnLogicSet[0]"
             end
         end.
  Definition updateSoC : M W unit :=
    w <- get ;;
    if w_usesSoC w then v <- lift (calcSoC w) ;; modify (set_w_SoC v) else ret tt.

  (** ** Setpoint *)

  (** HPWH.cc hasACompressor *)
  Definition hasCompressor (w : W) : bool := Z.leb 0 (w_compIx w).

  (** HPWH.cc:911-970, the Celsius part of isNewSetpointPossible: (possible, maximum) *)
  Definition setpointPossible (new : T) (w : W) : outc (bool * T) :=
    if w_setFixed w then Ok (new =? w_setpoint w, w_setpoint w)
    else
      obind (if hasCompressor w then
               match nth_error (w_hs w) (Z.to_nat (w_compIx w)) with
               | None => UB "heatSources index out of range"
               | Some h =>
                   let mx := h_maxSet h - h_shxHot h in
                   Ok (negb ((new >? (mx + tolT)) && Z.eqb (w_lowIx w) (-1))%bool, mx)
               end
             else Ok (false, absolute_zeroT))
        (fun '(r, mx) =>
         if Z.leb 0 (w_lowIx w) then Ok (negb (new >? (#100 + tolT)), #100)
         else if (Z.eqb (w_lowIx w) (-1) && negb (hasCompressor w))%bool then Ok (w_storage w, mx)
         else Ok (r, mx)).

  (** HPWH.cc:836-848, setSetpoint in Celsius *)
  Definition setSetpointC (new : T) : M W unit :=
    w <- get ;;
    '(ok, _) <- lift (setpointPossible new w) ;;
    if ok then modify (set_w_setpoint new)
    else throw "Cannot set this setpoint for the currently selected model".

  (** ** Heat distribution and distributed heating *)

  (** HPWHHeatSource.cc:385-393: unnormalised weights of the nodes i, i+1, ... *)
  Definition nodeWeights (wd : wdist T) (n : nat) : list T :=
    map (fun i => wd_normalizedWeight wd (match i with O => #0 | _ => nofN i / nofN n end)
                                      (nofN (S i) / nofN n)) (seq 0 n).
  (** HPWHHeatSource.cc:378-396 calcHeatDist *)
  Definition calcHeatDist_base (wd : wdist T) (n : nat) : outc (list T) :=
    let ws := nodeWeights wd n in
    let tot := nsum ws in
    if ndivok tot then Ok (map (fun d => d / tot) ws) else UB "division by zero".

  (** Condenser.cc:1024-1037 and the base version; an external condenser leaves the vector empty *)
  Definition calcHeatDist (fuel : nat) (w : W) (h : hsrc T) : outc (list T) :=
    let n := numNodes (w_tank w) in
    match h_type h with
    | TResistance => calcHeatDist_base (h_dist h) n
    | TCompressor =>
        match h_config h with
        | Submerged => calcHeatDist_base (h_dist h) n
        | Wrapped => calcThermalDist fuel (h_shrink h) (h_lowest h) (t_Ts (w_tank w)) (w_setpoint w)
        | External => Ok []
        end
    end.

  (** *max_element(...): first largest *)
  Definition maxElement (l : list T) : outc T :=
    match l with
    | [] => UB "max_element of an empty range"
    | x :: r => Ok (fold_left (fun m y => if m <? y then y else m) r x)
    end.

  (** HPWHHeatSource.cc:358-372, nodes k-1, ..., 0.  std::pow(x, 2.) is modelled as x * x *)
  Fixpoint heatLoop (cp cap maxW maxT : T) (dist : list T) (k : nat) (lft : T) (Ts : list T)
    : T * list T :=
    match k with
    | O => (lft, Ts)
    | S i =>
        let d := nget dist i in
        let nodeCap := d * cap in
        let frac := d / maxW in
        let withheld := (#1 - frac) * (#1 - frac) * lft in
        let carried := lft - withheld in
        let avail := nodeCap + carried in
        if avail >? #0 then
          let '(q, Ts') := addHeatAboveNode_list cp avail i maxT Ts in
          heatLoop cp cap maxW maxT dist i (q + withheld) Ts'
        else heatLoop cp cap maxW maxT dist i lft Ts
    end.

  (** HPWHHeatSource.cc:348-374 heat, with HPWH.cc:2611-2616 (limit by the setpoint) *)
  Definition heatNodes (fuel : nat) (h : hsrc T) (cap maxSet : T) : M W T :=
    w <- get ;;
    dist <- lift (calcHeatDist fuel w h) ;;
    mw <- lift (maxElement dist) ;;
    if ndivok mw then
      if Nat.ltb (length dist) (numNodes (w_tank w)) then undef "heatDistribution[i] out of range"
      else
        let '(lft, Ts) :=
          heatLoop (t_nodeCp (w_tank w)) cap mw (nmin maxSet (w_setpoint w)) dist
                   (numNodes (w_tank w)) #0 (t_Ts (w_tank w)) in
        modify (fun w => set_w_tank (set_t_Ts Ts (w_tank w)) w) ;; ret lft
    else undef "division by zero".

  (** ** Resistance element *)

  (** Resistance.cc:84-101 addHeat *)
  Definition addHeatRes (fuel : nat) (i : nat) (minutes : T) : M W unit :=
    h <- getHS i ;;
    askHS i (fun w h => obind (calcHeatDist fuel w h) (fun _ => Ok tt)) ;;
    let cap := h_power h * (minutes * sec_per_min) in
    lft <- heatNodes fuel h cap #100 ;;
    q <- lift (div_chk lft cap) ;;
    let rt := (#1 - q) * minutes in
    modHS i (set_h_runtime rt) ;;
    (if rt <? (- TOL_MINVALUE) then throw "Negative runtime"
     else modHS i (fun h => set_h_eOut (h_eOut h + h_power h * (rt / min_per_hr))
                           (set_h_eIn (h_eIn h + h_power h * (rt / min_per_hr)) h))).

  (** Resistance.cc:103-115 toLockOrUnlock: no effect; returns the lock *)
  Definition resLock (i : nat) : M W bool := h <- getHS i ;; ret (h_locked h).

  (** ** Compressor performance *)

  (** Condenser.cc:1005-1014: index of the defrost interval containing the air temperature *)
  Fixpoint defrostPrev (m : list (T * T)) (i : nat) (air : T) : nat :=
    match m with
    | [] => O
    | (tF, _) :: r => if air <=? tF then (i - 1)%nat else defrostPrev r (S i) air
    end.
  (** Condenser.cc:998-1022 defrostDerate *)
  Definition defrostDerate (m : list (T * T)) (cop air : T) : outc T :=
    match m with
    | [] => UB "defrostMap[0]"
    | (t0, _) :: r =>
        if ((air <=? t0) || (air >=? fst (last m (#0, #0))))%bool then Ok cop
        else
          let i := defrostPrev r 1 air in
          match nth_error m i, nth_error m (S i) with
          | Some (xa, ya), Some (xb, yb) => Ok (cop * linearInterp air xa xb ya yb)
          | _, _ => UB "defrostMap index out of range"
          end
    end.

  (** Condenser.cc:930-987 getPerformance (the warnings it may send are not modelled) *)
  Definition getPerformance (w : W) (h : hsrc T) (ext0 cond0 : T) : outc (perf T) :=
    let cond := cond0 + h_shxCold h in
    let rdOn := ((h_rdPwr h >? #0) && (ext0 <? F_TO_C (h_rdBelow h)))%bool in
    let ext := if rdOn then ext0 + dF_TO_dC (h_rdLift h) else ext0 in
    let p := h_eval h (w_setpoint w) ext cond in
    let inP := p_in p * h_inScale h in
    let cop := p_cop p * h_copScale h in
    obind (if h_doDefrost h then defrostDerate (h_defrost h) cop (C_TO_F ext) else Ok cop) (fun cop =>
    let cop := if nneqb (h_airflow h) #1
               then cop * (dec 56 100000 * (#375 * h_airflow h) + dec 79 100) else cop in
    let outP := cop * inP in
    let inP' := if rdOn then inP + KW_TO_W (h_rdPwr h) else inP in
    Ok (mkperf inP' outP cop)).

  (** Condenser.cc:68-80 toLockOrUnlock *)
  Definition toLockOrUnlock (i : nat) (amb : T) : M W bool :=
    lock <- askHS i (fun w h => shouldLockOut w h amb) ;;
    when lock (modHS i (set_h_locked true)) ;;
    unlock <- askHS i (fun w h => shouldUnlock w h amb) ;;
    when unlock (modHS i (set_h_locked false)) ;;
    h <- getHS i ;; ret (h_locked h).

  (** ** Condenser *)

  (** HPWHHeatSource.cc:376 getTankTemp *)
  Definition hsTankTemp (w : W) (h : hsrc T) : outc T := averageT_wdist (h_dist h) (w_tank w).

  (** Condenser.cc:888-910, integrated condenser *)
  Definition addHeatIntegrated (fuel : nat) (i : nat) (ext minutes : T) : M W unit :=
    h <- getHS i ;;
    tIn <- askHS i hsTankTemp ;;
    modify (set_w_condIn tIn) ;;
    p <- askHS i (fun w h => getPerformance w h ext tIn) ;;
    let cap := W_TO_KW (p_out p) * (#60 * minutes) in
    lft <- heatNodes fuel h cap (h_maxSet h) ;;
    q <- lift (div_chk lft cap) ;;
    let rt := (#1 - q) * minutes in
    modHS i (set_h_runtime rt) ;;
    (if rt <? (- TOL_MINVALUE) then throw "Negative runtime"
     else
       tOut <- askHS i hsTankTemp ;;
       modify (set_w_condOut tOut) ;;
       modHS i (fun h => set_h_eOut (h_eOut h + W_TO_KW (p_out p) * (rt / min_per_hr))
                          (set_h_eIn (h_eIn h + W_TO_KW (p_in p) * (rt / min_per_hr)) h))).

  (** Condenser.cc:1121-1130 = 1237-1246: [cnt] nodes from [k] on; the last takes the target *)
  Fixpoint shiftUp (f target : T) (k cnt : nat) (Ts : list T) : list T :=
    match cnt with
    | O => Ts
    | S c =>
        let mixT := match c with O => target | _ => nget Ts (k + 1) end in
        shiftUp f target (S k) c (upd Ts k ((#1 - f) * nget Ts k + f * mixT))
    end.

  (** bounds of the loop above; [None] means an index is out of range *)
  Definition extPorts (n : nat) (h : hsrc T) : option (nat * nat) :=
    if ((0 <=? h_extOut h) && (h_extOut h <? Z.of_nat n))%Z%bool then
      if Z.leb (h_extOut h) (h_extIn h) then
        if Z.ltb (h_extIn h) (Z.of_nat n)
        then Some (Z.to_nat (h_extOut h), Z.to_nat (h_extIn h - h_extOut h + 1)) else None
      else Some (Z.to_nat (h_extOut h), O)
    else None.

  (** local variables of the external heating loops: remaining time and the accumulated outputs *)
  Record extAcc : Type := mkacc { a_rem : T; a_in : T; a_out : T; a_cop : T }.

  (** Condenser.cc:1056-1147, the do-while loop of addHeatExternal *)
  Fixpoint extLoopSP (fuel mixFuel : nat) (i : nat) (ext setT : T) (a : extAcc) : M W extAcc :=
    match fuel with
    | O => nofuel
    | S fuel' =>
        h <- getHS i ;;
        w <- get ;;
        match extPorts (numNodes (w_tank w)) h with
        | None => undef "node index out of range"
        | Some (o, cnt) =>
            let outT := nget (t_Ts (w_tank w)) o in
            p <- lift (getPerformance w h ext outT) ;;
            let power := W_TO_KW (p_out p) in
            let dT := setT - outT in
            if dT <=? #0 then ret a
            else
              let capacity := power * (a_rem a * sec_per_min) in
              let nodeHeat := t_nodeCp (w_tank w) * dT in
              let '(frac, needed) :=
                if capacity <? nodeHeat then (capacity / nodeHeat, capacity) else (#1, nodeHeat) in
              fs <- lift (fractToMeet w h) ;;
              let '(frac, needed) := if fs <? frac then (fs, fs * nodeHeat) else (frac, needed) in
              let '(time, rem) :=
                if capacity >? needed
                then let t := a_rem a * (needed / capacity) in (t, a_rem a - t)
                else (a_rem a, #0) in
              modify (fun w => set_w_condOut (w_condOut w + setT * time)
                                 (set_w_condIn (w_condIn w + outT * time) w)) ;;
              modify (fun w => set_w_tank (set_t_Ts (shiftUp frac setT o cnt (t_Ts (w_tank w))) (w_tank w)) w) ;;
              onTank (mixInversions mixFuel) ;;
              updateSoC ;;
              modify (fun w => set_w_extVol (w_extVol w + frac * t_nodeVol (w_tank w)) w) ;;
              let a' := mkacc rem (a_in a + (p_in p + h_shxPump h) * time) (a_out a + p_out p * time)
                              (a_cop a + p_cop p * time) in
              if rem >? #0 then
                off <- askHS i shutsOff ;;
                if off then ret a' else extLoopSP fuel' mixFuel i ext setT a'
              else ret a'
        end
    end.

  (** Condenser.cc:1152-1160 = 1265-1273: averages over the time run *)
  Definition extFinish (step : T) (a : extAcc) : M W (T * perf T) :=
    let rt := step - a_rem a in
    if rt >? #0 then
      modify (fun w => set_w_condOut (w_condOut w / rt) (set_w_condIn (w_condIn w / rt) w)) ;;
      ret (rt, mkperf (a_in a / rt) (a_out a / rt) (a_cop a / rt))
    else ret (rt, mkperf (a_in a) (a_out a) (a_cop a)).

  (** Condenser.cc:1048-1164 addHeatExternal *)
  Definition addHeatExternal (fuel : nat) (i : nat) (ext step : T) : M W (T * perf T) :=
    h <- getHS i ;;
    w <- get ;;
    a <- extLoopSP fuel fuel i ext (nmin (h_maxSet h) (w_setpoint w)) (mkacc step #0 #0 #0) ;;
    extFinish step a.

  (** Condenser.cc:1182-1262, the do-while loop of addHeatExternalMP *)
  Fixpoint extLoopMP (fuel mixFuel : nat) (i : nat) (ext : T) (a : extAcc) : M W extAcc :=
    match fuel with
    | O => nofuel
    | S fuel' =>
        h <- getHS i ;;
        w <- get ;;
        let n := numNodes (w_tank w) in
        let frac0 := h_mpFlow h * (a_rem a * sec_per_min) / t_nodeVol (w_tank w) in
        let frac := if frac0 >? #1 then #1 else frac0 in
        modify (fun w => set_w_tank (set_t_Ts (mixNodes_list 0 n frac (t_Ts (w_tank w))) (w_tank w)) w) ;;
        w <- get ;;
        match extPorts n h with
        | None => undef "node index out of range"
        | Some (o, cnt) =>
            let outT := nget (t_Ts (w_tank w)) o in
            p <- lift (getPerformance w h ext outT) ;;
            let power := W_TO_KW (p_out p) in
            dT <- lift (div_chk power (h_mpFlow h * CPWATER * DENSITYWATER)) ;;
            let target := outT + dT in
            let capacity := power * (a_rem a * sec_per_min) in
            let nodeHeat := t_nodeCp (w_tank w) * dT in
            let '(time, rem) :=
              if capacity >? nodeHeat
              then let t := a_rem a * (nodeHeat / capacity) in (t, a_rem a - t)
              else (a_rem a, #0) in
            modify (fun w => set_w_condOut (w_condOut w + target * time)
                               (set_w_condIn (w_condIn w + outT * time) w)) ;;
            modify (fun w => set_w_tank (set_t_Ts (shiftUp frac target o cnt (t_Ts (w_tank w))) (w_tank w)) w) ;;
            onTank (mixInversions mixFuel) ;;
            updateSoC ;;
            modify (fun w => set_w_extVol (w_extVol w + frac * t_nodeVol (w_tank w)) w) ;;
            let a' := mkacc rem (a_in a + (p_in p + h_shxPump h) * time) (a_out a + p_out p * time)
                            (a_cop a + p_cop p * time) in
            if rem >? #0 then
              off <- askHS i shutsOff ;;
              if off then ret a' else extLoopMP fuel' mixFuel i ext a'
            else ret a'
        end
    end.

  (** Condenser.cc:1175-1277 addHeatExternalMP *)
  Definition addHeatExternalMP (fuel : nat) (i : nat) (ext step : T) : M W (T * perf T) :=
    a <- extLoopMP fuel fuel i ext (mkacc step #0 #0 #0) ;;
    extFinish step a.

  (** Condenser.cc:882-928 addHeat *)
  Definition addHeatCond (fuel : nat) (i : nat) (ext minutes : T) : M W unit :=
    h <- getHS i ;;
    match h_config h with
    | External =>
        '(rt, p) <- (if h_multipass h then addHeatExternalMP fuel i ext minutes
                     else addHeatExternal fuel i ext minutes) ;;
        modHS i (fun h => set_h_eOut (h_eOut h + W_TO_KW (p_out p) * (rt / min_per_hr))
                           (set_h_eIn (h_eIn h + W_TO_KW (p_in p) * (rt / min_per_hr))
                             (set_h_runtime rt h)))
    | _ => addHeatIntegrated fuel i ext minutes
    end.

  (** HPWH.cc:642-674 addHeatParent *)
  Definition addHeatParent (fuel : nat) (i : nat) (amb minutes : T) : M W unit :=
    h <- getHS i ;;
    match h_type h with
    | TResistance => addHeatRes fuel i minutes
    | TCompressor =>
        w <- get ;;
        let low := ((amb <=? h_mlAir h) && (w_setpoint w >=? h_mlOut h))%bool in
        let temp := if low then w_setpoint w else absolute_zeroT in
        when low (setSetpointC (h_mlOut h)) ;;
        addHeatCond fuel i amb minutes ;;
        when (temp >? absolute_zeroT) (setSetpointC temp)
    end.
End HeatSrc.
