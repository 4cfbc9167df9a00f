(** The tank.  Models /repo/src/Tank.cc:89-795 function by function. *)

From Coq Require Import ZArith String List Bool.
From Verif Require Import Num Base Units Types Utils.
Import ListNotations.
Local Open Scope string_scope.

Section Tank.
  Context {T : Type} `{Num T}.
  Local Open Scope num_scope.
  Local Open Scope monad_scope.

  (** Tank.hh:134-137 *)
  Definition numNodes (t : tank T) : nat := length (t_Ts t).

  (** ** Geometry *)

  (** Tank.hh:9 *)
  Definition ASPECTRATIO : T := dec 475 100.
  (** the literal 3.14159 used for pi *)
  Definition PI_lit : T := dec 314159 100000.

  (** Tank.cc:143-153 getRadius_m *)
  Definition tankRadius_m (vol : T) : T :=
    if vol >=? #0 then
      FT_TO_M (npow (L_TO_FT3 vol / PI_lit / ASPECTRATIO) (#1 / #3))
    else #(-1).

  (** Tank.cc:167-176 getSurfaceArea_m2.  pow(x, 2) is modelled as x * x *)
  Definition surfaceArea_m2 (vol : T) : T :=
    let radius_ft := npow (L_TO_FT3 vol / PI_lit / ASPECTRATIO) (#1 / #3) in
    FT2_TO_M2 (#2 * PI_lit * (radius_ft * radius_ft) * (ASPECTRATIO + #1)).

  (** Tank.cc:104-119 calcSizeConstants *)
  Definition calcSizeConstants (t : tank T) : tank T :=
    let rad := tankRadius_m (t_volume t) in
    let hgt := ASPECTRATIO * rad in
    let n := nofN (numNodes t) in
    let nv := t_volume t / n in
    let t := set_t_nodeVol nv t in
    let t := set_t_nodeCp (CPWATER * DENSITYWATER * nv) t in
    let t := set_t_nodeHeight (hgt / n) t in
    let t := set_t_fracTop (rad / (#2 * (hgt + rad))) t in
    let t := set_t_fracSide (hgt / (hgt + rad)) t in
    set_t_nodeHxEff (#1 - npow (#1 - t_hxEff t) (#1 / n)) t.

  (** Tank.cc:123-135 setVolume_L *)
  Definition setVolume (vol : T) (force : bool) : M (tank T) unit :=
    t <- get ;;
    if (t_fixed t && negb force)%bool then
      throw "Can not change the tank size for your currently selected model."
    else if vol <=? #0 then
      throw "You have attempted to set the tank volume outside of bounds."
    else
      modify (fun t => calcSizeConstants (set_t_volume vol t)).

  (** Tank.cc:157-165 setVolumeAndAdjustUA *)
  Definition setVolumeAndAdjustUA (vol : T) (force : bool) : M (tank T) unit :=
    t <- get ;;
    let newA := surfaceArea_m2 vol in
    let oldA := surfaceArea_m2 (t_volume t) in
    setVolume vol force ;;
    modify (fun t => set_t_UA (t_UA t * (newA / oldA)) t) ;;
    modify calcSizeConstants.

  (** Tank.cc:186-196 setNodeTs_C *)
  Definition setNodeTs (Tin : list T) : M (tank T) unit :=
    match Tin with
    | [] => throw "No temperatures provided."
    | _ =>
        t <- get ;;
        Ts <- lift (resample (t_Ts t) Tin) ;;
        modify (set_t_Ts Ts)
    end.

  (** Tank.cc:216-224 getNodeT_C: no range check other than emptiness *)
  Definition getNodeT (i : Z) (t : tank T) : outc T :=
    match t_Ts t with
    | [] => Err "You have attempted to access the temperature of a tank node that does not exist."
    | _ => if ((0 <=? i) && (i <? Z.of_nat (numNodes t)))%Z%bool
           then Ok (nget (t_Ts t) (Z.to_nat i)) else UB "nodeTs_C[nodeNum] out of range"
    end.

  (** Tank.cc:231-239 getAverageNodeT_C *)
  Definition averageT (t : tank T) : T := nsum (t_Ts t) / nofN (numNodes t).

  (** Tank.cc:241-255 average with a discrete distribution *)
  Definition averageT_dist (dist : list T) (t : tank T) : outc T :=
    obind (resample (map (fun _ => #0) dist) (t_Ts t)) (fun rs =>
    Ok (fold_left (fun acc '(d, x) => acc + d * x) (combine dist rs) #0)).

  (** Tank.cc:271-286, the inner while loop for one node; [rest] is the distribution from distPoint on *)
  Fixpoint avgW_inner (maxH nextH nodeT normH normD sum tot : T) (rest : wdist T)
    : outc (T * T * T * wdist T) :=
    match rest with
    | [] => UB "distPoint past the end"
    | (_, wt) :: r =>
        if normD <? nextH then
          let weight := wt * (normD - normH) in
          let '(sum', tot') := if weight >? #0 then (sum + weight * nodeT, tot + weight) else (sum, tot) in
          match r with
          | [] => UB "dereferenced the end of the distribution"
          | (h2, _) :: _ => avgW_inner maxH nextH nodeT normD (h2 / maxH) sum' tot' r
          end
        else Ok (sum, tot, normH, rest)
    end.

  (** Tank.cc:263-293, the loop over the nodes; [Ts] are the nodes from i on *)
  Fixpoint avgW_loop (maxH : T) (n : T) (i : nat) (sum tot : T) (rest : wdist T) (Ts : list T)
    : outc (T * T) :=
    match Ts with
    | [] => Ok (sum, tot)
    | nodeT :: Tr =>
        let nodeH := nofN i / n in
        let nextH := nofN (S i) / n in
        match rest with
        | [] => UB "empty distribution"
        | (h, _) :: _ =>
            obind (avgW_inner maxH nextH nodeT nodeH (h / maxH) sum tot rest)
              (fun '(sum, tot, normH, rest') =>
               match rest' with
               | [] => UB "distPoint past the end"
               | (_, wt) :: _ =>
                   let weight := wt * (nextH - normH) in
                   let '(sum', tot') :=
                     if weight >? #0 then (sum + weight * nodeT, tot + weight) else (sum, tot) in
                   avgW_loop maxH n (S i) sum' tot' rest' Tr
               end)
        end
    end.

  (** Tank.cc:257-295 average with a weighted distribution *)
  Definition averageT_wdist (w : wdist T) (t : tank T) : outc T :=
    obind (avgW_loop (wd_maxHeight w) (nofN (numNodes t)) 0 #0 #0 w (t_Ts t))
          (fun '(sum, tot) => div_chk sum tot).

  (** Tank.cc:297-317 *)
  Definition averageT_distribution (d : distribution T) (t : tank T) : outc T :=
    match d_type d with
    | DBottom => match t_Ts t with [] => UB "front() of empty vector" | x :: _ => Ok x end
    | DTop => match t_Ts t with [] => UB "back() of empty vector" | x :: r => Ok (last (x :: r) #0) end
    | DWeighted => averageT_wdist (d_w d) t
    end.

  (** Tank.cc:320-323 getHeatContent_kJ *)
  Definition heatContent (t : tank T) : T := DENSITYWATER * t_volume t * CPWATER * averageT t.

  (** Tank.cc:325-335 getNthSimTcouple *)
  Definition nthThermocouple (i n : Z) (t : tank T) : outc T :=
    if ((i >? n) || (i <? 1))%Z%bool then
      Err "You have attempted to access a simulated thermocouple that does not exist."
    else getResampledValue (t_Ts t) ((nofZ i - #1) / nofZ n) (nofZ i / nofZ n).

  (** Tank.cc:337-348 getInletHeight *)
  Definition getInletHeight (which : Z) (t : tank T) : outc Z :=
    if Z.eqb which 1 then Ok (t_inlet t)
    else if negb (Z.eqb which 2) then Err "Invalid inlet chosen in getInletHeight."
    else Ok (t_inlet2 t).

  (** ** Mixing *)

  (** Tank.cc:357-371 mixNodes (nodes bot .. below-1); out of range indices are undefined *)
  Definition mixNodes_list (bot below : nat) (f : T) (Ts : list T) : list T :=
    let avg := nsum (firstn (below - bot) (skipn bot Ts)) / nofN (below - bot) in
    mapi (fun i x => if (Nat.leb bot i && Nat.ltb i below)%bool then x + f * (avg - x) else x) Ts.

  (** Tank.cc:397-406, the scan for the extent of an inversion starting at node m (going down):
      returns the lowest node of the mixed region and the mixed temperature *)
  Fixpoint mixScan (Ts : list T) (mass : T) (m : nat) (Tm mm : T) : nat * T :=
    let Tm' := Tm + nget Ts m * mass in
    let mm' := mm + mass in
    match m with
    | O => (O, Tm' / mm')
    | S m' =>
        if (Tm' / mm') >? nget Ts m' then (m, Tm' / mm')
        else mixScan Ts mass m' Tm' mm'
    end.

  (** Tank.cc:385-412, one pass i, i-1, ..., 1 *)
  Fixpoint mixPass (mass : T) (i : nat) (Ts : list T) (hasInv : bool) : list T * bool :=
    match i with
    | O => (Ts, hasInv)
    | S i' =>
        if nget Ts i <? nget Ts i' then
          let '(m, Tx) := mixScan Ts mass i #0 #0 in
          mixPass mass i' (fillN Ts m (i - m + 1) Tx) true
        else mixPass mass i' Ts hasInv
    end.

  (** Tank.cc:381-414, the do-while loop *)
  Fixpoint mixLoop (fuel : nat) (mass : T) (Ts : list T) : outc (list T) :=
    match fuel with
    | O => NoFuel
    | S fuel' =>
        let '(Ts', inv) := mixPass mass (length Ts - 1) Ts false in
        if inv then mixLoop fuel' mass Ts' else Ok Ts'
    end.

  (** Tank.cc:374-416 mixInversions *)
  Definition mixInversions (fuel : nat) : M (tank T) unit :=
    t <- get ;;
    if t_doMix t then
      let volumePerNode := t_volume t / nofN (numNodes t) in
      Ts <- lift (mixLoop fuel (volumePerNode * DENSITYWATER) (t_Ts t)) ;;
      modify (set_t_Ts Ts)
    else ret tt.

  (** ** Draw *)

  (** Tank.cc:432-458: (high node, high fraction, high T, low node, low fraction, low T) *)
  Record inlets : Type := mkinlets { i_hiN : Z; i_hiF : T; i_hiT : T; i_loN : Z; i_loF : T; i_loT : T }.
  Definition sortInlets (t : tank T) (draw inT vol2 inT2 : T) : inlets :=
    if Z.ltb (t_inlet2 t) (t_inlet t) then
      mkinlets (t_inlet t) (#1 - vol2 / draw) inT (t_inlet2 t) (vol2 / draw) inT2
    else
      mkinlets (t_inlet2 t) (vol2 / draw) inT2 (t_inlet t) (#1 - vol2 / draw) inT.

  (** Tank.cc:468-475, heat-exchanger draw: returns node temperatures and outlet temperature *)
  Fixpoint hxDraw (drawCp nodeCp eff : T) (Ts : list T) (outT : T) : list T * T :=
    match Ts with
    | [] => ([], outT)
    | x :: r =>
        let maxHeat := drawCp * (x - outT) in
        let heat := eff * maxHeat in
        let '(r', outT') := hxDraw drawCp nodeCp eff r (outT + heat / drawCp) in
        (x - heat / nodeCp :: r', outT')
    end.

  (** Tank.cc:493-514, the sweep over nodes k-1, ..., 0 for an increment of [v] nodes *)
  Fixpoint drawSweep (p : inlets) (v : T) (k : nat) (fr : T) (Ts : list T) : list T :=
    match k with
    | O => Ts
    | S i =>
        let '(fr, Ts) :=
          if Z.eqb (Z.of_nat i) (i_hiN p)
          then (fr + i_hiF p, upd Ts i (nget Ts i + v * i_hiF p * i_hiT p)) else (fr, Ts) in
        let '(fr, Ts) :=
          if Z.eqb (Z.of_nat i) (i_loN p)
          then (fr + i_loF p, upd Ts i (nget Ts i + v * i_loF p * i_loT p)) else (fr, Ts) in
        let Ts :=
          match i with
          | O => Ts
          | S i' =>
              let transfer := v * (#1 - fr) * nget Ts i' in
              let Ts := upd Ts i (nget Ts i + transfer) in
              upd Ts i' (nget Ts i' - transfer)
          end in
        drawSweep p v i fr Ts
    end.

  (** Tank.cc:484-514, one increment without the final mixing: (output heat, new temperatures) *)
  Definition drawIncr (p : inlets) (nodeCp v : T) (Ts : list T) : T * list T :=
    let top := (length Ts - 1)%nat in
    let outHeat := nodeCp * v * nget Ts top in
    let Ts := upd Ts top (nget Ts top - outHeat / nodeCp) in
    (outHeat, drawSweep p v (length Ts) #0 Ts).

  (** Tank.cc:481-518, the while loop; returns totalExpelledHeat_kJ.  [mixFuel] bounds the passes of
      each call of mixInversions *)
  Fixpoint drawLoop (fuel mixFuel : nat) (p : inlets) (rem expelled : T) : M (tank T) T :=
    if rem >? #0 then
      match fuel with
      | O => nofuel
      | S fuel' =>
          let v := if rem >? #1 then #1 else rem in
          t <- get ;;
          let '(outHeat, Ts) := drawIncr p (t_nodeCp t) v (t_Ts t) in
          modify (set_t_Ts Ts) ;;
          mixInversions mixFuel ;;
          drawLoop fuel' mixFuel p (rem - v) (expelled + outHeat)
      end
    else ret expelled.

  (** Tank.cc:424-530, the draw part of updateNodes *)
  Definition drawPhase (fuel : nat) (draw inT vol2 inT2 : T) : M (tank T) unit :=
    if draw >? #0 then
      if vol2 >? draw then throw "Volume in inlet 2 is greater than the draw volume."
      else
        t <- get ;;
        let p := sortInlets t draw inT vol2 inT2 in
        let drawN := draw / t_nodeVol t in
        let drawCp := CPWATER * DENSITYWATER * draw in
        (if t_hasHX t then
           let '(Ts, outT) := hxDraw drawCp (t_nodeCp t) (t_nodeHxEff t) (t_Ts t) inT in
           modify (fun t => set_t_outletT outT (set_t_Ts Ts t))
         else
           match t_Ts t with
           | [] => undef "back() of empty vector"
           | _ =>
               e <- drawLoop fuel fuel p drawN #0 ;;
               modify (set_t_outletT (e / drawCp))
           end) ;;
        t <- get ;;
        if t_mixesOnDraw t then
          let below := ntrunc (nofN (numNodes t) * t_mixBelowFrac t) in
          if Z.ltb (Z.of_nat (numNodes t)) below then undef "mixNodes out of range"
          else modify (fun t => set_t_Ts (mixNodes_list 0 (Z.to_nat below) (#1 / #3) (t_Ts t)) t)
        else ret tt
    else ret tt.

  (** ** Standby losses and conduction *)

  (** Tank.cc:539-550: loss (kJ) of one end node *)
  Definition endLoss (t : tank T) (hours amb x : T) : T :=
    t_UA t * t_fracTop t * hours * (x - amb).
  (** Tank.cc:552-560: side loss of one node *)
  Definition sideLoss (t : tank T) (hours amb x : T) : T :=
    (t_UA t * t_fracSide t + t_fitUA t) / nofN (numNodes t) * hours * (x - amb).

  (** Tank.cc:533-564: nextNodeTs_C before conduction.  (The member nextNodeTs_C is scratch space:
      it is overwritten at the start of every call and not modelled as state.) *)
  Definition standbyTs (t : tank T) (hours amb : T) : list T :=
    let Ts := t_Ts t in
    let cp := t_nodeCp t in
    let top := (length Ts - 1)%nat in
    let next := upd Ts 0 (nget Ts 0 - endLoss t hours amb (nget Ts 0) / cp) in
    let next := upd next top (nget next top - endLoss t hours amb (nget Ts top) / cp) in
    mapi (fun i x => x - sideLoss t hours amb (nget Ts i) / cp) next.

  (** Tank.cc:570-573 *)
  Definition condTau (t : tank T) (seconds : T) : T :=
    #2 * KWATER / ((CPWATER * #1000) * (DENSITYWATER * #1000) * (t_nodeHeight t * t_nodeHeight t)) * seconds.

  (** Tank.cc:580-591: conduction added to [next], computed from the old temperatures [Ts] *)
  Definition conductTs (tau : T) (Ts next : list T) : list T :=
    let n := length Ts in
    let top := (n - 1)%nat in
    let next :=
      if Nat.ltb 1 n then
        let next := upd next 0 (nget next 0 + tau * (nget Ts 1 - nget Ts 0)) in
        upd next top (nget next top + tau * (nget Ts (n - 2) - nget Ts top))
      else next in
    mapi (fun i x => if (Nat.leb 1 i && Nat.ltb i top)%bool
                     then x + tau * (nget Ts (i + 1) - #2 * nget Ts i + nget Ts (i - 1)) else x) next.

  (** Tank.cc:532-599, the part of updateNodes after the draw *)
  Definition standbyPhase (fuel : nat) (hours seconds amb : T) : M (tank T) unit :=
    t <- get ;;
    match t_Ts t with
    | [] => undef "front() of empty vector"
    | _ =>
        let Ts := t_Ts t in
        let top := (length Ts - 1)%nat in
        let lossB := endLoss t hours amb (nget Ts 0) in
        let lossT := endLoss t hours amb (nget Ts top) in
        let lossS := nsum (map (sideLoss t hours amb) Ts) in
        let next := standbyTs t hours amb in
        let tau := condTau t seconds in
        if (t_doCond t && (tau >? #1))%bool then
          throw "The stability condition for conduction has failed!"
        else
          let next := if t_doCond t then conductTs tau Ts next else next in
          modify (fun t => set_t_stby (t_stby t + (lossB + lossT + lossS)) (set_t_Ts next t)) ;;
          mixInversions fuel
    end.

  (** Tank.cc:418-601 updateNodes.  [hours] and [seconds] are the members hoursPerStep and
      secondsPerStep of the owning HPWH *)
  Definition updateNodes (fuel : nat) (hours seconds draw inT amb vol2 inT2 : T) : M (tank T) unit :=
    drawPhase fuel draw inT vol2 inT2 ;;
    standbyPhase fuel hours seconds amb.

  (** ** Port heights *)

  (** Tank.cc:603-612 setNodeNumFromFractionalHeight *)
  Definition nodeFromFraction (n : nat) (f : T) : outc Z :=
    if ((f >? #1) || (f <? #0))%bool then Err "Out of bounds fraction for setInletByFraction."
    else
      let node := nfloor (nofN n * f) in
      Ok (if Z.eqb node (Z.of_nat n) then (Z.of_nat n - 1)%Z else node).
  (** Tank.cc:614-622 *)
  Definition setInletByFraction (f : T) : M (tank T) unit :=
    t <- get ;; z <- lift (nodeFromFraction (numNodes t) f) ;; modify (set_t_inlet z).
  Definition setInlet2ByFraction (f : T) : M (tank T) unit :=
    t <- get ;; z <- lift (nodeFromFraction (numNodes t) f) ;; modify (set_t_inlet2 z).

  (** ** State of charge *)

  (** Tank.cc:633-653 calcSoCFraction; the warnings it may send are not modelled *)
  Definition calcSoCFraction (tMains tMin tMax : T) (t : tank T) : T :=
    let charge := fold_left (fun acc x => acc + getChargePerNode tMains tMin x) (t_Ts t) #0 in
    let maxSoC := nofN (numNodes t) * getChargePerNode tMains tMin tMax in
    charge / maxSoC.

  (** ** Adding heat *)

  (** Tank.cc:657-669 = 719-731: number of nodes at or above nodeNum with the same temperature.
      [l] are the temperatures from nodeNum on *)
  Fixpoint equalRun (l : list T) : nat :=
    match l with
    | x :: ((y :: _) as r) => if nneqb x y then 1%nat else S (equalRun r)
    | _ => 1%nat
    end.

  (** Tank.cc:671-711, the while loop of addHeatAboveNode; [k] = number of iterations left before
      nodeNum + numNodesToHeat - 1 reaches getNumNodes() *)
  Fixpoint addHeatLoop (k : nat) (cp maxT : T) (node num : nat) (q : T) (Ts : list T) : T * list T :=
    match k with
    | O => (q, Ts)
    | S k' =>
        if q >? #0 then
          let target := (node + num)%nat in
          let heatTo :=
            if Nat.ltb (length Ts - 1) target then maxT
            else if nget Ts target >? maxT then maxT else nget Ts target in
          let qInc := nofN num * cp * (heatTo - nget Ts node) in
          let '(q', Ts') :=
            if qInc >? q then (#0, fillN Ts node num (nget Ts node + q / cp / nofN num))
            else if qInc >? #0 then (q - qInc, fillN Ts node num heatTo)
            else (q, Ts) in
          addHeatLoop k' cp maxT node (S num) q' Ts'
        else (q, Ts)
    end.

  (** Tank.cc:655-715 addHeatAboveNode on the temperatures: (unused heat, new temperatures) *)
  Definition addHeatAboveNode_list (cp q : T) (node : nat) (maxT : T) (Ts : list T) : T * list T :=
    let num := equalRun (skipn node Ts) in
    addHeatLoop (length Ts + 1 - (node + num)) cp maxT node num q Ts.

  Definition addHeatAboveNode (q : T) (node : nat) (maxT : T) : M (tank T) T :=
    t <- get ;;
    let '(q', Ts) := addHeatAboveNode_list (t_nodeCp t) q node maxT (t_Ts t) in
    modify (set_t_Ts Ts) ;; ret q'.

  (** Tank.cc:733-770, the while loop of addExtraHeatAboveNode *)
  Fixpoint addExtraLoop (k : nat) (cp : T) (node num : nat) (q : T) (Ts : list T) : T * list T :=
    match k with
    | O => (q, Ts)
    | S k' =>
        if q >? #0 then
          let target := (node + num)%nat in
          let heatTo :=
            if Nat.ltb (length Ts - 1) target then nget Ts node + q / cp / nofN num
            else nget Ts target in
          let qInc := cp * nofN num * (heatTo - nget Ts node) in
          let '(q', Ts') :=
            if qInc >? q then (#0, fillN Ts node num (nget Ts node + q / cp / nofN num))
            else if qInc >? #0 then (q - qInc, fillN Ts node num heatTo)
            else (q, Ts) in
          addExtraLoop k' cp node (S num) q' Ts'
        else (q, Ts)
    end.

  (** Tank.cc:717-771 addExtraHeatAboveNode (the unused heat is discarded by the code) *)
  Definition addExtraHeatAboveNode (q : T) (node : nat) : M (tank T) unit :=
    modify (fun t =>
      let num := equalRun (skipn node (t_Ts t)) in
      set_t_Ts (snd (addExtraLoop (length (t_Ts t) + 1 - (node + num)) (t_nodeCp t) node num q (t_Ts t))) t).

  (** Tank.cc:773-795 modifyHeatDistribution *)
  Definition modifyHeatDistribution (fuel : nat) (dist : list T) (setpoint : T) (t : tank T)
    : outc (list T) :=
    let tot := nsum dist in
    if tot =? #0 then Ok dist
    else
      let w := wd_of_nodes (map (fun x => x / tot) dist) in
      let shrink := findShrinkageT w (numNodes t) in
      let lowest := findLowestNode w (numNodes t) in
      obind (calcThermalDist fuel shrink lowest (t_Ts t) setpoint) (fun d =>
      Ok (map (fun x => x * tot) d)).
End Tank.
