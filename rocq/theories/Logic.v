(** Heating logics and the on/off queries of a heat source.
    Models /repo/src/HPWHHeatingLogic.cc:10-292, /repo/src/HPWHHeatSource.cc:264-346 and
    /repo/src/Condenser.cc:82-175.  All of these only read the simulator state. *)

From Coq Require Import ZArith String List Bool.
From Verif Require Import Num Base Units Types Utils TankM.
Import ListNotations.
Local Open Scope string_scope.

Section Logic.
  Context {T : Type} `{Num T}.
  Local Open Scope num_scope.

  (** HPWHHeatingLogic.hh:9 *)
  Definition LOGIC_SIZE : nat := 12.

  (** the stored functor std::less<double> or std::greater<double> *)
  Definition compare (c : cmp) (a b : T) : bool :=
    match c with CLess => a <? b | CGreater => a >? b end.
  Definition l_cmp (l : logic T) : cmp :=
    match l with TempLogic _ _ _ _ c _ _ => c | SoCLogic _ _ _ _ _ _ c _ => c end.
  (** HPWHHeatingLogic.hh:53 checksStandby *)
  Definition l_checksStandby (l : logic T) : bool :=
    match l with TempLogic _ _ _ _ _ _ s => s | SoCLogic _ _ _ _ _ _ _ s => s end.

  (** HPWH.hh:500-529 Distribution::isValid *)
  Definition dist_isValid (d : distribution T) : bool :=
    match d_type d with DWeighted => wd_isValid (d_w d) | _ => true end.

  (** HPWHHeatingLogic.cc:10-18, 165-173 isValid *)
  Definition l_isValid (l : logic T) : bool :=
    match l with
    | TempLogic _ d _ _ _ _ _ => dist_isValid d
    | SoCLogic _ dp _ _ _ _ _ _ => negb (dp <? #0)
    end.

  (** HPWHHeatingLogic.cc:20-23, 175-186 getComparisonValue *)
  Definition l_comparison (w : hpwh T) (l : logic T) : T :=
    match l with
    | TempLogic _ _ dp isAbs _ _ _ => if isAbs then dp else w_setpoint w - dp
    | SoCLogic _ dp hyst _ _ _ _ _ => dp + hyst
    end.

  (** HPWHHeatingLogic.cc:25-32, 188 getTankValue *)
  Definition l_tankValue (w : hpwh T) (l : logic T) : outc T :=
    match l with
    | TempLogic _ d _ _ _ _ _ => averageT_distribution d (w_tank w)
    | SoCLogic _ _ _ _ constMains _ _ _ =>
        if (negb (w_haveInletT w) && negb constMains)%bool
        then Err "SoC-based heating logic used without constant mains."
        else Ok (w_SoC w)
    end.

  (** HPWHHeatingLogic.cc:34-44 getMainsT_C *)
  Definition soc_mains (w : hpwh T) (constMains : bool) (mains : T) : T :=
    if constMains then mains else w_inletT w.

  (** [logic->compare(logic->getTankValue(), logic->getComparisonValue())] *)
  Definition l_met (w : hpwh T) (l : logic T) : outc bool :=
    obind (l_tankValue w l) (fun v => Ok (compare (l_cmp l) v (l_comparison w l))).

  (** HPWHHeatingLogic.cc:56, 197-224 nodeWeightAvgFract *)
  Definition l_nodeWeightAvgFract (w : hpwh T) (l : logic T) : T :=
    match l with
    | SoCLogic _ _ _ _ _ _ _ _ => l_comparison w l
    | TempLogic _ d _ _ _ _ _ =>
        match d_type d with
        | DBottom => #1 / nofN (numNodes (w_tank w))
        | DTop => #1
        | DWeighted =>
            let '(totWA, totW, prevH) :=
              fold_left (fun '(totWA, totW, prevH) '(h, wt) =>
                           let weight := wt * (h - prevH) in
                           (totWA + weight * (dec 5 10 * (h + prevH)), totW + weight, h))
                        (d_w d) (#0, #0, #0) in
            totWA / totW / prevH + dec 5 10 / nofN LOGIC_SIZE
        end
    end.

  (** HPWHHeatingLogic.cc:71-79: the node above the highest node that is too cold; the loop runs
      over nodes k-1, ..., 0 *)
  Fixpoint soc_calcNode (Ts : list T) (tMin : T) (k : nat) : nat :=
    match k with
    | O => O
    | S i => if nget Ts i <? tMin then k else soc_calcNode Ts tMin i
    end.

  (** HPWHHeatingLogic.cc:58-120 *)
  Definition soc_fract (w : hpwh T) (l : logic T) (tMin : T) (constMains : bool) (mains : T) : outc T :=
    obind (l_tankValue w l) (fun soc =>
    let Ts := t_Ts (w_tank w) in
    let n := numNodes (w_tank w) in
    let delta := (l_comparison w l + TOL_MINVALUE) - soc in
    if delta >=? (#1 / nofN n) then Ok #1
    else
      let c := soc_calcNode Ts tMin n in
      if Nat.eqb c n then Ok #1
      else
        let mT := soc_mains w constMains mains in
        let maxSoC := nofN n * getChargePerNode mT tMin (w_setpoint w) in
        obind (div_chk (nget Ts c - mT) (tMin - mT)) (fun charge =>
        let target := (delta * maxSoC + charge) * (tMin - mT) + mT in
        let fractCalc :=
          if nget Ts c >=? w_setpoint w then #1
          else (target - nget Ts c) / (w_setpoint w - nget Ts c) in
        match c with
        | O => Ok fractCalc
        | S c' =>
            let fractNext := (tMin - nget Ts c') / (nget Ts c - nget Ts c') + TOL_MINVALUE in
            Ok (nmin fractCalc fractNext)
        end)).

  (** HPWHHeatingLogic.cc:252-268: (first node, last node, weighted sum, total weight) over the nodes
      with positive weight *)
  Definition temp_scan (wd : wdist T) (Ts : list T) : option nat * nat * T * T :=
    let n := length Ts in
    fold_left (fun '(first, last, sum, tot) i =>
                 let fStart := nofN i / nofN n in
                 let wt := wd_normalizedWeight wd fStart (fStart + #1 / nofN n) in
                 if wt >? #0 then
                   (match first with None => Some i | _ => first end, i,
                    sum + wt * nget Ts i, tot + wt)
                 else (first, last, sum, tot))
              (seq 0 n) (None, O, #0, #0).

  (** HPWHHeatingLogic.cc:226-292 *)
  Definition temp_fract (w : hpwh T) (l : logic T) (d : distribution T) : outc T :=
    let Ts := t_Ts (w_tank w) in
    let n := numNodes (w_tank w) in
    match Ts with
    | [] => UB "front() of empty vector"
    | _ =>
        let comparisonT := l_comparison w l + TOL_MINVALUE in
        let '(first, calc, sum, tot) :=
          match d_type d with
          | DBottom => (Some O, O, nget Ts 0, #1)
          | DTop => (Some (n - 1)%nat, (n - 1)%nat, nget Ts (n - 1), #1)
          | DWeighted => temp_scan (d_w d) Ts
          end in
        match first with
        | None => UB "nodeTs_C[-1]"
        | Some f =>
            let avg := sum / tot in
            let target := if Nat.ltb calc (n - 1) then nget Ts (calc + 1) else w_setpoint w in
            let nodeDiff := target - nget Ts f in
            let logicDiff := comparisonT - avg in
            let nodeFrac :=
              if compare (l_cmp l) avg comparisonT then #0
              else if nodeDiff >? #0 then logicDiff / nodeDiff else #1 in
            Ok (nofN n / nofN LOGIC_SIZE * nodeFrac)
        end
    end.

  Definition l_fract (w : hpwh T) (l : logic T) : outc T :=
    match l with
    | TempLogic _ d _ _ _ _ _ => temp_fract w l d
    | SoCLogic _ _ _ tMin cm m _ _ => soc_fract w l tMin cm m
    end.

  (** ** Queries of a heat source *)

  (** HPWHHeatSource.cc:321-330: every logic is evaluated *)
  Fixpoint anyMet (w : hpwh T) (ls : list (logic T)) (acc : bool) : outc bool :=
    match ls with
    | [] => Ok acc
    | l :: r => obind (l_met w l) (fun b => anyMet w r (acc || b)%bool)
    end.

  (** HPWHHeatSource.cc:311-333 shutsOff *)
  Definition shutsOff (w : hpwh T) (h : hsrc T) : outc bool :=
    match t_Ts (w_tank w) with
    | [] => UB "nodeTs_C[0]"
    | x :: _ => if x >=? w_setpoint w then Ok true else anyMet w (h_shutOff h) false
    end.

  (** HPWHHeatSource.cc:270-300: stops at the first logic that asks for heat *)
  Fixpoint wantsHeat (w : hpwh T) (stby : option (logic T)) (ls : list (logic T)) : outc bool :=
    match ls with
    | [] => Ok false
    | l :: r =>
        obind (l_met w l) (fun met =>
        obind (if met then
                 match stby with
                 | Some s =>
                     if l_checksStandby l
                     then obind (l_tankValue w s) (fun v => Ok (compare (l_cmp l) v (l_comparison w s)))
                     else Ok true
                 | None => Ok true
                 end
               else Ok false)
              (fun engage => if engage then Ok true else wantsHeat w stby r))
    end.

  (** HPWHHeatSource.cc:264-309 shouldHeat *)
  Definition shouldHeat (w : hpwh T) (h : hsrc T) : outc bool :=
    obind (wantsHeat w (h_standby h) (h_turnOn h)) (fun b =>
    if b then obind (shutsOff w h) (fun s => Ok (negb s)) else Ok false).

  (** HPWHHeatSource.cc:335-346 *)
  Fixpoint fractLoop (w : hpwh T) (ls : list (logic T)) (frac : T) : outc T :=
    match ls with
    | [] => Ok frac
    | l :: r => obind (l_fract w l) (fun f => fractLoop w r (if f <? frac then f else frac))
    end.
  Definition fractToMeet (w : hpwh T) (h : hsrc T) : outc T := fractLoop w (h_shutOff h) #1.

  (** Condenser.cc:82-96, HPWHHeatSource.hh:44 maxedOut *)
  Definition maxedOut (w : hpwh T) (h : hsrc T) : outc bool :=
    match h_type h with
    | TResistance => Ok false
    | TCompressor =>
        if w_setpoint w >? h_maxSet h then
          match t_Ts (w_tank w) with
          | [] => UB "nodeTs_C[0]"
          | x :: _ => if x >=? h_maxSet h then Ok true else shutsOff w h
          end
        else Ok false
    end.

  (** Condenser.cc:110-131: the air temperature part of shouldLockOut *)
  Definition airLocks (h : hsrc T) (amb : T) : bool :=
    (if h_on h then (amb + tolT) <? (h_minT h - h_hyst h) else (amb + tolT) <? h_minT h)
    || (if h_on h then amb >? (h_maxT h + h_hyst h + tolT) else amb >? (h_maxT h + tolT)).

  (** Condenser.cc:98-142 shouldLockOut *)
  Definition shouldLockOut (w : hpwh T) (h : hsrc T) (amb : T) : outc bool :=
    if h_locked h then Ok true
    else obind (maxedOut w h) (fun m => Ok (airLocks h amb || m)%bool).

  (** Condenser.cc:161-172 *)
  Definition airUnlocks (h : hsrc T) (amb : T) : bool :=
    if h_on h
    then (amb >? (h_minT h + h_hyst h + tolT)) && ((amb + tolT) <? (h_maxT h - h_hyst h))
    else (amb >? (h_minT h + tolT)) && ((amb + tolT) <? h_maxT h).

  (** Condenser.cc:144-175 shouldUnlock *)
  Definition shouldUnlock (w : hpwh T) (h : hsrc T) (amb : T) : outc bool :=
    if negb (h_locked h) then Ok true
    else obind (maxedOut w h) (fun m => Ok (if m then false else airUnlocks h amb)).

  (** HPWH.cc:2803-2814 shouldDRLockOut *)
  Definition shouldDRLockOut (ty : hstype) (dr : Z) : bool :=
    match ty with TCompressor => dr_has DR_LOC dr | TResistance => dr_has DR_LOR dr end.
End Logic.
