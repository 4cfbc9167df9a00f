(** The procedures that set a unit up without a description: setAllDefaults, the resistance tanks and the
    generic heat-pump water heater.  Models /repo/src/HPWHpresets.cc:14-330 and the functions it calls. *)

From Coq Require Import ZArith String List Bool.
From Verif Require Import Num Base Units Types Utils TankM Logic HeatSrc Step Setters Config Perf Rating Fitter DataModel.
Import ListNotations.
Local Open Scope string_scope.

Section Init.
  Context {T : Type} `{Num T}.
  Local Open Scope num_scope.
  Local Open Scope monad_scope.
  Notation W := (hpwh T).

  (** Tank.cc:89-102 Tank::setAllDefaults; volume, UA, node sizes, mixesOnDraw, standbyLosses_kJ and outletT_C stay *)
  Definition tankDefaults (t : tank T) : tank T :=
    set_t_Ts [] (set_t_fixed true (set_t_inlet 0 (set_t_inlet2 0 (set_t_mixBelowFrac (#1 / #3)
    (set_t_doMix true (set_t_doCond true (set_t_hasHX false (set_t_hxEff (dec 9 10) (set_t_fitUA #0 t))))))))).
  (** HPWH.cc:145-150 setMinutesPerStep *)
  Definition stepLength (m : T) (w : W) : W :=
    set_w_minStep m (set_w_secStep (sec_per_min * m) (set_w_hrStep (m / min_per_hr) w)).
  (** HPWH.cc:171-195 setAllDefaults; the indices of compressor and elements and the setpoint stay *)
  Definition setAllDefaults (w : W) : W :=
    set_w_storage false (stepLength #1 (set_w_usesSoC false (set_w_timer #0 (set_w_timerLimit #60 (set_w_prevDR 0
    (set_w_locT UNINITIALIZED_LOCATIONTEMP (set_w_doDepress false (set_w_SoC #1 (set_w_setFixed false
    (set_w_heating false (set_w_haveInletT false (set_w_inletT #(-1) (set_w_canScale false
    (set_w_hs [] (set_w_tank (tankDefaults (w_tank w)) w))))))))))))))).

  (** Tank.cc:180-184 setNumNodes: std::vector::resize, new entries are zero *)
  Definition setNumNodes (n : nat) (t : tank T) : tank T :=
    set_t_Ts (firstn n (t_Ts t ++ repeat #0 n))%list t.

  (** Resistance.cc:67-82 Resistance::setup with the default condensitySize 12 *)
  Definition setupRes (node : Z) (watts : T) (h : hsrc T) : hsrc T :=
    let dnode := #1 / #12 in
    let b := dnode * nofZ node in
    let e := dnode * (nofZ node + #1) in
    set_h_power (watts / #1000)
      (set_h_dist ((if b >? #0 then [(b, #0)] else []) ++ [(e, #1)] ++ (if e <? #1 then [(#1, #0)] else []))%list
      (set_h_vip false (set_h_on false h))).

  (** HPWH.cc:1585-1589 topThird, 1608-1612 bottomThird, 1704-1709 bottomTwelfthMaxTemp *)
  Definition topThird (d : T) : logic T := rangeLogic "top third" (#2 / #3) #1 d false CLess.
  Definition bottomThird (d : T) : logic T := rangeLogic "bottom third" #0 (#1 / #3) d false CLess.
  Definition bottomTwelfthMaxTemp (d : T) : logic T := rangeLogic "bottom twelfth" #0 (#1 / #12) d true CGreater.
  (** HPWH.cc:1670-1682 standby, topNode *)
  Definition standbyTop (d : T) : logic T := TempLogic "standby" (mkdist DTop []) d false CLess false true.
  Definition topNode (d : T) : logic T := TempLogic "top of tank" (mkdist DTop []) d false CLess false false.

  (** addResistance: the constructors; an element has no configuration, the model gives it one *)
  Definition newElement (j : hsrc T) : hsrc T := set_h_config Wrapped (freshRes j).

  (** HPWHpresets.cc:60-71, 146-157: the upper element; [j] supplies the members the constructor leaves unset *)
  Definition upperElement (watts : T) (followed : option nat) (j : hsrc T) : hsrc T :=
    set_h_followed followed (set_h_vip true (set_h_turnOn [topThird (dF_TO_dC #20)] (setupRes 8 watts (newElement j)))).
  (** HPWHpresets.cc:73-79, 159-166: the lower element *)
  Definition lowerElement (watts : T) (j : hsrc T) : hsrc T :=
    set_h_turnOn [bottomThird (dF_TO_dC #40); topNode (dF_TO_dC #10)] (setupRes 0 watts (newElement j)).

  (** HPWHpresets.cc:106-116, 190-206, 317-329: calcDerivedValues, checkInputs and the heating flag *)
  Definition finishInit : M W unit :=
    modify calcDerivedValues ;;
    w <- get ;;
    lift (checkInputs w) ;;
    modify (fun w => set_w_heating (existsb h_on (w_hs w)) w).

  (** HPWHpresets.cc:42-54, 138-149: twelve nodes, the volume, the setpoint 127 F *)
  Definition blankTank (vol : T) : M W unit :=
    modify (fun w => set_w_tank (set_t_fixed false (setNumNodes 12 (w_tank w))) w) ;;
    setTankSize vol U_L false ;;
    modify (set_w_setpoint (F_TO_C #127)) ;;
    resetTankToSetpoint ;;
    modify (fun w => set_w_doDepress false (set_w_tank (set_t_mixesOnDraw true (w_tank w)) w)).

  (** HPWHpresets.cc:98-104, 182-188: a negative heat loss coefficient is replaced by zero (the warning is not modelled) *)
  Definition clampUA : M W unit :=
    modify (fun w => if t_UA (w_tank w) <? #0 then set_w_tank (set_t_UA #0 (w_tank w)) w else w).
  Definition setTankUA (ua : T) : M W unit :=
    modify (fun w => set_w_tank (set_t_UA ua (w_tank w)) w).

  (** HPWHpresets.cc:86-97: the heat loss coefficient that belongs to an energy factor *)
  Definition UAfromEF (EF lower : T) : outc T :=
    let eff := dec 98 100 in
    obind (div_chk #1 EF) (fun a =>
    let numerator := a - #1 / eff in
    obind (div_chk #1 (eff * lower * dec 341443 100000)) (fun temp =>
    let denominator := dec 675 10 * (#24 / #41094 - temp) in
    obind (div_chk numerator denominator) (fun q => Ok (UAf_TO_UAc q)))).

  (** HPWHpresets.cc:20-117 initResistanceTank; [jt], [jb]: uninitialised members of the two elements *)
  Definition initResistanceTank (jt jb : hsrc T) (vol EF upper lower : T) : M W unit :=
    modify setAllDefaults ;;
    if lower <? #550 then throw "Resistance tank lower element wattage below 550 W."
    else if upper <? #0 then throw "Upper resistance tank wattage below 0 W."
    else if EF <=? #0 then throw "Energy Factor less than zero."
    else
      modify (set_w_hs []) ;;
      blankTank vol ;;
      modify (set_w_hs (if upper >? #0 then [upperElement upper (Some 1%nat) jt; lowerElement lower jb] else [lowerElement lower jb])) ;;
      ua <- lift (UAfromEF EF lower) ;;
      setTankUA ua ;;
      clampUA ;;
      finishInit.
  (** HPWHpresets.cc:14-18 *)
  Definition initResistanceTank_default (jt jb : hsrc T) : M W unit :=
    initResistanceTank jt jb (GAL_TO_L (dec 475 10)) (dec 95 100) #4500 #4500.

  (** HPWHpresets.cc:119-207 initResistanceTankGeneric *)
  Definition initResistanceTankGeneric (jt jb : hsrc T) (vol R upper lower : T) : M W unit :=
    modify (fun w => set_w_hs [] (setAllDefaults w)) ;;
    if lower <? #0 then throw "Lower resistance tank wattage below 0 W."
    else if upper <? #0 then throw "Upper resistance tank wattage below 0 W."
    else if R <=? #0 then throw "R-Value is equal to or below 0."
    else
      blankTank vol ;;
      modify (set_w_canScale true) ;;
      modify (set_w_hs ((if upper >? #0 then [upperElement upper (if lower >? #0 then Some 1%nat else None) jt] else [])
                        ++ (if lower >? #0 then [lowerElement lower jb] else []))%list) ;;
      ua <- lift (div_chk (getSurfaceArea_static vol U_L U_M2) R) ;;
      setTankUA (ua * sec_per_hr / #1000) ;;
      clampUA ;;
      finishInit.

  (** HPWHpresets.cc:291-292 genericFudge *)
  Definition genericFudge (EF : T) : T :=
    let f := (EF - #2) / (dec 34 10 - #2) in
    (#1 - f) * dec 7 10 + f * dec 95 100.
  (** HPWHpresets.cc:239-241, 294-311: the performance of the generic unit *)
  Definition genericBase : list (@polyPt T) :=
    [mkpoly #50 [dec 187064124 1000000; dec 1939747 1000000; #0] [dec 54977772 10000000; dec (-243008) 10000000; #0];
     mkpoly #70 [dec 1480418 10000; dec 2553291 1000000; #0] [dec 7207307 1000000; dec (-335265) 10000000; #0]].
  Fixpoint divAll (l : list T) (d : T) : outc (list T) :=
    match l with [] => Ok [] | x :: r => obind (div_chk x d) (fun y => obind (divAll r d) (fun ys => Ok (y :: ys))) end.
  Definition scalePoly (f : T) (p : @polyPt T) : outc (@polyPt T) :=
    obind (divAll (pp_in p) f) (fun i => Ok (mkpoly (pp_T p) i (map (fun c => c * f) (pp_cop p)))).
  Fixpoint scalePolys (f : T) (s : list (@polyPt T)) : outc (list (@polyPt T)) :=
    match s with [] => Ok [] | p :: r => obind (scalePoly f p) (fun q => obind (scalePolys f r) (fun qs => Ok (q :: qs))) end.
  (** HPWHpresets.cc:283-286: heat loss coefficient from the volume *)
  Definition genericUA (vol : T) : T :=
    let v1 := dec 75156316175 10000000000 * npow (vol / GAL_TO_L #1) (dec 33 100) + dec 59995357658 10000000000 in
    dec 76183819 10000000000 * v1 * v1.

  (** HPWHpresets.cc:230-276: the three sources, before their performance and links are set *)
  Definition genericTop (resUse : T) (j : hsrc T) : hsrc T :=
    set_h_turnOn [topThird resUse] (set_h_vip true (setupRes 6 #4500 (newElement j))).
  Definition genericBottom (j : hsrc T) : hsrc T :=
    set_h_shutOff [bottomTwelfthMaxTemp (F_TO_C (dec 861111 10000))]
      (set_h_dist (wd_of_nodes [#0; dec 2 10; dec 8 10; #0; #0; #0; #0; #0; #0; #0; #0; #0]) (setupRes 0 #4000 (newElement j))).
  Definition genericCompressor (j : hsrc T) : hsrc T :=
    set_h_turnOn [bottomThird (dF_TO_dC (dec 336883 10000)); standbyTop (dF_TO_dC (dec 12392 1000))]
      (set_h_maxSet (F_TO_C #160) (set_h_config Wrapped (set_h_hyst (dF_TO_dC #2) (set_h_maxT (F_TO_C #120) (set_h_minT (F_TO_C #45)
      (set_h_dist (wd_of_nodes [#1; #0; #0]) (set_h_vip false (set_h_on false (freshCond j))))))))).

  (** HPWHpresets.cc:209-330 initGeneric; [jt], [jb], [jc]: uninitialised members *)
  Definition initGeneric (jt jb jc : hsrc T) (vol EF resUse : T) : M W unit :=
    modify (fun w => set_w_hs [] (setAllDefaults w)) ;;
    modify (fun w => set_w_setpoint (F_TO_C #127) (set_w_tank (setNumNodes 12 (w_tank w)) w)) ;;
    resetTankToSetpoint ;;
    modify (fun w => set_w_doDepress false (set_w_tank (set_t_mixesOnDraw true (set_t_fixed false (w_tank w))) w)) ;;
    modify (set_w_hs [genericTop resUse jt; genericBottom jb; genericCompressor jc]) ;;
    setTankSize vol U_L false ;;
    setTankUA (genericUA vol) ;;
    s <- lift (scalePolys (genericFudge EF) genericBase) ;;
    modify (set_w_hs [set_h_followed (Some 1%nat) (genericTop resUse jt);
                      set_h_followed (Some 2%nat) (set_h_backup (Some 2%nat) (genericBottom jb));
                      set_h_backup (Some 1%nat) (set_h_eval (polyFun s) (genericCompressor jc))]) ;;
    finishInit.
End Init.
