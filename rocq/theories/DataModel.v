(** Writing a simulator to the data model and reading it back.
    Models /repo/src/HPWHHeatingLogic.cc:294-530 (make, to), /repo/src/Tank.cc:33-86 (from, to),
    /repo/src/HPWHHeatSource.cc:92-228 (from, to), /repo/src/Resistance.cc:34-63 (from, to),
    /repo/src/Condenser.cc:206-879 (from, to), /repo/src/HPWH.cc:3171-3566 (from, to).

    A member of a data-model structure together with its "_is_set" flag is an [option].  Strings
    that only carry documentation (metadata, description, product information, rating) are left out.
    The JSON layer in vendor/hpwh_data_model transports exactly the members that are set, so it is
    the identity here.  The library btwxt is not part of the repository: the interpolator is the
    parameter [itp], a function of the coil configuration, the grid axes, one table of values and
    the target; its refusal of malformed tables is not modelled. *)

From Coq Require Import ZArith String List Bool.
From Verif Require Import Num Base Units Types Utils TankM Logic HeatSrc Step Setters Perf.
Import ListNotations.
Local Open Scope string_scope.

(** HeatSourceConfiguration.h:32-60, the enumerations; the last constructor stands for UNKNOWN *)
Inductive dltype : Set := DL_soc | DL_temp | DL_unknown.
Inductive dloc : Set := LocTop | LocBottom | LocUnknown.
Inductive dcmp : Set := DC_greater | DC_less | DC_unknown.
(** HeatSourceConfiguration.h:16-21 *)
Inductive dkind : Set := K_resistance | K_condenser | K_airToWater | K_unknown.
(** HPWHSimInput.h HPWHSystemType *)
Inductive dsys : Set := Sys_integrated | Sys_central | Sys_unknown.

Section DataModel.
  Context {T : Type} `{Num T}.
  Local Open Scope num_scope.
  Local Open Scope monad_scope.
  Notation W := (hpwh T).

  (** HPWHUtils.hh:21-24 checkFrom *)
  Definition from {A} (o : option A) (default : A) : A := match o with Some a => a | None => default end.
  (** HPWHUtils.hh:47-54 checkTo with its last argument *)
  Definition toIf {A} (b : bool) (a : A) : option A := if b then Some a else None.

  (** ** Heating logics *)

  (** HeatSourceConfiguration.h:150-176 TemperatureBasedHeatingLogic *)
  Record dtempL : Type := mkdtempL {
    dt_abs : option T; dt_diff : option T; dt_loc : option dloc;
    dt_wd : option (option (list T) * option (list T)); dt_stby : option bool }.
  (** HeatSourceConfiguration.h:177-203 StateOfChargeBasedHeatingLogic *)
  Record dsocL : Type := mkdsocL {
    ds_point : option T; ds_tMin : option T; ds_hyst : option T; ds_const : option bool;
    ds_mains : option T }.
  (** the object behind the unique_ptr<HeatingLogicTemplate> *)
  Inductive dpayload : Type := PTemp (p : dtempL) | PSoC (p : dsocL).
  (** HeatSourceConfiguration.h:81-97 *)
  Record dlogic : Type := mkdlogic {
    dl_type : dltype; dl_payload : option dpayload; dl_cmp : option dcmp }.

  (** the arrays written for a weighted distribution, HPWHHeatingLogic.cc:509-514 and
      HPWHHeatSource.cc:140-145 *)
  Definition wdTo (d : wdist T) : list T * list T :=
    (map (fun i => wd_fractionalHeight d i) (seq 0 (length d)),
     map (fun i => wd_fractionalWeight d i) (seq 0 (length d))).

  (** HPWHHeatingLogic.cc:431-442, 472-483: which functor is stored is found by asking it *)
  Definition cmpTo (c : cmp) : dcmp := if compare c #1 #2 then DC_less else DC_greater.

  (** HPWHHeatingLogic.cc:444-447: the object made by [make_unique] is value-initialised, and
      [*heating_logic.heating_logic = logic] is the assignment operator of the base class
      HeatingLogicTemplate, which has no members: nothing of the local [logic] is copied *)
  Definition assignBase (made local : dsocL) : dsocL := made.
  Definition socTo (dp hyst tMin : T) (cm : bool) (mains : T) : dsocL :=
    assignBase (mkdsocL None None None None None)
               (mkdsocL (Some dp) (Some (C_TO_K tMin)) (Some hyst) (Some cm) (Some (C_TO_K mains))).

  (** HPWHHeatingLogic.cc:414-450, 452-530 to *)
  Definition logicTo (l : logic T) : dlogic :=
    match l with
    | SoCLogic _ dp hyst tMin cm mains c _ =>
        mkdlogic DL_soc (Some (PSoC (socTo dp hyst tMin cm mains))) (Some (cmpTo c))
    | TempLogic _ d dp isAbs c _ stby =>
        let loc := match d_type d with DTop => Some LocTop | DBottom => Some LocBottom
                                     | DWeighted => None end in
        let wd := match d_type d with
                  | DWeighted => let '(hs, ws) := wdTo (d_w d) in Some (Some hs, Some ws)
                  | _ => None end in
        mkdlogic DL_temp
          (Some (PTemp (mkdtempL (toIf isAbs (C_TO_K dp)) (toIf (negb isAbs) dp) loc wd
                                 (toIf stby stby))))
          (Some (cmpTo c))
    end.

  (** HPWHHeatingLogic.cc:353-392: the distribution; a default Distribution is TopOfTank *)
  Definition makeDist (p : dtempL) : distribution T :=
    match dt_wd p with
    | Some (Some hs, Some ws) => mkdist DWeighted (wd_make hs ws)
    | _ => match dt_loc p with
           | Some LocBottom => mkdist DBottom []
           | _ => mkdist DTop []
           end
    end.
  Definition makeLabel (p : dtempL) : string :=
    match dt_loc p with Some LocTop => "top of tank" | Some LocBottom => "bottom of tank"
                      | _ => "name" end.

  (** HPWHHeatingLogic.cc:294-412 HeatingLogic::make.  [Ok None] is the null pointer.  A payload of
      the other kind is reached through reinterpret_cast.  An unset or unknown comparison leaves
      an empty std::function; the exception it raises when first called is reported here. *)
  Definition logicMake (d : dlogic) : outc (option (logic T)) :=
    match dl_type d, dl_payload d with
    | DL_soc, Some (PSoC p) =>
        Ok (Some (SoCLogic "name" (from (ds_point p) #0) (dec (-5) 100) (dec 43333 1000) false
                           (dec 18333 1000) CLess false))
    | DL_soc, _ => UB "heating logic of another type"
    | _, Some (PTemp p) =>
        let build (temp : T) (isAbs : bool) :=
          match dl_cmp d with
          | Some DC_greater =>
              Ok (Some (TempLogic (makeLabel p) (makeDist p) temp isAbs CGreater false (from (dt_stby p) false)))
          | Some DC_less =>
              Ok (Some (TempLogic (makeLabel p) (makeDist p) temp isAbs CLess false (from (dt_stby p) false)))
          | _ => Err "bad_function_call"
          end in
        match dt_abs p, dt_diff p with
        | Some t, _ => build (K_TO_C t) true
        | None, Some t => build t false
        | None, None => Ok None
        end
    | _, _ => UB "heating logic of another type"
    end.

  (** HPWHHeatSource.cc:104-127: the logics that can be made are appended *)
  Fixpoint makeAll (ds : list dlogic) : outc (list (logic T)) :=
    match ds with
    | [] => Ok []
    | d :: r =>
        obind (logicMake d) (fun o =>
        obind (makeAll r) (fun ls =>
        Ok match o with Some l => l :: ls | None => ls end))
    end.

  (** ** Tank *)

  (** RSTANK.h performance; volume m3, UA W/K *)
  Record dtank : Type := mkdtank {
    dk_volume : option T; dk_ua : option T; dk_fit : option T; dk_mix : option T;
    dk_hx : option T }.

  (** Tank.cc:58-86 *)
  Definition tankTo (t : tank T) : dtank :=
    mkdtank (Some (t_volume t / #1000)) (Some (#1000 * t_UA t / #3600))
            (Some (#1000 * t_fitUA t / #3600))
            (Some (if t_mixesOnDraw t then t_mixBelowFrac t else #0))
            (toIf (t_hasHX t) (t_hxEff t)).
  (** Tank.cc:33-56 *)
  Definition tankFrom (d : dtank) (t : tank T) : tank T :=
    let mixF := from (dk_mix d) #0 in
    let t1 := set_t_volume (from (option_map (fun v => #1000 * v) (dk_volume d)) #0) t in
    let t2 := set_t_UA (from (option_map (fun v => #3600 * v / #1000) (dk_ua d)) #0) t1 in
    let t3 := set_t_fitUA (from (option_map (fun v => #3600 * v / #1000) (dk_fit d)) #0) t2 in
    let t4 := set_t_mixesOnDraw (mixF >? #0) (set_t_mixBelowFrac mixF t3) in
    match dk_hx d with
    | Some e => set_t_hxEff e (set_t_hasHX true t4)
    | None => set_t_hasHX false t4
    end.

  (** ** Heat sources *)

  (** PerformanceMap of RSCONDENSERWATERHEATSOURCE.h (no leaving temperature) and of
      RSAIRTOWATERHEATPUMP.h; temperatures in K *)
  Record dmap : Type := mkdmap {
    dm_env : option (list T); dm_src : option (list T); dm_lvg : option (list T);
    dm_in : list T; dm_cap : list T }.
  (** the performance structures of the same two headers *)
  Record dcond : Type := mkdcond {
    dc_coil : option coil; dc_stby : option T; dc_hyst : option T; dc_maxRef : option T;
    dc_defrost : option bool; dc_map : option dmap; dc_resDef : option (T * T * T);
    dc_low : option (T * T) }.
  (** the object behind the unique_ptr<HeatSourceTemplate> *)
  Inductive dsource : Type := SRes (power : T) | SCond (c : dcond) | SATW (c : dcond).
  (** HeatSourceConfiguration.h:98-149 *)
  Record dhsc : Type := mkdhsc {
    dh_id : option string; dh_kind : dkind; dh_src : dsource;
    dh_dist : option (list T * list T);
    dh_on : option (list dlogic); dh_off : option (list dlogic); dh_stby : option dlogic;
    dh_backup : option string; dh_followed : option string; dh_companion : option string }.

  (** A simulator with what its modelled state leaves out: the names of the heat sources, the grid
      axes of each performance interpolator (perfRGI; None = null pointer) and useCOP_inBtwxt *)
  Record usim : Type := mkusim {
    u_w : W; u_names : list string; u_rgi : list (option (list (list T))); u_cop : bool }.

  (** Condenser.cc:514-522, 796-807: the values at every grid point, first axis slowest *)
  Definition evals2 (h : hsrc T) (sp : T) (env src : list T) : list (perf T) :=
    map (fun '(e, s) => h_eval h sp e s) (list_prod env src).

  (** Condenser.cc:533-541 *)
  Definition envAxisFn (h : hsrc T) : list T :=
    trimGridVector [h_minT h; F_TO_C #50; F_TO_C (dec 675 10); F_TO_C #95; h_maxT h; #0; #20; #22; #30]
                   (h_minT h) (h_maxT h).
  Definition nabs' (x : T) : T := if x <? #0 then - x else x.
  (** Condenser.cc:563-594: one round of the curvature scan *)
  Definition curvRound (h : hsrc T) (sp hsT d dF : T) (m : T * T * T) (env : T) : T * T * T :=
    let '(mIn, mOut, mCop) := m in
    let pm := h_eval h sp env (hsT - d) in
    let p0 := h_eval h sp env hsT in
    let pp := h_eval h sp env (hsT + d) in
    let coef (f : perf T -> T) := (f pm + f pp - #2 * f p0) / dF / dF / #2 in
    let rIn := nabs' (coef p_in / dec 3 100) in
    let rOut := nabs' (coef p_out / dec 3 100) in
    let rCop := nabs' (coef p_cop / dec 2 10000) in
    (if rIn >? mIn then rIn else mIn, if rOut >? mOut then rOut else mOut,
     if coef p_cop >? mCop then rCop else mCop).
  (** Condenser.cc:600-623: the number of points along the heat-source axis *)
  Definition srcCount (h : hsrc T) (sp : T) (cop : bool) : Z :=
    let dF := dec 1 100000 in
    let '(mIn, mOut, mCop) :=
      fold_left (curvRound h sp (F_TO_C ((#0 + h_maxSet h) / #2)) (dF_TO_dC dF) dF) (envAxisFn h)
                (#0, #0, #0) in
    let rangeFac := (h_maxSet h - #0) / dF_TO_dC (#160 - #0) in
    let n (r : T) := ntrunc (rangeFac * r * (#11 - #2) + #2) in
    if cop then Z.max (n mIn) (n mCop) else Z.max (n mIn) (n mOut).
  (** Condenser.cc:625-633: equally spaced by repeated addition *)
  Fixpoint ramp (n : nat) (x d : T) : list T :=
    match n with O => [] | S k => x :: ramp k (x + d) d end.
  Definition srcAxisFn (h : hsrc T) (sp : T) (cop : bool) : outc (list T) :=
    let n := srcCount h sp cop in
    if Z.ltb n 0 then Err "length_error"
    else Ok (ramp (Z.to_nat n) #0 (h_maxSet h / nofZ (n - 1))).

  (** Condenser.cc:439-675 to(RSCONDENSERWATERHEATSOURCE&); doDefrost is not written *)
  Definition condTo (h : hsrc T) (rgi : option (list (list T))) (cop : bool) (sp : T) : outc dcond :=
    let done (env src : list T) (ps : list (perf T)) :=
      Ok (mkdcond (match h_config h with External => None | c => Some c end)
                  (toIf (h_stbyPwr h >? #0) (#1000 * h_stbyPwr h))
                  (Some (h_hyst h)) (Some (C_TO_K (h_maxSet h))) None
                  (Some (mkdmap (Some (map C_TO_K env)) (Some (map C_TO_K src)) None
                                (map p_in ps) (map p_out ps)))
                  None None) in
    match rgi with
    | Some (a0 :: a1 :: _) =>
        let env := trimGridVector (a0 ++ [h_minT h; h_maxT h])%list (h_minT h) (h_maxT h) in
        done env a1 (evals2 h sp env a1)
    | Some _ => UB "perfGrid index"
    | None =>
        obind (srcAxisFn h sp cop) (fun src =>
        let env := envAxisFn h in
        done env src (map (fun '(e, s) => h_eval h sp (K_TO_C (C_TO_K e)) (K_TO_C (C_TO_K s)))
                          (list_prod env src)))
    end.

  Fixpoint mapM {S A B} (f : A -> M S B) (l : list A) : M S (list B) :=
    match l with
    | [] => ret []
    | a :: r => b <- f a ;; bs <- mapM f r ;; ret (b :: bs)
    end.

  (** Condenser.cc:748-763 *)
  Definition envAxisExt (h : hsrc T) : list T :=
    trimGridVector
      ([h_minT h; #0; dec 5 10; #1; dec 15 10; #2; dec 25 10; #3; dec 35 10; #4; dec 45 10; #5;
        dec 55 10; #6; dec 65 10; #7; dec 72223 10000; dec 75 10; #8; dec 828 100; dec 85 10; #9;
        dec 95 10; #10; dec 105 10; #11; dec 115 10; #12; dec 125 10; #13; dec 135 10; #14;
        dec 145 10; #15; dec 155 10; dec 155555556 10000000; #20; #29; #30; h_maxT h])
      (h_minT h) (h_maxT h).
  (** Condenser.cc:765-777, in K *)
  Definition srcAxisExt (h : hsrc T) : list T :=
    let range := h_maxSet h - #0 in
    let n := ntrunc (nmax (#51 / #100 * range) #2) in
    let d := range / nofZ n in
    arrangeGridVector (map (fun i => C_TO_K (#0 + d * nofN i)) (seq 0 (S (Z.to_nat n)))).
  (** Condenser.cc:779-799, in K *)
  Definition lvgAxisExt (h : hsrc T) (w : W) : list T :=
    let sp := w_setpoint w in
    let l := if (negb (h_multipass h) && negb (w_setFixed w))%bool
             then trimGridVector [sp; #0; h_maxSet h; h_mlOut h; #50; #55; #65; F_TO_C #120; #93]
                                 #0 (h_maxSet h)
             else [sp] in
    map (fun t => C_TO_K (t + h_shxHot h)) l.

  (** Condenser.cc:677-879 to(RSAIRTOWATERHEATPUMP&).  With a performance grid the setpoint of the
      simulator is assigned directly for every grid point and not put back (lines 738-741);
      without one it goes through setSetpoint and is put back (lines 805-822). *)
  Definition atwTo (h : hsrc T) (rgi : option (list (list T))) : M W dcond :=
    let done (env src lvg : list T) (ins caps : list T) :=
      ret (mkdcond None (toIf (h_stbyPwr h >? #0) (#1000 * h_stbyPwr h))
                   (Some (h_hyst h)) (Some (C_TO_K (h_maxSet h))) (Some (h_doDefrost h))
                   (Some (mkdmap (Some env) (Some src) (Some lvg) ins caps))
                   (toIf (h_rdPwr h >? #0)
                         (KW_TO_W (h_rdPwr h), dF_TO_dC (h_rdLift h), F_TO_K (h_rdBelow h)))
                   (toIf (h_mlAir h >? dec (-27315) 100) (C_TO_K (h_mlOut h), C_TO_K (h_mlAir h)))) in
    match rgi with
    | Some (a0 :: a1 :: a2 :: _) =>
        let env := trimGridVector (a0 ++ [h_minT h; h_maxT h])%list (h_minT h) (h_maxT h) in
        ps <- mapM (fun '(e, (s, o)) =>
                      modify (set_w_setpoint (o - h_shxHot h)) ;;
                      w <- get ;; ret (h_eval h (w_setpoint w) e s))
                   (list_prod env (list_prod a1 a2)) ;;
        done (map C_TO_K env) (map C_TO_K a1) (map C_TO_K a2) (map p_in ps) (map p_out ps)
    | Some _ => undef "perfGrid index"
    | None =>
        w0 <- get ;;
        let env := map C_TO_K (envAxisExt h) in
        let src := srcAxisExt h in
        let lvg := lvgAxisExt h w0 in
        ps <- mapM (fun '(e, (s, o)) =>
                      setSetpoint (K_TO_C o - h_shxHot h) U_C ;;
                      w <- get ;; ret (h_eval h (w_setpoint w) (K_TO_C e) (K_TO_C s)))
                   (list_prod env (list_prod src lvg)) ;;
        setSetpoint (w_setpoint w0) U_C ;;
        done env src lvg (map p_in ps) (map (fun p => p_cop p * p_in p) ps)
    end.

  (** HPWH.cc:2287-2295 isCompressorExternal, 2257-2265 getCompressorCoilConfig *)
  Definition compCoil (w : W) : outc coil :=
    if Z.ltb (w_compIx w) 0 then Err "Current model does not have a compressor."
    else match nth_error (w_hs w) (Z.to_nat (w_compIx w)) with
         | Some c => Ok (h_config c)
         | None => UB "heatSources index"
         end.
  Definition isExt (c : coil) : bool := match c with External => true | _ => false end.

  (** HPWHHeatSource.cc:171-184: the name of an associated heat source *)
  Definition nameOf (names : list string) (o : option nat) : outc (option string) :=
    match o with
    | None => Ok None
    | Some j => match nth_error names j with Some s => Ok (Some s) | None => UB "dangling heat source" end
    end.

  (** HPWHHeatSource.cc:186-226 with Resistance.cc:46-63 and Condenser.cc:423-437: the kind is
      decided by the simulator's compressor, the writer by the heat source itself *)
  Definition sourceTo (h : hsrc T) (rgi : option (list (list T))) (cop : bool)
    : M W (dkind * dsource) :=
    match h_type h with
    | TResistance => ret (K_resistance, SRes (#1000 * h_power h))
    | TCompressor =>
        w <- get ;; cc <- lift (compCoil w) ;;
        match isExt cc, isExt (h_config h) with
        | true, true => c <- atwTo h rgi ;; ret (K_airToWater, SATW c)
        | false, false => c <- lift (condTo h rgi cop (w_setpoint w)) ;; ret (K_condenser, SCond c)
        | _, _ => undef "reinterpret_cast to the other kind of condenser"
        end
    end.

  (** an empty logic vector is left unset, HPWHHeatSource.cc:155-169 *)
  Definition setLogics (ls : list (logic T)) : option (list dlogic) :=
    match ls with [] => None | _ => Some (map logicTo ls) end.

  (** HPWHHeatSource.cc:137-228 to *)
  Definition hsTo (names : list string) (i : nat) (h : hsrc T) (rgi : option (list (list T)))
             (cop : bool) : M W dhsc :=
    id <- lift (nameOf names (Some i)) ;;
    bk <- lift (nameOf names (h_backup h)) ;;
    fb <- lift (nameOf names (h_followed h)) ;;
    co <- lift (nameOf names (h_companion h)) ;;
    '(k, s) <- sourceTo h rgi cop ;;
    ret (mkdhsc id k s (Some (wdTo (h_dist h))) (setLogics (h_turnOn h)) (setLogics (h_shutOff h))
                (option_map logicTo (h_standby h)) bk fb co).

  (** ** Reading heat sources *)

  (** HPWHHeatSource.cc:18-37 and Condenser.cc:15-31, Resistance.cc:8-13: the constructors.
      [junk] supplies the members they leave unset. *)
  Definition freshHS (junk : hsrc T) : hsrc T :=
    set_h_on false (set_h_locked false (set_h_backup None (set_h_companion None (set_h_followed None
    (set_h_standby None (set_h_turnOn [] (set_h_shutOff [] (set_h_dist [] (set_h_minT (dec (-27315) 100)
    (set_h_maxT #100 (set_h_airflow #1 (set_h_extIn (-1) (set_h_extOut (-1) junk))))))))))))).
  Definition freshRes (junk : hsrc T) : hsrc T :=
    set_h_type TResistance (set_h_power #0 (freshHS junk)).
  Definition freshCond (junk : hsrc T) : hsrc T :=
    set_h_type TCompressor (set_h_hyst #0 (set_h_maxSet #100 (set_h_doDefrost false
    (set_h_mlOut #100 (set_h_mlAir (dec (-27315) 100) (set_h_shxCold #0 (set_h_shxHot #0 (set_h_shxPump #0
    (set_h_stbyPwr #0 (set_h_config Wrapped (set_h_multipass true (set_h_inScale #1 (set_h_copScale #1
    (set_h_rdPwr #0 (set_h_rdLift #0 (set_h_rdBelow #(-999) (set_h_defrost [] (freshHS junk)))))))))))))))))).

  (** Condenser.cc:1360-1405 makePerformanceBtwxt *)
  Definition interpolated (itp : coil -> list (list T) -> list T -> list T -> T) (cfg : coil)
             (hot : T) (cop : bool) (axes : list (list T)) (v0 v1 : list T) : T -> T -> T -> perf T :=
    fun sp ext src =>
      let target := if Nat.ltb 2 (length axes) then [ext; src; sp + hot] else [ext; src] in
      let r0 := itp cfg axes v0 target in
      let r1 := itp cfg axes v1 target in
      if cop then mkperf r0 (r0 * r1) r1 else mkperf r0 r1 (r1 / r0).

  (** Condenser.cc:288-297, 375-384: the second table, capacities or COPs *)
  Fixpoint capsOrCops (cop : bool) (ins caps : list T) : outc (list T) :=
    match ins, caps with
    | [], _ => Ok []
    | i :: ir, c :: cr =>
        obind (if cop then div_chk c i else Ok c) (fun v =>
        obind (capsOrCops cop ir cr) (fun vs => Ok (v :: vs)))
    | _, [] => UB "heating_capacity index"
    end.

  Definition axisC (o : option (list T)) : list (list T) :=
    match o with Some l => [map K_TO_C l] | None => [] end.

  (** Condenser.cc:257-301, 337-388: the grid and the operating range *)
  Definition readMap (itp : coil -> list (list T) -> list T -> list T -> T) (cop three : bool)
             (m : dmap) (h : hsrc T) : outc (hsrc T * list (list T)) :=
    let axes := (axisC (dm_env m) ++ axisC (dm_src m) ++ (if three then axisC (dm_lvg m) else []))%list in
    obind (match dm_env m with
           | None => Ok h
           | Some [] => UB "back() of empty vector"
           | Some (e :: r) => Ok (set_h_maxT (K_TO_C (last r e)) (set_h_minT (K_TO_C e) h))
           end) (fun h1 =>
    obind (capsOrCops cop (dm_in m) (dm_cap m)) (fun v1 =>
    if Nat.ltb (length axes) 2 then UB "perfGrid index"
    else Ok (set_h_eval (interpolated itp (h_config h) (h_shxHot h) cop axes (dm_in m) v1) h1, axes))).

  (** Condenser.hh:35: the default derating *)
  Definition defaultDerate : T := dec 8865 10000.

  (** the part common to Condenser.cc:225-318 and 320-421 *)
  Definition condCommon (itp : coil -> list (list T) -> list T -> list T -> T) (cop three : bool)
             (d : dcond) (h : hsrc T) : outc (hsrc T * option (list (list T))) :=
    let h1 := set_h_hyst (from (dc_hyst d) #0)
                (set_h_maxSet (from (option_map K_TO_C (dc_maxRef d)) #100) h) in
    obind (match dc_map d with
           | None => Ok (h1, None)
           | Some m => obind (readMap itp cop three m h1) (fun '(h2, a) => Ok (h2, Some a))
           end) (fun '(h2, a) =>
    let h3 := if from (dc_defrost d) false then setupDefrostMap defaultDerate h2 else h2 in
    let h4 := match dc_stby d with Some p => set_h_stbyPwr (W_TO_KW p) h3 | None => h3 end in
    Ok (h4, a)).

  (** Condenser.cc:225-318 from(RSCONDENSERWATERHEATSOURCE) *)
  Definition condFrom itp (cop : bool) (d : dcond) (h : hsrc T) : outc (hsrc T * option (list (list T))) :=
    condCommon itp cop false d (match dc_coil d with
                                | Some Submerged => set_h_config Submerged h
                                | Some Wrapped => set_h_config Wrapped h
                                | _ => h end).
  (** Condenser.cc:320-421 from(RSAIRTOWATERHEATPUMP) *)
  Definition atwFrom itp (cop : bool) (d : dcond) (h : hsrc T) : outc (hsrc T * option (list (list T))) :=
    obind (condCommon itp cop true d (set_h_config External h)) (fun '(h1, a) =>
    let h2 := match dc_resDef d with
              | Some (p, l, t) => set_h_rdPwr (W_TO_KW p) (set_h_rdLift (dC_TO_dF l) (set_h_rdBelow (K_TO_F t) h1))
              | None => h1 end in
    let h3 := match dc_low d with
              | Some (o, a) => set_h_mlOut (K_TO_C o) (set_h_mlAir (K_TO_C a) h2)
              | None => h2 end in
    Ok (h3, a)).

  (** HPWHHeatSource.cc:92-135 from; the associations are set later *)
  Definition hsFrom (d : dhsc) (h : hsrc T) : outc (hsrc T * string) :=
    let h1 := match dh_dist d with Some (hs, ws) => set_h_dist (wd_make hs ws) h | None => h end in
    obind (makeAll (from (dh_on d) [])) (fun on =>
    obind (makeAll (from (dh_off d) [])) (fun off =>
    obind (match dh_stby d with None => Ok None | Some l => logicMake l end) (fun st =>
    let h2 := set_h_turnOn (h_turnOn h1 ++ on)%list (set_h_shutOff (h_shutOff h1 ++ off)%list h1) in
    let h3 := match st with Some l => set_h_standby (Some l) h2 | None => h2 end in
    Ok (h3, from (dh_id d) "heatsource")))).

  (** ** Systems *)

  (** RSINTEGRATEDWATERHEATER.h Performance and the shared part of CentralWaterHeatingSystem.h *)
  Record dperf : Type := mkdperf { dp_tank : dtank; dp_hs : list dhsc; dp_primary : option string }.
  (** CentralWaterHeatingSystem.h; the heat-exchanger triple is (cold side, hot side, pump power) *)
  Record dcentral : Type := mkdcentral {
    ce_perf : dperf; ce_in : option T; ce_out : option T; ce_flow : option T;
    ce_shx : option (T * T * T) }.
  (** HPWHSimInput.h *)
  Record dsim : Type := mkdsim {
    du_depress : option bool; du_nodes : option Z; du_fixed : option bool; du_setpoint : option T;
    du_cop : option bool; du_sys : option dsys; du_int : option dperf; du_central : option dcentral }.

  (** HPWH.cc:3466-3491, 3495-3517: tank, heat sources in order, name of the last VIP *)
  Definition perfTo (u : usim) : M W dperf :=
    let w := u_w u in
    hs <- mapM (fun '(i, (h, g)) => hsTo (u_names u) i h g (u_cop u))
               (combine (seq 0 (length (w_hs w))) (combine (w_hs w) (u_rgi u))) ;;
    let vip := fold_left (fun acc '(h, s) => if h_vip h then Some s else acc)
                         (combine (w_hs w) (u_names u)) None in
    ret (mkdperf (tankTo (w_tank w)) hs vip).

  (** HPWH.cc:3519-3566 *)
  Definition centralTo (u : usim) : M W dcentral :=
    p <- perfTo u ;;
    w <- get ;;
    match nth_error (w_hs w) (Z.to_nat (w_compIx w)) with
    | None => undef "heatSources index"
    | Some c =>
        let n := nofN (numNodes (w_tank w)) in
        ret (mkdcentral p (Some (nofZ (h_extIn c) / n)) (Some (nofZ (h_extOut c) / n))
                        (toIf (h_multipass c) (h_mpFlow c / #1000))
                        (toIf (h_shxPump c >? #0) (h_shxCold c, h_shxHot c, h_shxPump c)))
    end.

  (** HPWH.cc:3408-3443 to(HPWHSimInput&): runs on the simulator, whose setpoint it may change *)
  Definition simTo (u : usim) : M W dsim :=
    w <- get ;;
    let head := mkdsim (Some (w_doDepress w)) (Some (Z.of_nat (numNodes (w_tank w))))
                       (Some (t_fixed (w_tank w))) (Some (C_TO_K (w_setpoint w)))
                       (toIf (Z.leb 0 (w_compIx w)) (u_cop u)) in
    ext <- (if Z.leb 0 (w_compIx w) then c <- lift (compCoil w) ;; ret (isExt c) else ret false) ;;
    if ext : bool
    then c <- centralTo u ;; ret (head (Some Sys_central) None (Some c))
    else p <- perfTo u ;; ret (head (Some Sys_integrated) (Some p) None).

  (** HPWH.cc:3266-3272, 3385-3391: unordered_map::operator[] — the last entry with the name, or a
      new entry 0 *)
  Fixpoint lookupFrom (i : nat) (ids : list string) (s : string) (found : nat) : nat :=
    match ids with
    | [] => found
    | x :: r => lookupFrom (S i) r s (if String.eqb x s then i else found)
    end.
  Definition lookup (ids : list string) (s : string) : nat := lookupFrom 0 ids s 0.

  (** HPWH.cc:3258-3283, 3377-3404: priority flag and associations *)
  Definition link (ids : list string) (primary : option string) (d : dhsc) (h : hsrc T) (name : string)
    : hsrc T :=
    let h0 := set_h_vip (String.eqb name (from primary "")) h in
    let h1 := match dh_backup d with Some s => set_h_backup (Some (lookup ids s)) h0 | None => h0 end in
    let h2 := match dh_followed d with Some s => set_h_followed (Some (lookup ids s)) h1 | None => h1 end in
    match dh_companion d with Some s => set_h_companion (Some (lookup ids s)) h2 | None => h2 end.

  Definition readSrc := dhsc -> outc (hsrc T * option (list (list T))).

  (** HPWH.cc:3207-3256: a source of a kind the system does not know is not added, and indexing
      heatSources with its position is out of range *)
  Definition intSource itp (junk : hsrc T) (cop : bool) : readSrc := fun d =>
    match dh_kind d, dh_src d with
    | K_condenser, SCond c => condFrom itp cop c (freshCond junk)
    | K_resistance, SRes p => Ok (set_h_power (p / #1000) (freshRes junk), None)
    | (K_condenser | K_resistance), _ => UB "heat source of another type"
    | _, _ => UB "heatSources index"
    end.
  (** HPWH.cc:3319-3369 *)
  Definition cenSource itp (junk : hsrc T) (cop : bool) (n : nat) (ce : dcentral) : readSrc := fun d =>
    match dh_kind d, dh_src d with
    | K_airToWater, SATW c =>
        let m := nofZ (Z.of_nat n - 1) in
        let h0 := set_h_extIn (ntrunc (from (ce_in ce) #1 * m))
                    (set_h_extOut (ntrunc (from (ce_out ce) #1 * m)) (freshCond junk)) in
        let h1 := match ce_flow ce with
                  | Some f => set_h_mpFlow (#1000 * f) (set_h_multipass true h0)
                  | None => set_h_multipass false h0 end in
        let h2 := match ce_shx ce with
                  | Some (a, b, c) => set_h_shxCold a (set_h_shxHot b (set_h_shxPump c h1))
                  | None => h1 end in
        atwFrom itp cop c h2
    | K_resistance, SRes p => Ok (set_h_power (p / #1000) (freshRes junk), None)
    | (K_airToWater | K_resistance), _ => UB "heat source of another type"
    | _, _ => UB "heatSources index"
    end.

  Fixpoint readSources (rd : readSrc) (ds : list dhsc) : outc (list (hsrc T * option (list (list T)) * string)) :=
    match ds with
    | [] => Ok []
    | d :: r =>
        obind (rd d) (fun '(h, g) =>
        obind (hsFrom d h) (fun '(h', name) =>
        obind (readSources rd r) (fun rest => Ok ((h', g, name) :: rest))))
    end.

  (** the index of the last compressor read; [start] if there is none (HPWH.cc:3227, 3353) *)
  Fixpoint lastComp (i : nat) (ds : list dhsc) (start : Z) : Z :=
    match ds with
    | [] => start
    | d :: r => lastComp (S i) r (match dh_kind d with K_resistance => start | _ => Z.of_nat i end)
    end.

  (** HPWH.cc:3193-3284, 3287-3406 *)
  Definition perfFrom (rd : readSrc) (p : dperf) (u : usim) : outc usim :=
    obind (readSources rd (dp_hs p)) (fun rs =>
    let ids := map (fun d => from (dh_id d) "") (dp_hs p) in
    let hs := map (fun '(d, (h, _, name)) => link ids (dp_primary p) d h name) (combine (dp_hs p) rs) in
    let w := u_w u in
    let w1 := set_w_tank (tankFrom (dp_tank p) (w_tank w))
                (set_w_hs hs (set_w_compIx (lastComp 0 (dp_hs p) (w_compIx w)) w)) in
    Ok (mkusim w1 (map snd rs) (map (fun r => snd (fst r)) rs) (u_cop u))).

  (** std::vector::resize *)
  Definition resize (n : nat) (l : list T) : list T := (firstn n l ++ repeat #0 (n - length l))%list.

  (** HPWH.cc:3202-3222: what is done to the compressor of a central system afterwards *)
  Definition centralPorts (ce : dcentral) (nodes : option Z) (u : usim) : outc usim :=
    let w := u_w u in
    match (if Z.ltb (w_compIx w) 0 then None else nth_error (w_hs w) (Z.to_nat (w_compIx w))),
          nodes, ce_in ce, ce_out ce with
    | Some c, Some n, Some rIn, Some rOut =>
        let c1 := set_h_extIn (ntrunc (rIn * nofZ n)) (set_h_extOut (ntrunc (rOut * nofZ n)) c) in
        let c2 := match ce_flow ce with
                  | Some f => set_h_mpFlow (#1000 * f) (set_h_multipass true c1)
                  | None => set_h_multipass false c1 end in
        Ok (mkusim (set_w_hs (upd (w_hs w) (Z.to_nat (w_compIx w)) (set_h_config External c2)) w)
                   (u_names u) (u_rgi u) (u_cop u))
    | None, _, _, _ => UB "heatSources index"
    | _, _, _, _ => UB "member read without being set"
    end.

  (** HPWH.cc:3171-3226 from(HPWHSimInput) *)
  Definition simFrom itp (junk : hsrc T) (d : dsim) (u : usim) : outc usim :=
    let n := from (du_nodes d) 12%Z in
    if Z.ltb n 0 then Err "length_error" else
    let w := u_w u in
    let t1 := set_t_fixed (from (du_fixed d) true) (set_t_Ts (resize (Z.to_nat n) (t_Ts (w_tank w))) (w_tank w)) in
    let w1 := set_w_tank t1 (set_w_doDepress (from (du_depress d) false)
                (set_w_setpoint (from (option_map K_TO_C (du_setpoint d)) (F_TO_C #135)) w)) in
    let cop := from (du_cop d) false in
    let u1 := mkusim w1 (u_names u) (u_rgi u) cop in
    let fin (v : usim) :=
      mkusim (set_w_tank (set_t_fixed (from (du_fixed d) false) (w_tank (u_w v))) (u_w v))
             (u_names v) (u_rgi v) (u_cop v) in
    match du_sys d with
    | None => Ok (fin u1)
    | Some Sys_integrated =>
        match du_int d with
        | None => Ok (fin u1)
        | Some p => obind (perfFrom (intSource itp junk cop) p u1) (fun v => Ok (fin v))
        end
    | Some Sys_central =>
        match du_central d with
        | None => Ok (fin u1)
        | Some ce => obind (perfFrom (cenSource itp junk cop (Z.to_nat n) ce) (ce_perf ce) u1) (fun v =>
                     obind (centralPorts ce (du_nodes d) v) (fun v2 => Ok (fin v2)))
        end
    | Some Sys_unknown => Ok u1
    end.
End DataModel.
Arguments dlogic T : clear implicits.
Arguments dtank T : clear implicits.
Arguments dsim T : clear implicits.
Arguments dhsc T : clear implicits.
Arguments usim T : clear implicits.
