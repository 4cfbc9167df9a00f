(** One simulation step.  Models /repo/src/HPWH.cc:253-640, 2632-2679, 2816-2873 and
    /repo/src/HPWHHeatSource.cc:248-262. *)

From Coq Require Import ZArith String List Bool.
From Verif Require Import Num Base Units Types Utils TankM Logic HeatSrc.
Import ListNotations.
Local Open Scope string_scope.

Section Step.
  Context {T : Type} `{Num T}.
  Local Open Scope num_scope.
  Local Open Scope monad_scope.

  Notation W := (hpwh T).

  (** HPWH.cc getNumHeatSources *)
  Definition numHS (w : W) : nat := length (w_hs w).

  (** HPWHHeatSource.cc:250-260 engageHeatSource; the recursion through companions is bounded by the
      fuel (each level switches on a source that was off) *)
  Fixpoint engage (fuel : nat) (i : nat) (dr : Z) : M W unit :=
    match fuel with
    | O => nofuel
    | S fuel' =>
        h <- getHS i ;;
        modHS i (set_h_on true) ;;
        modify (set_w_heating true) ;;
        match h_companion h with
        | None => ret tt
        | Some c =>
            off <- askHS c shutsOff ;;
            if off then ret tt
            else
              hc <- getHS c ;;
              if (h_on hc || shouldDRLockOut (h_type hc) dr)%bool then ret tt
              else engage fuel' c dr
        end
    end.
  Definition engageHS (i : nat) (dr : Z) : M W unit := w <- get ;; engage (S (numHS w)) i dr.
  (** HPWHHeatSource.cc:262 *)
  Definition disengage (i : nat) : M W unit := modHS i (set_h_on false).

  (** heatSources[ix] for a signed index *)
  Definition engageIx (ix : Z) (dr : Z) : M W unit :=
    if Z.ltb ix 0 then undef "heatSources[-1]" else engageHS (Z.to_nat ix) dr.

  (** HPWH.cc:2659-2666 turnAllHeatSourcesOff *)
  Definition turnAllOff : M W unit :=
    modify (fun w => set_w_heating false (set_w_hs (map (set_h_on false) (w_hs w)) w)).

  (** HPWH.cc:2668-2679 *)
  Definition allOff (w : W) : bool := forallb (fun h => negb (h_on h)) (w_hs w).

  (** arguments of runOneStep *)
  Record stepIn : Type := mkin {
    i_draw : T; i_amb : T; i_ext : T; i_dr : Z; i_vol2 : T; i_inT2 : T; i_extra : option (list T) }.

  (** HPWH.cc:268-283 *)
  Definition stepReset (w : W) : W :=
    let t := set_t_stby #0 (set_t_outletT #0 (w_tank w)) in
    let hs := map (fun h => set_h_eOut #0 (set_h_eIn #0 (set_h_runtime #0 h))) (w_hs w) in
    set_w_extraE #0 (set_w_hs hs (set_w_tank t (set_w_stbyE #0 (set_w_envE #0 (set_w_extVol #0
      (set_w_condOut #0 (set_w_condIn #0 w))))))).

  (** HPWH.cc:287-296: (tank ambient, heat source ambient) used in this step *)
  Definition stepAmbient (x : stepIn) : M W (T * T) :=
    w <- get ;;
    if w_doDepress w then
      when (w_locT w =? UNINITIALIZED_LOCATIONTEMP) (modify (set_w_locT (i_amb x))) ;;
      w <- get ;; ret (w_locT w, w_locT w)
    else ret (i_amb x, i_ext x).

  (** HPWH.cc:312-324: start of a top-off *)
  Definition topOff (dr : Z) : M W unit :=
    w <- get ;;
    if ((dr_has DR_TOO dr || dr_has DR_TOT dr) && (w_timer w =? #0))%bool then
      when (hasCompressor w) (engageIx (w_compIx w) dr) ;;
      when (Z.leb 0 (w_lowIx w)) (engageIx (w_lowIx w) dr)
    else ret tt.

  (** HPWH.cc:333-343: switch off a running source whose shut-off logic holds *)
  Definition checkOff (i : nat) (dr : Z) : M W unit :=
    h <- getHS i ;;
    if h_on h then
      off <- askHS i shutsOff ;;
      if off then
        disengage i ;;
        match h_backup h with
        | None => ret tt
        | Some b =>
            boff <- askHS b shutsOff ;;
            if boff then ret tt else engageHS b dr
        end
      else ret tt
    else ret tt.

  (** HPWH.cc:329-377, one iteration of the choice loop; the result says whether to break *)
  Definition chooseOne (dr : Z) (i : nat) : M W bool :=
    w <- get ;;
    if w_heating w then
      checkOff i dr ;;
      h <- getHS i ;;
      if h_vip h then
        need <- askHS i shouldHeat ;;
        if need then
          if shouldDRLockOut (h_type h) dr then
            w <- get ;;
            if hasCompressor w then engageIx (w_compIx w) dr ;; ret true else ret false
          else turnAllOff ;; engageHS i dr ;; ret true
        else ret false
      else ret false
    else
      need <- askHS i shouldHeat ;;
      when need (engageHS i dr) ;; ret false.

  (** HPWH.cc:327-379 *)
  Definition chooseLoop (dr : Z) : M W unit :=
    w <- get ;; forM_break (seq 0 (numHS w)) (chooseOne dr).

  (** HPWH.cc:386-408: lock-outs of source i *)
  Definition lockOne (dr : Z) (amb : T) (i : nat) : M W unit :=
    h <- getHS i ;;
    (if shouldDRLockOut (h_type h) dr then modHS i (set_h_locked true)
     else match h_type h with
          | TCompressor => toLockOrUnlock i amb ;; ret tt
          | TResistance => modHS i (set_h_locked false)
          end) ;;
    h <- getHS i ;;
    match h_backup h with
    | None => when (h_locked h) (disengage i)
    | Some _ => ret tt
    end.

  (** HPWH.cc:413-454: which source heats in place of source i ([None] = continue) *)
  Definition heatTarget (dr : Z) (amb : T) (i : nat) : M W (option nat) :=
    h <- getHS i ;;
    match h_backup h with
    | Some b =>
        if h_locked h then
          hb <- getHS b ;;
          let lock1 := (h_on hb || shouldDRLockOut (h_type hb) dr)%bool in
          lock2 <- (match h_type hb with
                    | TCompressor => toLockOrUnlock b amb
                    | TResistance =>
                        match h_type h with TResistance => resLock i | TCompressor => ret false end
                    end) ;;
          if (lock1 || lock2)%bool then ret None
          else
            w <- get ;;
            vipOn <- (if Z.leb 0 (w_vipIx w) then hv <- getHS (Z.to_nat (w_vipIx w)) ;; ret (h_on hv)
                      else ret false) ;;
            match h_type hb with
            | TResistance => if (vipOn : bool) then ret None else ret (Some b)
            | TCompressor => ret (Some b)
            end
        else ret (Some i)
    | None => ret (Some i)
    end.

  (** HPWH.cc:477-507: the source is maxed out, run its backup now *)
  Definition runBackup (fuel : nat) (dr : Z) (amb minutes : T) (i b : nat) : M W unit :=
    h <- getHS i ;;
    hb <- getHS b ;;
    let avail1 := (negb (h_on hb) && negb (shouldDRLockOut (h_type hb) dr))%bool in
    lock <- (match h_type hb with
             | TCompressor => toLockOrUnlock b amb
             | TResistance =>
                 match h_type h with TResistance => resLock i | TCompressor => ret false end
             end) ;;
    if (avail1 && negb lock)%bool then
      engageHS b dr ;;
      hb <- getHS b ;;
      when ((minutes - h_runtime hb) >=? #0) (addHeatParent fuel b amb (minutes - h_runtime hb))
    else ret tt.

  (** HPWH.cc:463-508: source i (or its stand-in) finished early *)
  Definition afterEarly (fuel : nat) (dr : Z) (amb minutes : T) (i : nat) : M W unit :=
    disengage i ;;
    h <- getHS i ;;
    followed <- (match h_followed h with
                 | Some f => off <- askHS f shutsOff ;; ret (if (off : bool) then None else Some f)
                 | None => ret None
                 end) ;;
    match followed with
    | Some f => engageHS f dr
    | None =>
        m <- askHS i maxedOut ;;
        match h_backup h with
        | Some b => if m then runBackup fuel dr amb minutes i b else ret tt
        | None => ret tt
        end
    end.

  (** HPWH.cc:385-510, one iteration of the heating loop; [minutes] is minutesToRun *)
  Definition heatOne (fuel : nat) (dr : Z) (amb : T) (i : nat) (minutes : T) : M W T :=
    lockOne dr amb i ;;
    h <- getHS i ;;
    if h_on h then
      target <- heatTarget dr amb i ;;
      match target with
      | None => ret minutes
      | Some k =>
          addHeatParent fuel k amb minutes ;;
          hk <- getHS k ;;
          if h_runtime hk <? minutes then
            let minutes' := minutes - h_runtime hk in
            afterEarly fuel dr amb minutes' i ;; ret minutes'
          else ret minutes
      end
    else ret minutes.

  (** HPWH.cc:382-510 *)
  Definition heatSources (fuel : nat) (dr : Z) (amb : T) : M W unit :=
    w <- get ;;
    foldM (seq 0 (numHS w)) (heatOne fuel dr amb) (w_minStep w) ;; ret tt.

  (** HPWH.cc:306-511 *)
  Definition control (fuel : nat) (dr : Z) (amb : T) : M W unit :=
    if (dr_has DR_LOC dr && dr_has DR_LOR dr)%bool then turnAllOff
    else topOff dr ;; chooseLoop dr ;; heatSources fuel dr amb.

  (** HPWH.cc:2643-2652, nodes k-1, ..., 0; returns tot_qAdded_BTUperHr *)
  Fixpoint extraLoop (dist : list T) (minutes : T) (k : nat) (tot : T) : M W T :=
    match k with
    | O => ret tot
    | S i =>
        let d := nget dist i in
        if nneqb d #0 then
          let q := KWH_TO_BTU (W_TO_KW d) in
          onTank (addExtraHeatAboveNode (BTU_TO_KJ (q * minutes / min_per_hr)) i) ;;
          extraLoop dist minutes i (tot + q)
        else extraLoop dist minutes i tot
    end.

  (** HPWH.cc:2632-2655 addExtraHeat *)
  Definition addExtraHeat (fuel : nat) (dist : list T) : M W unit :=
    w <- get ;;
    let t := w_tank w in
    d1 <- lift (modifyHeatDistribution fuel dist (w_setpoint w) t) ;;
    d2 <- lift (resampleExtensive (map (fun _ => #0) (t_Ts t)) d1) ;;
    tot <- extraLoop d2 (w_minStep w) (numNodes t) #0 ;;
    modify (set_w_extraE (BTU_TO_KWH (tot * w_minStep w / min_per_hr))).

  (** HPWH.cc:516-521 *)
  Definition stepExtra (fuel : nat) (x : stepIn) : M W unit :=
    match i_extra x with
    | Some (e :: r) => addExtraHeat fuel (e :: r) ;; updateSoC
    | _ => ret tt
    end.

  (** HPWH.cc:524-552; [goal] is the ambient temperature passed in *)
  Definition stepDepress (goal : T) (w : W) : W :=
    if w_doDepress w then
      let ran := existsb (fun h => h_on h && negb (h_locked h) && h_depresses h)%bool (w_hs w) in
      let goal := if ran then goal - w_maxDep w else goal in
      set_w_locT (w_locT w - (w_locT w - goal) * (#1 - dec 9289 10000)) w
    else w.

  (** HPWH.cc:555-571 *)
  Definition settleHS (minutes : T) (h : hsrc T) : hsrc T :=
    match h_type h with
    | TCompressor => set_h_eIn (h_eIn h + h_stbyPwr h * ((minutes - h_runtime h) / min_per_hr)) h
    | TResistance => h
    end.
  Definition stepSettle (w : W) : W :=
    let hs := map (settleHS (w_minStep w)) (w_hs w) in
    set_w_envE (fold_left (fun acc h => acc + (h_eOut h - h_eIn h)) hs (w_envE w))
      (set_w_stbyE (KJ_TO_KWH (t_stby (w_tank w))) (set_w_hs hs w)).

  (** HPWH.cc:576-587 *)
  Definition stepTimer (dr : Z) (w : W) : W :=
    let w := set_w_timer (w_timer w + w_minStep w) (set_w_prevDR dr w) in
    if (dr_has DR_TOT dr && (w_timer w >=? w_timerLimit w))%bool then set_w_timer #0 w
    else if (negb (dr_has DR_TOO dr) && negb (dr_has DR_TOT dr))%bool then set_w_timer #0 w
    else w.

  (** HPWH.cc:253-588 runOneStep (without inlet temperature argument) *)
  Definition runOneStep (fuel : nat) (x : stepIn) : M W unit :=
    w <- get ;;
    if (w_doDepress w && nneqb (w_minStep w) #1)%bool then
      throw "minutesPerStep must equal one for temperature depression to work."
    else
      modify stepReset ;;
      '(tankAmb, hsAmb) <- stepAmbient x ;;
      w <- get ;;
      onTank (updateNodes fuel (w_hrStep w) (w_secStep w) (i_draw x) (w_inletT w) tankAmb
                          (i_vol2 x) (i_inT2 x)) ;;
      updateSoC ;;
      control fuel (i_dr x) hsAmb ;;
      modify (fun w => if allOff w then set_w_heating false w else w) ;;
      stepExtra fuel x ;;
      modify (stepDepress (i_amb x)) ;;
      modify stepSettle ;;
      modify (stepTimer (i_dr x)).

  (** HPWH.hh:667-684, the overload taking the inlet temperature; HPWH.hh:698-702 setInletT *)
  Definition setInletT (t : T) (w : W) : W := set_w_haveInletT true (set_w_inletT t w).
  Definition runOneStepInlet (fuel : nat) (inletT : T) (x : stepIn) : M W unit :=
    modify (setInletT inletT) ;; runOneStep fuel x.

  (** ** Several steps *)

  (** one row of the input arrays of runNSteps *)
  Record rowIn : Type := mkrow { r_inletT : T; r_draw : T; r_amb : T; r_ext : T; r_dr : Z }.
  Definition row_step (r : rowIn) : stepIn := mkin (r_draw r) (r_amb r) (r_ext r) (r_dr r) #0 #0 None.

  (** accumulators of runNSteps *)
  Record sums : Type := mksums { s_env : T; s_stby : T; s_out : T; s_draw : T; s_hs : list (T * T * T) }.

  (** HPWH.cc:619-624 *)
  Definition addSums (w : W) (r : rowIn) (s : sums) : sums :=
    mksums (s_env s + w_envE w) (s_stby s + w_stbyE w)
           (s_out s + t_outletT (w_tank w) * r_draw r) (s_draw s + r_draw r)
           (map (fun '((a, b, c), h) => (a + h_runtime h, b + h_eIn h, c + h_eOut h))
                (combine (s_hs s) (w_hs w))).

  (** HPWH.cc:590-640 runNSteps *)
  Definition runNSteps (fuel : nat) (rows : list rowIn) : M W unit :=
    w <- get ;;
    s <- foldM rows (fun r s =>
           runOneStepInlet fuel (r_inletT r) (row_step r) ;;
           w <- get ;; ret (addSums w r s))
         (mksums #0 #0 #0 #0 (map (fun _ => (#0, #0, #0)) (w_hs w))) ;;
    avg <- lift (div_chk (s_out s) (s_draw s)) ;;
    modify (fun w =>
      set_w_hs (map (fun '(h, (a, b, c)) => set_h_eOut c (set_h_eIn b (set_h_runtime a h)))
                    (combine (w_hs w) (s_hs s)))
        (set_w_tank (set_t_outletT avg (w_tank w))
          (set_w_stbyE (s_stby s) (set_w_envE (s_env s) w)))).

  (** HPWH.cc:2829-2873 isEnergyBalanced *)
  Definition isEnergyBalanced (draw1 inT1 draw2 inT2 prev tol : T) (w : W) : bool :=
    let qEl := fold_left (fun acc h => acc + KWH_TO_KJ (h_eIn h)) (w_hs w) #0 in
    let qExtra := KWH_TO_KJ (w_extraE w) in
    let qEnv := KWH_TO_KJ (w_envE w) in
    let qLoss := KWH_TO_KJ (w_stbyE w) in
    let cp1 := CPWATER * DENSITYWATER * draw1 in
    let cp2 := CPWATER * DENSITYWATER * draw2 in
    let out := t_outletT (w_tank w) in
    let qOut := cp1 * (out - inT1) + cp2 * (out - inT2) in
    let expected := prev + qEl + qExtra + qEnv - qLoss - qOut in
    let qBal := heatContent (w_tank w) - expected in
    negb ((nabs qBal / nmax prev #1) >? tol).
End Step.
