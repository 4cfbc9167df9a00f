(** The configuration check and the final configuration of a model.
    Models /repo/src/HPWH.cc:2881-3046 (checkInputs), 3067-3129 (configure) and
    /repo/src/HPWHHeatSource.cc:236-246 (findParent). *)

From Coq Require Import ZArith String List Bool.
From Verif Require Import Num Base Units Types Utils TankM Logic HeatSrc Step Setters.
Import ListNotations.
Local Open Scope string_scope.

Section Config.
  Context {T : Type} `{Num T}.
  Local Open Scope num_scope.
  Local Open Scope monad_scope.
  Notation W := (hpwh T).

  (** HPWHHeatSource.cc:236-246 findParent of source [i]: the first source whose backup it is *)
  Fixpoint findParent (i : nat) (hs : list (hsrc T)) : option (hsrc T) :=
    match hs with
    | [] => None
    | h :: r => match h_backup h with
                | Some b => if Nat.eqb b i then Some h else findParent i r
                | None => findParent i r
                end
    end.

  (** one [if (bad) error_msgs.push(...)] *)
  Definition complain (bad : bool) (msg : string) : list string := if bad then [msg] else [].
  Definition noLogic (ls : list (logic T)) : bool := match ls with [] => true | _ => false end.
  (** HPWH.cc:2949-2967: port height outside 0..numNodes-1 *)
  Definition badPort (n : nat) (p : Z) : bool := (Z.ltb p 0 || Z.ltb (Z.of_nat n - 1) p)%bool.

  (** HPWH.cc:2931-2985, the checks of a compressor; the performance function always exists in the model *)
  Definition checkCompressor (n : nat) (h : hsrc T) : list string :=
    ((if h_doDefrost h then
        complain (Nat.ltb (length (h_defrost h)) 3) "Defrost logic set to true but no valid defrost map" ++
        complain (match h_config h with External => false | _ => true end) "Defrost is only simulated for external compressors."
      else []) ++
     (match h_config h with
      | External =>
          complain (negb (Nat.eqb (length (h_shutOff h)) 1)) "External heat sources can only have one shut off logic." ++
          complain (badPort n (h_extOut h)) "External heat sources need an external outlet height within the bounds" ++
          complain (badPort n (h_extIn h)) "External heat sources need an external inlet height within the bounds"
      | _ => complain (nneqb (h_shxPump h) #0) "not an external heat source but has an external secondary heat exchanger."
      end))%list.

  (** HPWH.cc:2893-2987, the checks of heat source [i] (every source of the model has a type) *)
  Definition checkSource (w : W) (i : nat) (h : hsrc T) : list string :=
    (complain (noLogic (h_turnOn h) &&
               match findParent i (w_hs w) with None => true | Some p => noLogic (h_turnOn p) end)
              "You must specify at least one logic to turn on the element" ++
     concat (map (fun l => complain (negb (l_isValid l)) "On logic is invalid.") (h_turnOn h)) ++
     concat (map (fun l => complain (negb (l_isValid l)) "Off logic is invalid.") (h_shutOff h)) ++
     complain (negb (wd_isValid (h_dist h))) "The heat distribution is invalid." ++
     complain ((h_airflow h >? #1) || (h_airflow h <=? #0)) "The airflowFreedom must be between 0 and 1" ++
     match h_type h with TCompressor => checkCompressor (numNodes (w_tank w)) h | TResistance => [] end)%list.
  Fixpoint checkSources (w : W) (i : nat) (hs : list (hsrc T)) : list string :=
    match hs with [] => [] | h :: r => (checkSource w i h ++ checkSources w (S i) r)%list end.

  (** HPWH.cc:3030-3045: all but the last message are sent and their exceptions dropped, the last one is thrown *)
  Definition throwLast (msgs : list string) : outc unit :=
    match rev msgs with [] => Ok tt | m :: _ => Err m end.

  (** HPWH.cc:2881-3046 checkInputs; an exception of getSizingFractions is not caught *)
  Definition checkInputs (w : W) : outc unit :=
    let m1 := complain (match w_hs w with [] => negb (w_storage w) | _ => false end) "You must have at least one HeatSource." in
    let m2 := checkSources w 0 (w_hs w) in
    obind (if hasCompressor w
           then obind (getSizingFractions w) (fun '(aqua, use) =>
                  Ok (complain (aqua <? #1 - use) "The off logic is beneath the on logic."))
           else Ok []) (fun m3 =>
    obind (setpointPossible (w_setpoint w) w) (fun '(ok, _) =>
    let m4 := complain (negb ok) "Cannot set new setpoint." in
    let m5 := complain (t_UA (w_tank w) <? #0) "The tankUA_kJperHrC is less than 0 for a HPWH, it must be greater than 0" in
    let m6 := complain (t_hxEff (w_tank w) >? #1) "Heat-exchanger effectiveness cannot exceed 1." in
    throwLast (m1 ++ m2 ++ m3 ++ m4 ++ m5 ++ m6)%list)).

  (** ** configure *)

  (** the classes of presets distinguished by HPWH.cc:3069-3116 *)
  Inductive preset : Set :=
  | PGE2012_50 | PSanco | PShutoff (* Nyle SP, Colmac SP, Mitsubishi *) | PScalableMP | PTamScalable | POther.

  (** shutOffLogicSet[0] of heatSources[compressorIndex], neither index checked *)
  Definition onFirstShutOff (f : logic T -> logic T) : M W unit :=
    w <- get ;;
    if Z.ltb (w_compIx w) 0 then undef "heatSources[-1]"
    else h <- getHS (Z.to_nat (w_compIx w)) ;;
         match h_shutOff h with
         | [] => undef "shutOffLogicSet[0]"
         | l :: r => modHS (Z.to_nat (w_compIx w)) (set_h_shutOff (f l :: r))
         end.
  (** logic->description = ...; the member isEnteringWaterHighTempShutoff of a state-of-charge logic is not modelled *)
  Definition setDesc (s : string) (l : logic T) : logic T :=
    match l with
    | TempLogic _ d dp a c h b => TempLogic s d dp a c h b
    | SoCLogic _ dp hy tm cm m c b => SoCLogic s dp hy tm cm m c b
    end.
  Definition setIsHTS (l : logic T) : logic T :=
    match l with TempLogic s d dp a c _ b => TempLogic s d dp a c true b | l => l end.
  (** HPWH.cc:3069-3116 *)
  Definition adjustModel (p : preset) : M W unit :=
    match p with
    | PGE2012_50 => onFirstShutOff (setDesc "large draw")
    | PSanco => modify (set_w_setFixed true) ;; onFirstShutOff setIsHTS
    | PShutoff => onFirstShutOff setIsHTS
    | PScalableMP => modify (set_w_canScale true)
    | PTamScalable =>
        modify (set_w_canScale true) ;;
        getHS 2 ;; modHS 2 (set_h_vip true) ;; getHS 0 ;; modHS 0 (set_h_vip true) ;;
        onFirstShutOff setIsHTS
    | POther => ret tt
    end.
  (** HPWH.cc:3067-3129 configure *)
  Definition configure (p : preset) : M W unit :=
    adjustModel p ;;
    modify calcDerivedValues ;;
    w <- get ;;
    lift (checkInputs w) ;;
    resetTankToSetpoint ;;
    modify (fun w => set_w_heating (existsb (fun h => h_on h) (w_hs w)) w).
End Config.
