(** The preset units with an external compressor.  Models /repo/src/HPWHpresets.cc:725-2171, 3796-3977 (branches of
    initLegacy).  A preset is described by a record that holds the arguments of the assignments and calls of its branch;
    ExtTable.v lists them.  The performance map of the compressor is a parameter: theorems hold for every map.
    Not modelled: the maps' coefficients, productInformation, names of heat sources. *)

From Coq Require Import ZArith String List Bool.
From Verif Require Import Num Base Units Types Utils TankM Logic HeatSrc Step Setters Config Perf Rating Fitter DataModel Init Legacy.
Import ListNotations.
Local Open Scope string_scope.

(** a heating logic on the node-weight 1 of the numbered twelfth [node] of the tank (0: the bottom node), or of the top
    node with [checksStandbyHysteresis] *)
Inductive xlogic : Set :=
| XNode (s : string) (node : Z) (x : lnum) (absolute : bool) (cm : cmp) (hts : bool)
| XStandby (x : lnum).
(** HPWHpresets.cc:1094-1096 etc.: where the water returns: the top node, or numNodes/3 - 1 *)
Inductive xreturn : Set := XTop | XThird.
Record xpreset : Set := mkxpreset {
  xp_nodes : nat;
  xp_setpoint : lnum; xp_setFixed : bool;
  xp_fixed : bool;                       (* tank->volumeFixed *)
  xp_canScale : bool;
  xp_vol : lnum; xp_UA : lnum;           (* in L and kJ/(h C) *)
  xp_size : option lnum;                 (* argument of setTankSize_adjustUA, gallons *)
  xp_shape : list Z;                     (* setCondensity *)
  xp_multi : bool;
  xp_return : xreturn;
  xp_minT : lnum; xp_maxT : option lnum; xp_hyst : lnum; xp_maxSet : lnum;
  xp_on : list xlogic; xp_standby : option xlogic; xp_off : xlogic;
  xp_flow : option lnum;                 (* mpFlowRate, gallons per minute *)
  xp_defrost : bool;                     (* setupDefrostMap() *)
  xp_low : option (lnum * lnum);         (* maxOut_at_LowT: outlet and air temperature *)
  xp_resDefrost : option (lnum * lnum * lnum); (* resDefrost: input power, temperature lift, onset *)
  xp_shx : option (lnum * lnum * lnum);  (* secondaryHeatExchanger *)
  xp_elements : option (lnum * lnum)     (* power of both elements and decision point of the upper one *)
}.

Section ExtPreset.
  Context {T : Type} `{Num T}.
  Local Open Scope num_scope.
  Local Open Scope monad_scope.
  Notation W := (hpwh T).

  Definition xlogicOf (l : xlogic) : logic T :=
    match l with
    | XNode s n x ab cm hts => TempLogic s (nodesDist [n]) (lval x) ab cm hts false
    | XStandby x => standbyTop (lval x)
    end.
  Definition xreturnOf (n : nat) (r : xreturn) : Z :=
    match r with XTop => Z.of_nat n - 1 | XThird => Z.of_nat (n / 3) - 1 end%Z.

  (** the compressor; [ev]: its performance map; [j]: members the constructor leaves unset; [backup]: its backup source *)
  Definition xcompressor (p : xpreset) (ev : T -> T -> T -> perf T) (backup : option nat) (j : hsrc T) : hsrc T :=
    set_h_backup backup
      (set_h_turnOn (map xlogicOf (xp_on p)) (set_h_shutOff [xlogicOf (xp_off p)]
      (set_h_standby (option_map xlogicOf (xp_standby p))
      (set_h_dist (wd_of_nodes (map nofZ (xp_shape p))) (set_h_vip true (set_h_config External
      (set_h_multipass (xp_multi p) (set_h_extOut 0 (set_h_extIn (xreturnOf (xp_nodes p) (xp_return p))
      (set_h_hyst (lval (xp_hyst p)) (set_h_minT (lval (xp_minT p)) (assign set_h_maxT (option_map lval (xp_maxT p))
      (set_h_maxSet (lval (xp_maxSet p)) (assign set_h_mpFlow (option_map (fun x => GPM_TO_LPS (lval x)) (xp_flow p))
      (set_h_depresses false
      (assign (fun '(o, a) h => set_h_mlOut (lval o) (set_h_mlAir (lval a) h)) (xp_low p)
      (assign (fun '(i, l, b) h => set_h_rdPwr (lval i) (set_h_rdLift (lval l) (set_h_rdBelow (lval b) h))) (xp_resDefrost p)
      (assign (fun '(c, h', u) h => set_h_shxCold (lval c) (set_h_shxHot (lval h') (set_h_shxPump (lval u) h))) (xp_shx p)
      ((if xp_defrost p then setupDefrostMap (dec 8865 10000) else fun h => h)
      (set_h_eval ev (freshCond j))))))))))))))))))))).
  (** HPWHpresets.cc:3878-3904, 3958-3976: elements 0 (upper) and 1 (lower), compressor 2; otherwise the compressor is source 0 *)
  Definition xsources (p : xpreset) (ev : T -> T -> T -> perf T) (junk : nat -> hsrc T) : list (hsrc T) :=
    match xp_elements p with
    | None => [xcompressor p ev None (junk 0%nat)]
    | Some (watts, d) =>
        [set_h_companion (Some 2%nat) (set_h_followed (Some 1%nat) (set_h_vip true
           (set_h_turnOn [topThird (lval d)] (setupRes 9 (lval watts) (newElement (junk 0%nat))))));
         set_h_backup (Some 2%nat) (set_h_followed (Some 2%nat) (setupRes 0 (lval watts) (newElement (junk 1%nat))));
         xcompressor p ev (Some 1%nat) (junk 2%nat)]
    end.
  Definition xtank (p : xpreset) (t : tank T) : tank T :=
    set_t_mixesOnDraw false (set_t_UA (lval (xp_UA p)) (set_t_volume (lval (xp_vol p))
      (set_t_fixed (xp_fixed p) (setNumNodes (xp_nodes p) t)))).

  (** HPWHpresets.cc:344-355, the branch, 4350-4374; [setTankSize_adjustUA] comes after the assignments to the tank
      and changes nothing else *)
  Definition initExternal (p : xpreset) (ev : T -> T -> T -> perf T) (junk : nat -> hsrc T) : M W unit :=
    modify (fun w => set_w_storage false (set_w_hs [] (setAllDefaults w))) ;;
    modify (fun w => set_w_hs (xsources p ev junk) (set_w_canScale (xp_canScale p) (set_w_setFixed (xp_setFixed p)
      (set_w_doDepress false (set_w_tank (xtank p (w_tank w)) (set_w_setpoint (lval (xp_setpoint p)) w)))))) ;;
    (match xp_size p with Some g => setTankSize_adjustUA (lval g) U_GAL false | None => ret tt end) ;;
    resetTankToSetpoint ;;
    finishInit.
End ExtPreset.
