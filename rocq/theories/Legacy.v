(** The preset units with integrated heat sources.  Models /repo/src/HPWHpresets.cc:344-4374 (initLegacy) for the
    presets whose compressor, if there is one, is wrapped around or submerged in the tank and described by a
    PerformancePolySet.  A preset is described by a record that holds the arguments of the assignments and calls of
    its branch; LegacyTable.v lists them.  The branches of the external systems (725-2171, 3796-3977) are in
    ExtPreset.v.  Not modelled: the members description, productInformation and rating10CFR430, names of heat sources. *)

From Coq Require Import ZArith String List Bool.
From Verif Require Import Num Base Units Types Utils TankM Logic HeatSrc Step Setters Config Perf Rating Fitter DataModel Init.
Import ListNotations.
Local Open Scope string_scope.

(** the constant expressions of the branches; [Lit n d] is the literal n/d *)
Inductive lnum : Set :=
| Lit (n d : Z) | FtoC (x : lnum) | DFtoDC (x : lnum) | Gal (x : lnum) | UAfc (x : lnum)
| LAdd (x y : lnum) | LSub (x y : lnum) | LMul (x y : lnum) | LDiv (x y : lnum).

(** a heating logic: the mean temperature of the heights a/b..c/d of the tank, of its top node, or of numbered
    twelfths of it, and the decision point *)
Inductive llogic : Set :=
| LRange (s : string) (a b c d : Z) (x : lnum) (absolute : bool) (cm : cmp)
| LTop (s : string) (x : lnum) (absolute : bool) (cm : cmp)
| LNodes (s : string) (nodes : list Z) (x : lnum).
(** HPWH.cc:1575-1583 (with UNITS_F, absolute), 1585-1597, 1608-1612, 1627-1643, 1651-1655 *)
Definition lWholeTankF (x : lnum) : llogic := LRange "whole tank" 0 1 1 1 (FtoC x) true CLess.
Definition lTopThird (x : lnum) : llogic := LRange "top third" 2 3 1 1 x false CLess.
Definition lTopThirdAbs (x : lnum) : llogic := LRange "top third absolute" 2 3 1 1 x true CLess.
Definition lBottomThird (x : lnum) : llogic := LRange "bottom third" 0 1 1 3 x false CLess.
Definition lSecondSixth (x : lnum) : llogic := LRange "second sixth" 1 6 2 6 x false CLess.
Definition lThirdSixth (x : lnum) : llogic := LRange "third sixth" 2 6 3 6 x false CLess.
Definition lFourthSixth (x : lnum) : llogic := LRange "fourth sixth" 3 6 4 6 x false CLess.
Definition lTopSixth (x : lnum) : llogic := LRange "top sixth" 5 6 1 1 x false CLess.
(** HPWH.cc:1677-1689 topNode, topNodeMaxTemp *)
Definition lTopNode (x : lnum) : llogic := LTop "top of tank" x false CLess.
Definition lTopNodeMax (x : lnum) : llogic := LTop "top of tank" x true CGreater.
(** HPWH.cc:1704-1709 bottomTwelfthMaxTemp, 1725-1737 secondSixthMaxTemp, fifthSixthMaxTemp (which calls itself "top sixth"), 1746-1751 largeDraw *)
Definition lBottomTwelfthMax (x : lnum) : llogic := LRange "bottom twelfth" 0 1 1 12 x true CGreater.
Definition lSecondSixthMax (x : lnum) : llogic := LRange "second sixth" 1 6 2 6 x true CGreater.
Definition lFifthSixthMax (x : lnum) : llogic := LRange "top sixth" 4 6 5 6 x true CGreater.
Definition lLargeDraw (x : lnum) : llogic := LRange "large draw" 0 1 1 4 x true CLess.

(** a condenser: points of its performance map (air temperature in F, coefficients of input power and COP) and the
    members its branch assigns ([None]: not assigned) *)
Record lcond : Set := mklcond {
  lc_poly : list (lnum * list lnum * list lnum);
  lc_minT : option lnum; lc_maxT : option lnum; lc_hyst : option lnum; lc_config : option coil;
  lc_maxSet : option lnum; lc_depress : option bool
}.
Inductive lkind : Set := LElement (node : Z) (watts : lnum) | LCondenser (c : lcond).
Record lsrc : Set := mklsrc {
  ls_kind : lkind;
  ls_vip : bool;
  ls_shape : option (list lnum);      (* setCondensity *)
  ls_on : list llogic; ls_off : list llogic;
  ls_backup : option nat; ls_companion : option nat; ls_followed : option nat
}.
Record lpreset : Set := mklpreset {
  lp_storage : bool;                  (* the preset is StorageTank *)
  lp_nodes : nat;
  lp_setpoint : lnum;
  lp_init : option lnum;              (* hasInitialTankTemp, initialTankT_C *)
  lp_fixed : bool;                    (* tank->volumeFixed; true unless the branch assigns false *)
  lp_vol : lnum; lp_UA : lnum;
  lp_depress : bool; lp_mixes : bool;
  lp_hx : option lnum;                (* hasHeatExchanger, heatExchangerEffectiveness *)
  lp_hs : list lsrc                   (* in the order of addResistance, addCondenser *)
}.

Section Legacy.
  Context {T : Type} `{Num T}.
  Local Open Scope num_scope.
  Local Open Scope monad_scope.
  Notation W := (hpwh T).

  Fixpoint lval (e : lnum) : T :=
    match e with
    | Lit n d => if Z.eqb d 1 then nofZ n else dec n d
    | FtoC x => F_TO_C (lval x)
    | DFtoDC x => dF_TO_dC (lval x)
    | Gal x => GAL_TO_L (lval x)
    | UAfc x => UAf_TO_UAc (lval x)
    | LAdd x y => lval x + lval y
    | LSub x y => lval x - lval y
    | LMul x y => lval x * lval y
    | LDiv x y => lval x / lval y
    end.

  (** HPWHHeatingLogic.cc:123-162: the constructor from nodes of weight 1, numbered from 1; all weights being equal, the
      inner loop (146-152) runs to the last node, so that what lies between the first and the last node counts, whether listed or not *)
  Definition nodesDist (nodes : list Z) : distribution T :=
    match nodes with
    | [] => mkdist DWeighted [(nofN LOGIC_SIZE, #0)]
    | n :: _ =>
        if Z.eqb n 0 then mkdist DBottom []
        else if Z.eqb n (Z.of_nat LOGIC_SIZE + 1) then mkdist DWeighted []
        else
          let front := nofZ n - #1 in
          let back := nofZ (last nodes n) - #1 in
          mkdist DWeighted
            ((if front >? #0 then [(front, #0)] else []) ++ [(back + #1, #1)]
             ++ (if back + #1 <? nofN LOGIC_SIZE then [(nofN LOGIC_SIZE, #0)] else []))%list
    end.
  Definition llogicOf (l : llogic) : logic T :=
    match l with
    | LRange s a b c d x ab cm => rangeLogic s (nofZ a / nofZ b) (nofZ c / nofZ d) (lval x) ab cm
    | LTop s x ab cm => TempLogic s (mkdist DTop []) (lval x) ab cm false false
    | LNodes s ns x => TempLogic s (nodesDist ns) (lval x) true CLess false false
    end.
  Definition lpoly (l : list (lnum * list lnum * list lnum)) : list (@polyPt T) :=
    map (fun '(t, i, c) => mkpoly (lval t) (map lval i) (map lval c)) l.

  (** an assignment that may be absent *)
  Definition assign {A B} (f : A -> B -> B) (o : option A) (b : B) : B := match o with Some a => f a b | None => b end.
  (** addResistance and setup, or addCondenser and the assignments to its members; [j]: members the constructor leaves unset *)
  Definition lkindOf (k : lkind) (j : hsrc T) : hsrc T :=
    match k with
    | LElement node watts => setupRes node (lval watts) (newElement j)
    | LCondenser c =>
        set_h_eval (polyFun (lpoly (lc_poly c)))
          (assign set_h_minT (option_map lval (lc_minT c)) (assign set_h_maxT (option_map lval (lc_maxT c))
          (assign set_h_hyst (option_map lval (lc_hyst c)) (assign set_h_config (lc_config c)
          (assign set_h_maxSet (option_map lval (lc_maxSet c)) (assign set_h_depresses (lc_depress c) (freshCond j)))))))
    end.
  Definition lsrcOf (s : lsrc) (j : hsrc T) : hsrc T :=
    set_h_backup (ls_backup s) (set_h_companion (ls_companion s) (set_h_followed (ls_followed s)
    (set_h_turnOn (map llogicOf (ls_on s)) (set_h_shutOff (map llogicOf (ls_off s))
    (assign set_h_dist (option_map (fun l => wd_of_nodes (map lval l)) (ls_shape s))
    (set_h_vip (ls_vip s) (lkindOf (ls_kind s) j))))))).
  Fixpoint lsrcs (l : list lsrc) (i : nat) (junk : nat -> hsrc T) : list (hsrc T) :=
    match l with [] => [] | s :: r => lsrcOf s (junk i) :: lsrcs r (S i) junk end.

  (** the assignments to the tank *)
  Definition ltank (p : lpreset) (t : tank T) : tank T :=
    assign (fun e t => set_t_hxEff e (set_t_hasHX true t)) (option_map lval (lp_hx p))
      (set_t_mixesOnDraw (lp_mixes p) (set_t_UA (lval (lp_UA p)) (set_t_volume (lval (lp_vol p))
      (set_t_fixed (lp_fixed p) (setNumNodes (lp_nodes p) t))))).

  (** HPWHpresets.cc:344-4374 initLegacy for the preset [p]; [junk i]: uninitialised members of source i *)
  Definition initLegacy (p : lpreset) (junk : nat -> hsrc T) : M W unit :=
    modify (fun w => set_w_storage (lp_storage p) (set_w_hs [] (setAllDefaults w))) ;;
    modify (fun w => set_w_hs (lsrcs (lp_hs p) 0 junk)
      (set_w_doDepress (lp_depress p) (set_w_tank (ltank p (w_tank w)) (set_w_setpoint (lval (lp_setpoint p)) w)))) ;;
    (match lp_init p with
     | Some x => onTank (setNodeT (lval x))
     | None => resetTankToSetpoint
     end) ;;
    finishInit.
End Legacy.
