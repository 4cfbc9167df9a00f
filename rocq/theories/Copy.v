(** Copying: several simulator objects in one program, and what assignment makes of them.
    Models /repo/src/HPWH.cc:169 (copy constructor), 197-245 (operator=), the objects' destruction,
    /repo/src/HPWHHeatSource.cc:39-90, /repo/src/Condenser.cc:35-66, /repo/src/Resistance.cc:20-32 and
    /repo/src/Tank.cc:9-31.

    The tank and the vector of heat sources of an object are reached through shared pointers.  A tank
    and the sources that go with it are one entry here, a "unit"; objects refer to units by number.  The
    tank and the sources hold a raw pointer [hpwh] to an object, and so does every heating logic of the
    sources.  The vector of shared pointers itself is copied by operator=; the model shares it, which is
    the same as long as no source is added or removed after the copy. *)

From Coq Require Import ZArith String List Bool.
From Verif Require Import Num Base Units Types Utils TankM Logic HeatSrc Step Setters.
Import ListNotations.
Local Open Scope string_scope.

Section Copy.
  Context {T : Type} `{Num T}.
  Local Open Scope num_scope.
  Local Open Scope monad_scope.
  Notation W := (hpwh T).

  (** [o_mem i]: the members of object i other than the tank and the sources (those two fields of the
      record are ignored); [o_unit i]: the unit object i refers to; [o_alive i]: it exists;
      [u_owner u]: where the pointers [tank->hpwh] and [heatSource->hpwh] of unit u point (HPWH.cc:208,
      213); [u_logic u]: where the pointers [hpwh] of its heating logics point
      (HPWHHeatingLogic.hh:24) *)
  Record heap : Type := mkheap {
    o_mem : nat -> W;
    o_unit : nat -> nat;
    o_alive : nat -> bool;
    u_tank : nat -> tank T;
    u_hs : nat -> list (hsrc T);
    u_owner : nat -> nat;
    u_logic : nat -> nat
  }.

  Definition upd {A} (f : nat -> A) (i : nat) (a : A) (j : nat) : A := if Nat.eqb j i then a else f j.

  (** what object i is, its tank and sources included *)
  Definition view (m : heap) (i : nat) : W :=
    set_w_tank (u_tank m (o_unit m i)) (set_w_hs (u_hs m (o_unit m i)) (o_mem m i)).
  (** object i, its tank and its sources become w *)
  Definition put (m : heap) (i : nat) (w : W) : heap :=
    mkheap (upd (o_mem m) i w) (o_unit m) (o_alive m) (upd (u_tank m) (o_unit m i) (w_tank w))
      (upd (u_hs m) (o_unit m i) (w_hs w)) (u_owner m) (u_logic m).

  (** HPWH.cc:204-241: the members of [s] that are assigned to [d] *)
  Definition copyMembers (s d : W) : W :=
    set_w_heating (w_heating s)
      (set_w_setpoint (w_setpoint s)
      (set_w_condIn (w_condIn s) (set_w_condOut (w_condOut s)
      (set_w_extVol (w_extVol s) (set_w_envE (w_envE s) (set_w_stbyE (w_stbyE s)
      (set_w_doDepress (w_doDepress s)
      (set_w_locT (w_locT s)
      (set_w_prevDR (w_prevDR s) (set_w_timerLimit (w_timerLimit s)
      (set_w_usesSoC (w_usesSoC s)
      (set_w_storage (w_storage s) d)))))))))))).

  (** HPWH.cc:197-245 operator= *)
  Definition assign (d s : nat) (m : heap) : heap :=
    if Nat.eqb d s then m
    else mkheap (upd (o_mem m) d (copyMembers (o_mem m s) (o_mem m d)))
                (upd (o_unit m) d (o_unit m s)) (o_alive m) (u_tank m) (u_hs m)
                (upd (u_owner m) (o_unit m s) d) (u_logic m).
  (** HPWH.cc:169 the copy constructor: a new object whose members are what its storage holds,
      [junk] (minutesPerStep, secondsPerStep, hoursPerStep, maxDepression_C and useCOP_inBtwxt, which
      have initialisers in HPWH.hh, included), and then operator= *)
  Definition construct (junk : W) (d s : nat) (m : heap) : heap :=
    assign d s (mkheap (upd (o_mem m) d junk) (o_unit m) (upd (o_alive m) d true) (u_tank m) (u_hs m)
                  (u_owner m) (u_logic m)).
  (** the end of an object's life; the unit stays while anything refers to it *)
  Definition destroy (i : nat) (m : heap) : heap :=
    mkheap (o_mem m) (o_unit m) (upd (o_alive m) i false) (u_tank m) (u_hs m) (u_owner m) (u_logic m).

  (** a call on object i that does not go through the pointers held by tank, sources and logics: the
      setters and getters of HPWH.cc on setpoint, temperatures, sizes, step length, ... *)
  Definition call {A} (i : nat) (f : M W A) (m : heap) : outc A * heap :=
    let '(r, w) := f (view m i) in (r, put m i w).

  (** what a program does with its objects *)
  Inductive cmd : Type :=
  | Assign (d s : nat)
  | Construct (junk : W) (d s : nat)
  | Destroy (i : nat)
  | Call (i : nat) (f : M W unit).
  Definition exec (m : heap) (c : cmd) : heap :=
    match c with
    | Assign d s => assign d s m
    | Construct junk d s => construct junk d s m
    | Destroy i => destroy i m
    | Call i f => snd (call i f m)
    end.
  Definition execs (cs : list cmd) (m : heap) : heap := fold_left exec cs m.

  (** following a pointer: undefined when the object is gone *)
  Definition deref {A} (m : heap) (i : nat) (f : W -> outc A) : outc A :=
    if o_alive m i then f (view m i) else UB "use of a destroyed HPWH".

  (** HPWHHeatSource.cc:264-290, as in [shouldHeat]: a logic of a source of object i is evaluated
      against the object the logic points to (HPWHHeatingLogic.cc:184, 188) *)
  Definition logicMet (m : heap) (i : nat) (l : logic T) : outc bool :=
    deref m (u_logic m (o_unit m i)) (fun w => l_met w l).
  (** Condenser.cc:86-94 maxedOut: the source compares the setpoint of the object it points to *)
  Definition sourceSetpoint (m : heap) (i : nat) : outc T :=
    deref m (u_owner m (o_unit m i)) (fun w => Ok (w_setpoint w)).
  (** HPWH.cc:299, Tank.cc:418-600 updateNodes called by object i: the loss coefficient is
      multiplied by the step length of the object the tank points to (Tank.cc:544-573) *)
  Definition updateTank (fuel : nat) (m : heap) (i : nat) (draw inT amb : T) : outc unit * heap :=
    match deref m (u_owner m (o_unit m i)) (fun w => Ok (w_hrStep w, w_secStep w)) with
    | Ok (hr, sec) => call i (onTank (updateNodes fuel hr sec draw inT amb #0 #0)) m
    | UB e => (UB e, m)
    | Err e => (Err e, m)
    | NoFuel => (NoFuel, m)
    end.
  (** a whole step of object i.  It is modelled when tank and sources point to i itself, the setpoint
      its logics read is i's own, they read i's own tank, and no state-of-charge logic is in use; otherwise the
      outcome is [NoFuel], nothing being claimed about it *)
  Definition stepObj (fuel : nat) (i : nat) (x : stepIn) (m : heap) : outc unit * heap :=
    let u := o_unit m i in
    let o := u_owner m u in let l := u_logic m u in
    if negb (o_alive m o && o_alive m l)%bool then (UB "use of a destroyed HPWH", m)
    else if (Nat.eqb o i && Nat.eqb (o_unit m l) u && (w_setpoint (o_mem m l) =? w_setpoint (o_mem m i)) && negb (w_usesSoC (o_mem m i)))%bool
    then call i (runOneStep fuel x) m
    else (NoFuel, m).

  (** ** Assignment of the parts *)

  (** HPWHHeatSource.cc:41-90: the part before the check of the associations *)
  Definition copyHSBefore (s d : hsrc T) : hsrc T :=
    set_h_on (h_on s) (set_h_runtime (h_runtime s) (set_h_eIn (h_eIn s) (set_h_eOut (h_eOut s)
      (set_h_vip (h_vip s) d)))).
  Definition copyHSAfter (s d : hsrc T) : hsrc T :=
    set_h_companion None (set_h_backup None (set_h_followed None
      (set_h_dist (h_dist s) (set_h_shrink (h_shrink s)
      (set_h_turnOn (h_turnOn s) (set_h_shutOff (h_shutOff s) (set_h_standby (h_standby s)
      (set_h_minT (h_minT s) (set_h_maxT (h_maxT s)
      (set_h_depresses (h_depresses s) (set_h_airflow (h_airflow s)
      (set_h_extIn (h_extIn s) (set_h_extOut (h_extOut s) (set_h_lowest (h_lowest s) d)))))))))))))).
  Definition isSome {A} (o : option A) : bool := match o with Some _ => true | None => false end.
  Definition assignHS (s : hsrc T) : M (hsrc T) unit :=
    modify (copyHSBefore s) ;;
    if (isSome (h_backup s) || isSome (h_companion s) || isSome (h_followed s))%bool
    then throw "HeatSources cannot be copied if they contain pointers to other HeatSources."
    else modify (copyHSAfter s).
  (** Condenser.cc:39-64 *)
  Definition copyCond (s d : hsrc T) : hsrc T :=
    set_h_shrink (h_shrink s) (set_h_locked (h_locked s) (set_h_eval (h_eval s)
      (set_h_defrost (h_defrost s)
      (set_h_rdPwr (h_rdPwr s) (set_h_rdLift (h_rdLift s) (set_h_rdBelow (h_rdBelow s)
      (set_h_config (h_config s) (set_h_multipass (h_multipass s) (set_h_mpFlow (h_mpFlow s)
      (set_h_extIn (h_extIn s) (set_h_extOut (h_extOut s) (set_h_lowest (h_lowest s)
      (set_h_shxCold (h_shxCold s) (set_h_shxHot (h_shxHot s) (set_h_shxPump (h_shxPump s)
      (set_h_hyst (h_hyst s) (set_h_maxSet (h_maxSet s)
      (set_h_inScale (h_inScale s) (set_h_copScale (h_copScale s) d))))))))))))))))))).
  (** Condenser.cc:35-66 *)
  Definition assignCond (s : hsrc T) : M (hsrc T) unit := assignHS s ;; modify (copyCond s).
  (** Resistance.cc:20-32 *)
  Definition assignRes (s : hsrc T) : M (hsrc T) unit := assignHS s ;; modify (set_h_power (h_power s)).
  (** Tank.cc:9-31 *)
  Definition assignTank (s d : tank T) : tank T :=
    set_t_volume (t_volume s) (set_t_fixed (t_fixed s) (set_t_UA (t_UA s) (set_t_fitUA (t_fitUA s)
      (set_t_Ts (t_Ts s) (set_t_mixesOnDraw (t_mixesOnDraw s) (set_t_mixBelowFrac (t_mixBelowFrac s)
      (set_t_doMix (t_doMix s) (set_t_hasHX (t_hasHX s) d)))))))).
End Copy.
Arguments heap : clear implicits.
Arguments cmd : clear implicits.
