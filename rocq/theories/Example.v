(** A concrete hybrid unit, used by the examples that accompany the theorems: a compressor wrapped
    around the lower part of the tank with a lower resistance element as backup, and a VIP upper
    resistance element.  The definition works for every number type. *)

From Coq Require Import ZArith String List Bool.
From Verif Require Import Num Base Units Types Utils TankM Logic HeatSrc Step.
Import ListNotations.
Local Open Scope string_scope.

Section Example.
  Context {T : Type} `{Num T}.
  Local Open Scope num_scope.

  Definition exTankG (Ts : list T) : tank T :=
    let nv := #200 / nofN (length Ts) in
    {| t_volume := #200; t_Ts := Ts; t_stby := #0; t_mixesOnDraw := false; t_mixBelowFrac := #1 / #3;
       t_doMix := true; t_doCond := true; t_fixed := false;
       t_nodeVol := nv; t_nodeCp := CPWATER * DENSITYWATER * nv;
       t_nodeHeight := dec 3 10; t_fracTop := dec 9 100; t_fracSide := dec 82 100; t_UA := #7;
       t_inlet := 0; t_inlet2 := 2; t_hasHX := false; t_hxEff := dec 9 10; t_nodeHxEff := dec 5 10;
       t_outletT := #0; t_fitUA := #0 |}.

  (** "turn on when the weighted average is more than d below the setpoint" *)
  Definition exOn (d : wdist T) (dT : T) : logic T :=
    TempLogic "on" (mkdist DWeighted d) dT false CLess false true.
  (** "shut off when the bottom node is hotter than t" *)
  Definition exOff (t : T) : logic T := TempLogic "off" (mkdist DBottom []) t true CGreater false false.

  Definition exHS (ty : hstype) (vip : bool) (backup : option nat) (d : wdist T) (on off : list (logic T)) (lowest : nat) : hsrc T :=
    {| h_type := ty; h_on := false; h_locked := false; h_runtime := #0; h_eIn := #0; h_eOut := #0;
       h_vip := vip; h_backup := backup; h_companion := None; h_followed := None;
       h_dist := d; h_shrink := #2; h_turnOn := on; h_shutOff := off; h_standby := None;
       h_minT := #2; h_maxT := #50; h_depresses := match ty with TCompressor => true | _ => false end;
       h_airflow := #1; h_extIn := 0; h_extOut := 0; h_lowest := lowest; h_power := dec 45 10;
       h_hyst := #1; h_maxSet := #60; h_doDefrost := false; h_rdPwr := #0; h_rdLift := #0; h_rdBelow := #0;
       h_defrost := []; h_mlOut := #100; h_mlAir := nopp #100; h_shxCold := #0; h_shxHot := #0; h_shxPump := #0;
       h_stbyPwr := dec 1 1000; h_mpFlow := #0; h_config := Wrapped; h_multipass := false;
       h_inScale := #1; h_copScale := #1; h_eval := fun _ _ _ => mkperf #500 #1500 #3 |}.

  Definition exUpper : wdist T := [(dec 5 10, #0); (#1, #1)].
  Definition exLower : wdist T := [(dec 5 10, #1); (#1, #0)].

  Definition exSources : list (hsrc T) :=
    [ exHS TResistance true None exUpper [exOn exUpper #15] [] 2;
      exHS TResistance false None exLower [] [] 0;
      exHS TCompressor false (Some 1%nat) exLower [exOn exLower #5] [exOff #60] 0 ].

  Definition exUnit (Ts : list T) : hpwh T :=
    {| w_heating := false; w_setpoint := #55; w_setFixed := false; w_tank := exTankG Ts; w_hs := exSources;
       w_condIn := #0; w_condOut := #0; w_extVol := #0; w_envE := #0; w_stbyE := #0; w_extraE := #0;
       w_doDepress := false; w_locT := UNINITIALIZED_LOCATIONTEMP; w_maxDep := #5; w_prevDR := 0;
       w_timer := #0; w_timerLimit := #60; w_usesSoC := false; w_SoC := #1; w_targetSoC := #1;
       w_compIx := 2; w_lowIx := 1; w_highIx := 0; w_vipIx := 0; w_resMap := [];
       w_minStep := #1; w_secStep := #60; w_hrStep := #1 / #60; w_inletT := #10; w_haveInletT := true;
       w_canScale := true; w_storage := false |}.

  Definition exIn (draw amb : T) (dr : Z) : stepIn := mkin draw amb amb dr #0 #0 None.
End Example.
