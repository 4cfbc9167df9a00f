(** Properties of the performance maps of the Colmac and Nyle single-pass presets.  Statements only; proofs in SPMapsFacts.v. *)

From Coq Require Import ZArith QArith Qreals String List Bool Reals Lra Lia.
From Verif Require Import Num FNum Base Units Utils Types TankM Logic HeatSrc Step Setters Config Perf Rating Fitter DataModel Init Legacy ExtPreset ExtTable ExtMaps Spec SpecState SpecDist SpecEnergy SpecStep SpecExt SpecExtPreset SpecSPMap.
From Verif Require Import RList FrameProofs SeqProofs EnergyFacts LegacyFacts RatingFacts ExtPresetsFacts Example.
From Verif Require Import SPMapsFacts.
Import ListNotations.
Local Open Scope R_scope.

(** The maps of the 17 presets predict positive input power and efficiency at every setpoint from 100 F to the highest the compressor reaches, at every outside temperature from the lowest at which it operates to 120 F,
    and for water from 0 C to that highest setpoint; the heat delivered is their product. *)
Theorem C109_positive : forall m k, spMapOf m = Some k -> forall sp a c : R, 100 <= 9 / 5 * sp + 32 -> sp <= lval (xp_maxSet (xpresetOf m)) -> lval (xp_minT (xpresetOf m)) <= a -> 9 / 5 * a + 32 <= 120 ->
  0 <= c <= lval (xp_maxSet (xpresetOf m)) -> 0 < p_in (spFun k sp a c) /\ 0 < p_cop (spFun k sp a c) /\ p_out (spFun k sp a c) = p_cop (spFun k sp a c) * p_in (spFun k sp a c).
Proof. exact C109_positive_fact. Qed.
Print Assumptions C109_positive.

(** Of two of these presets of the same maker the larger delivers more heat at the setpoint of 135 F, at every outside temperature from 40 F to 120 F and for water from 0 C to the setpoint. *)
Theorem C109_larger : forall m1 m2 mk s1 s2 k1 k2, sizeOf m1 = Some (mk, s1) -> sizeOf m2 = Some (mk, s2) -> (s1 < s2)%Z -> spMapOf m1 = Some k1 -> spMapOf m2 = Some k2 ->
  forall a c : R, 40 <= 9 / 5 * a + 32 <= 120 -> 0 <= c <= 515 / 9 -> p_out (spFun k1 (515 / 9) a c) < p_out (spFun k2 (515 / 9) a c).
Proof. exact C109_larger_fact. Qed.
Print Assumptions C109_larger.

(** At 50 F outside and with water of 10 C. *)
Example C109_larger_example : p_out (spFun mapNyleC60A (515 / 9) 10 10) < p_out (spFun mapNyleC90A (515 / 9) 10 10) < p_out (spFun mapNyleC250A (515 / 9) 10 10).
Proof. exact C109_larger_example_fact. Qed.

(** The two largest Nyle presets accept a setpoint of 70 F, at which their map predicts a negative input power for air of 120 F, at which they still operate, and water of 0 C. *)
Theorem C109_low_setpoint : forall m ev junk (w w' : hpwh R), In m [X_NyleC250A_SP; X_NyleC250A_C_SP] -> initExternal (xpresetOf m) ev junk w = (Ok tt, w') ->
  exists k, spMapOf m = Some k /\ fst (setSetpointC (190 / 9) w') = Ok tt /\ w_setpoint (snd (setSetpointC (190 / 9) w')) = 190 / 9 /\
    (forall h, In h (w_hs w') -> h_type h = TCompressor -> h_minT h <= 440 / 9 <= h_maxT h) /\ p_in (spFun k (190 / 9) (440 / 9) 0) < 0.
Proof. exact C109_low_setpoint_fact. Qed.
Print Assumptions C109_low_setpoint.

(** Every run of one of these presets with its own map completes in which the outside air is in the range of the compressor but not above 120 F, for those with a cold weather package above the range where the outlet is limited,
    and ambient and inlet temperatures are between 0 C and the setpoint of 135 F; all the water stays between them, heat is accounted for, and the setpoint at which the map is read is the one of the preset in every state. *)
Theorem C109_run : forall m k junk (w w' : hpwh R), spMapOf m = Some k -> initExternal (xpresetOf m) (fun _ => spFun k (515 / 9)) junk w = (Ok tt, w') ->
  forall fuel rows, 54933432 <= INR fuel ->
  (forall r, In r rows -> 0 <= r_draw r /\ r_draw r * 96 / t_volume (w_tank w') <= INR fuel /\ lval (xp_minT (xpresetOf m)) <= r_ext r /\ 9 / 5 * r_ext r + 32 <= 120 /\
    match xp_low (xpresetOf m) with Some (_, a) => lval a < r_ext r | None => True end /\ 0 <= r_amb r <= 515 / 9 /\ 0 <= r_inletT r <= 515 / 9) -> Rsum (map r_draw rows) <> 0 ->
  exists ws wl w2, SeqProofs.runs fuel rows w' ws wl /\ runNSteps fuel rows w' = (Ok tt, w2) /\ w_setpoint w' = 515 / 9 /\ Forall (fun v => within 0 (515 / 9) (t_Ts (w_tank v)) /\ w_setpoint v = 515 / 9) ws /\
    tankHeat (w_tank w2) = tankHeat (w_tank w')
      + CPWATER * DENSITYWATER * (Rsum (map (fun r => r_draw r * r_inletT r) rows) - t_outletT (w_tank w2) * Rsum (map r_draw rows))
      + 3600 * Rsum (map h_eOut (w_hs w2)) - 3600 * w_stbyE w2.
Proof. exact C109_run_fact. Qed.
Print Assumptions C109_run.

(** An hour of drawing 3 L of 10 C a minute from a Nyle with a cold weather package, at 10 C outside. *)
Example C109_example : forall junk (w : hpwh R), exists fuel w' w2, initExternal (xpresetOf X_NyleC90A_C_SP) (fun _ => spFun mapNyleC90A (515 / 9)) junk w = (Ok tt, w') /\
  runNSteps fuel (repeat (mkrow 10 3 20 10 0%Z) 60) w' = (Ok tt, w2).
Proof. exact C109_example_fact. Qed.
