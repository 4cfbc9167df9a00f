(** Properties of the preset units with an external compressor.  Statements only; proofs in ExtPresetsFacts.v. *)

From Coq Require Import ZArith QArith Qreals String List Bool Reals Lra Lia Floats Sorting.Sorted.
From Verif Require Import Num FNum Base Units Utils Types TankM Logic HeatSrc Step Setters Config Perf Rating Fitter DataModel Init Legacy ExtPreset ExtTable Spec SpecState SpecDist SpecEnergy SpecStep SpecExt SpecExtPreset.
From Verif Require Import RList FrameProofs SimFrame MixProofs DistProofs TankFacts ControlProofs SeqProofs WholeStep Progress StepProgress EnergyFacts SettersFacts SourcesFacts ConfigFacts PerfFacts InitsFacts InitGenFacts LegacyFacts ExtRunFacts Example.
From Verif Require Import ExtPresetsFacts.
Import ListNotations.
Local Open Scope R_scope.

(** Every preset with an external compressor is accepted, whatever its performance map, whatever state the object was in and whatever the uninitialised members of the new heat sources hold. *)
Theorem C105_accepts : forall m ev junk (w : hpwh R), exists w', initExternal (xpresetOf m) ev junk w = (Ok tt, w').
Proof. exact C105_accepts_fact. Qed.
Print Assumptions C105_accepts.

(** What the user gets: a tank of 24 or 96 nodes at the setpoint, which lies between 50 and 65 C and can be set; nothing heats; exactly one compressor, which takes water from the bottom node. A single-pass
    compressor returns it at the top; a multi-pass one, always on 24 nodes, at the eighth node from the bottom. *)
Theorem C105_result : forall m ev junk (w w' : hpwh R), initExternal (xpresetOf m) ev junk w = (Ok tt, w') ->
  (length (t_Ts (w_tank w')) = 24%nat \/ length (t_Ts (w_tank w')) = 96%nat) /\ (forall x, In x (t_Ts (w_tank w')) -> x = w_setpoint w') /\ 50 <= w_setpoint w' <= 65 /\
  (exists mx, isNewSetpointPossible (w_setpoint w') U_C w' = Ok (true, mx)) /\
  160 <= t_volume (w_tank w') /\ t_nodeVol (w_tank w') * INR (length (t_Ts (w_tank w'))) = t_volume (w_tank w') /\ 0 <= t_UA (w_tank w') <= t_volume (w_tank w') / 20 /\
  w_heating w' = false /\ w_doDepress w' = false /\ (forall h, In h (w_hs w') -> h_on h = false) /\
  exists k h, nth_error (w_hs w') k = Some h /\ w_compIx w' = Z.of_nat k /\ (forall i g, nth_error (w_hs w') i = Some g -> h_type g = TCompressor -> i = k) /\
    h_type h = TCompressor /\ h_config h = External /\ h_extOut h = 0%Z /\ length (h_shutOff h) = 1%nat /\ h_turnOn h <> [] /\
    (if h_multipass h then length (t_Ts (w_tank w')) = 24%nat /\ h_extIn h = 7%Z else h_extIn h = (Z.of_nat (length (t_Ts (w_tank w'))) - 1)%Z).
Proof. exact C105_result_fact. Qed.
Print Assumptions C105_result.

(** A preset that resizes its tank gives it the volume in gallons it names, and losses in proportion to the surface. *)
Theorem C105_size : forall m ev junk (w w' : hpwh R) g, initExternal (xpresetOf m) ev junk w = (Ok tt, w') -> xp_size (xpresetOf m) = Some g ->
  t_volume (w_tank w') = lval g * (378541 / 100000) /\ t_UA (w_tank w') / surfaceArea_m2 (t_volume (w_tank w')) = lval (xp_UA (xpresetOf m)) / surfaceArea_m2 (lval (xp_vol (xpresetOf m))).
Proof. exact C105_size_fact. Qed.
Print Assumptions C105_size.

(** The sizing fractions. A single-pass preset stops when the bottom twelfth is hot, so 11/12 of its tank can be used; it starts when the water a third of the way up is cold, for three presets two thirds of the way up.
    A multi-pass preset starts and stops at the same height, so that the fractions are 1/3 and 2/3, the latter enlarged by a ten thousandth. *)
Theorem C105_sizing : forall m ev junk (w w' : hpwh R), initExternal (xpresetOf m) ev junk w = (Ok tt, w') ->
  exists h, In h (w_hs w') /\ h_type h = TCompressor /\ (h_multipass h = true -> ~ highStart m) /\
  getSizingFractions w' = (if h_multipass h then Ok (1 / 3, 2 / 3 + 1 / 10000) else if highB m then Ok (2 / 3, 11 / 12) else Ok (1 / 3, 11 / 12)).
Proof. exact C105_sizing_fact. Qed.
Print Assumptions C105_sizing.

(** Three of them in numbers. *)
Example C105_example : forall ev junk (w : hpwh R), exists w1 w2 w3,
  initExternal (xpresetOf X_Sanco83) ev junk w = (Ok tt, w1) /\ length (t_Ts (w_tank w1)) = 96%nat /\ w_setpoint w1 = 65 /\ getSizingFractions w1 = Ok (2 / 3, 11 / 12) /\
  initExternal (xpresetOf X_ColmacCxV_5_MP) ev junk w = (Ok tt, w2) /\ length (t_Ts (w_tank w2)) = 24%nat /\ getSizingFractions w2 = Ok (1 / 3, 2 / 3 + 1 / 10000) /\
  initExternal (xpresetOf X_TamScalable_SP) ev junk w = (Ok tt, w3) /\ map h_type (w_hs w3) = [TResistance; TResistance; TCompressor] /\ getSizingFractions w3 = Ok (1 / 3, 11 / 12).
Proof. exact C105_example_fact. Qed.

(** Where the map predicts positive input and efficiency the compressor delivers heat for electricity: derating for defrost leaves a positive efficiency. An electric preheater may
    raise the air temperature by up to 5 F and a secondary heat exchanger the water temperature by up to 10 K, so that the map must be positive up to there. *)
Theorem C106_delivers : forall m ev junk (w w' : hpwh R), initExternal (xpresetOf m) ev junk w = (Ok tt, w') ->
  forall a0 a1 C air cond (u : hpwh R) h, deliversHeat ev a0 a1 C -> In h (w_hs w') -> h_type h = TCompressor ->
  a0 <= air -> air + (match xp_resDefrost (xpresetOf m) with Some _ => 25 / 9 | None => 0 end) <= a1 -> (forall y, 0 <= y <= (match xp_shx (xpresetOf m) with Some _ => 10 | None => 0 end) -> C (cond + y)) ->
  exists q, getPerformance u h air cond = Ok q /\ 0 < p_in q /\ 0 < p_out q.
Proof. exact C106_delivers_fact. Qed.
Print Assumptions C106_delivers.

(** Every run of a single-pass preset completes in which the outside air is above the range where the outlet is limited, the compressor delivers heat at the outside temperatures of the run and all water temperatures
    from [lo] to the setpoint, and ambient and inlet temperatures are between those; all the water stays between them; and heat is accounted for. *)
Theorem C106_single_pass : forall m ev junk (w w' : hpwh R), initExternal (xpresetOf m) ev junk w = (Ok tt, w') -> xp_multi (xpresetOf m) = false ->
  forall lo fuel rows, lo <= w_setpoint w' -> (length (t_Ts (w_tank w')) * length (t_Ts (w_tank w')) < fuel)%nat -> INR (length (t_Ts (w_tank w'))) * (1 + (w_setpoint w' - lo) * 10000) + 2 <= INR fuel ->
  (forall r, In r rows -> 0 <= r_draw r /\ r_draw r * INR (length (t_Ts (w_tank w'))) / t_volume (w_tank w') <= INR fuel /\ heatsAt (w_hs w') (r_ext r) (fun c => lo <= c <= w_setpoint w') /\
    (forall h, In h (w_hs w') -> h_type h = TCompressor -> h_mlAir h < r_ext r) /\ lo <= r_amb r <= w_setpoint w' /\ lo <= r_inletT r <= w_setpoint w') -> Rsum (map r_draw rows) <> 0 ->
  exists ws wl w2, SeqProofs.runs fuel rows w' ws wl /\ runNSteps fuel rows w' = (Ok tt, w2) /\ Forall (fun v => within lo (w_setpoint w') (t_Ts (w_tank v))) ws /\
    tankHeat (w_tank w2) = tankHeat (w_tank w')
      + CPWATER * DENSITYWATER * (Rsum (map (fun r => r_draw r * r_inletT r) rows) - t_outletT (w_tank w2) * Rsum (map r_draw rows))
      + 3600 * Rsum (map h_eOut (w_hs w2)) - 3600 * w_stbyE w2.
Proof. exact C106_single_pass_fact. Qed.
Print Assumptions C106_single_pass.

(** The same for a multi-pass preset; its water may leave the range, so that the compressor must deliver heat whatever the temperature of the water. *)
Theorem C106_multi_pass : forall m ev junk (w w' : hpwh R), initExternal (xpresetOf m) ev junk w = (Ok tt, w') -> xp_multi (xpresetOf m) = true ->
  forall fuel rows, (576 < fuel)%nat ->
  (forall r, In r rows -> 0 <= r_draw r /\ r_draw r * INR (length (t_Ts (w_tank w'))) / t_volume (w_tank w') <= INR fuel /\ heatsAt (w_hs w') (r_ext r) (fun _ => True) /\
    (forall h, In h (w_hs w') -> h_type h = TCompressor -> h_mlAir h < r_ext r)) -> Rsum (map r_draw rows) <> 0 ->
  exists w2, runNSteps fuel rows w' = (Ok tt, w2) /\
    tankHeat (w_tank w2) = tankHeat (w_tank w')
      + CPWATER * DENSITYWATER * (Rsum (map (fun r => r_draw r * r_inletT r) rows) - t_outletT (w_tank w2) * Rsum (map r_draw rows))
      + 3600 * Rsum (map h_eOut (w_hs w2)) - 3600 * w_stbyE w2.
Proof. exact C106_multi_pass_fact. Qed.
Print Assumptions C106_multi_pass.

(** The four Sanco presets with their own map: every run completes with outside temperatures from -17 F to 156 F and ambient and inlet temperatures from 0 C to the setpoint of 65 C. *)
Theorem C106_sanco : forall m junk (w w' : hpwh R), In m sancos -> initExternal (xpresetOf m) (polyFun (lpoly sancoMap)) junk w = (Ok tt, w') ->
  forall fuel rows, 62400098 <= INR fuel ->
  (forall r, In r rows -> 0 <= r_draw r /\ r_draw r * 96 / t_volume (w_tank w') <= INR fuel /\ -17 <= 9 / 5 * r_ext r + 32 <= 156 /\ 0 <= r_amb r <= 65 /\ 0 <= r_inletT r <= 65) -> Rsum (map r_draw rows) <> 0 ->
  exists ws wl w2, SeqProofs.runs fuel rows w' ws wl /\ runNSteps fuel rows w' = (Ok tt, w2) /\ Forall (fun v => within 0 65 (t_Ts (w_tank v))) ws /\
    tankHeat (w_tank w2) = tankHeat (w_tank w')
      + CPWATER * DENSITYWATER * (Rsum (map (fun r => r_draw r * r_inletT r) rows) - t_outletT (w_tank w2) * Rsum (map r_draw rows))
      + 3600 * Rsum (map h_eOut (w_hs w2)) - 3600 * w_stbyE w2.
Proof. exact C106_sanco_fact. Qed.
Print Assumptions C106_sanco.

(** At the lowest outside temperature at which they operate, -25 F, and with water at their setpoint the efficiency of their map is negative: heat is taken from the water. *)
Theorem C106_sanco_cold : forall m junk (w w' : hpwh R), In m sancos -> initExternal (xpresetOf m) (polyFun (lpoly sancoMap)) junk w = (Ok tt, w') ->
  forall h (u : hpwh R), In h (w_hs w') -> h_type h = TCompressor -> exists q, getPerformance u h (h_minT h) (w_setpoint w') = Ok q /\ 0 < p_in q /\ p_out q < 0.
Proof. exact C106_sanco_cold_fact. Qed.
Print Assumptions C106_sanco_cold.

(** An hour of drawing 3 L of 10 C a minute from a Sanco with 83 gallons in frost. *)
Example C106_example : forall junk (w : hpwh R), exists fuel w' w2, initExternal (xpresetOf X_Sanco83) (polyFun (lpoly sancoMap)) junk w = (Ok tt, w') /\
  runNSteps fuel (repeat (mkrow 10 3 20 (-10) 0%Z) 60) w' = (Ok tt, w2).
Proof. exact C106_example_fact. Qed.

(** A multi-pass unit with a compressor of 5 kW and an efficiency of 3. *)
Example C106_multi_example : forall junk (w : hpwh R), exists fuel w' w2, initExternal (xpresetOf X_ColmacCxV_5_MP) (fun _ _ _ => mkperf 5000 15000 3) junk w = (Ok tt, w') /\
  runNSteps fuel (repeat (mkrow 10 3 20 20 0%Z) 60) w' = (Ok tt, w2).
Proof. exact C106_multi_example_fact. Qed.
