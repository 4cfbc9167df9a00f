(** Properties of the performance maps of the Colmac multi-pass presets.  Statements only; proofs in MPMapsFacts.v. *)

From Coq Require Import ZArith QArith Qreals String List Bool Reals Lra Lia.
From Verif Require Import Num FNum Base Units Utils Types TankM Logic HeatSrc Step Setters Config Perf Rating Fitter DataModel Init Legacy ExtPreset ExtTable ExtMaps ExtMapsMP Spec SpecState SpecDist SpecEnergy SpecStep SpecExt SpecExtPreset SpecMPMap.
From Verif Require Import RList FrameProofs SeqProofs EnergyFacts LegacyFacts ExtPresetsFacts SPMapsFacts Example.
From Verif Require Import MPMapsFacts.
Import ListNotations.
Local Open Scope R_scope.

(** The maps of the six presets predict positive input power and efficiency at every outside temperature at which the compressor operates, for water from 0 C to the highest setpoint it reaches. *)
Theorem C110_positive : forall m k, mpMapOf m = Some k -> forall a c : R, lval (xp_minT (xpresetOf m)) <= a -> 9 / 5 * a + 32 <= 105 -> 0 <= c <= lval (xp_maxSet (xpresetOf m)) ->
  0 < p_in (mpFun k a c) /\ 0 < p_cop (mpFun k a c) /\ p_out (mpFun k a c) = p_cop (mpFun k a c) * p_in (mpFun k a c).
Proof. exact C110_positive_fact. Qed.
Print Assumptions C110_positive.

(** The compressor of a unit made from one of them delivers heat, derating by defrost included, wherever it operates. *)
Theorem C110_delivers : forall m k junk (w w' : hpwh R), mpMapOf m = Some k -> initExternal (xpresetOf m) (fun _ => mpFun k) junk w = (Ok tt, w') ->
  forall h (u : hpwh R) air c, In h (w_hs w') -> h_type h = TCompressor -> h_minT h <= air <= h_maxT h -> 0 <= c <= h_maxSet h -> exists q, getPerformance u h air c = Ok q /\ 0 < p_in q /\ 0 < p_out q.
Proof. exact C110_delivers_fact. Qed.
Print Assumptions C110_delivers.

(** The larger of two of these presets delivers more heat at every outside temperature from 40 F to 105 F, for water from 0 C to the setpoint of 135 F. *)
Theorem C110_larger : forall m1 m2 s1 s2 k1 k2, sizeOfMP m1 = Some s1 -> sizeOfMP m2 = Some s2 -> (s1 < s2)%Z -> mpMapOf m1 = Some k1 -> mpMapOf m2 = Some k2 ->
  forall a c : R, 40 <= 9 / 5 * a + 32 <= 105 -> 0 <= c <= 515 / 9 -> p_out (mpFun k1 a c) < p_out (mpFun k2 a c).
Proof. exact C110_larger_fact. Qed.
Print Assumptions C110_larger.

(** A unit at 50 F outside. *)
Example C110_example : forall junk (w : hpwh R), exists w' h q, initExternal (xpresetOf X_ColmacCxA_20_MP) (fun _ => mpFun mpColmacCxA_20) junk w = (Ok tt, w') /\ In h (w_hs w') /\ getPerformance w' h 10 40 = Ok q /\ 0 < p_out q.
Proof. exact C110_example_fact. Qed.

(** Sizes 10 and 15 at 50 F outside and with water of 10 C. *)
Example C110_larger_example : p_out (mpFun mpColmacCxA_10 10 10) < p_out (mpFun mpColmacCxA_15 10 10).
Proof. exact C110_larger_example_fact. Qed.
