(** Properties of the enumeration of presets and of what a name or number selects.  Statements only; proofs in ModelsFacts.v. *)

From Coq Require Import ZArith QArith String List Bool Reals Lra Lia.
From Verif Require Import Num Base Units Utils Types TankM Logic HeatSrc Step Setters Config Perf Fitter DataModel Init Legacy LegacyTable ExtPreset ExtTable Models Spec SpecState.
From Verif Require Import RList FrameProofs ConfigFacts InitsFacts LegacyFacts ExtPresetsFacts Example.
From Verif Require Import ModelsFacts.
Import ListNotations.
Local Open Scope string_scope.
Local Open Scope Z_scope.

(** Names and numbers correspond: each of the names has its own number and is found again by it; no other name has a number and no other number a name. *)
Theorem C108_lookup : (forall s z, In (s, z) models -> getPresetNumberFromName s = (z, true) /\ getPresetNameFromNumber z = Some s) /\
  (forall s, ~ In s (map fst models) -> getPresetNumberFromName s = (-1, false)) /\ (forall z, ~ In z (map snd models) -> getPresetNameFromNumber z = None) /\ NoDup (map fst models) /\ NoDup (map snd models).
Proof. exact C108_lookup_fact. Qed.
Print Assumptions C108_lookup.

(** The number of each of the presets described selects the branch its description is taken from; of the enumeration, exactly the five named have no branch. *)
Theorem C108_branch : (forall m z, In (fst (dname m), z) models -> branchOf z = Some (snd (dname m))) /\ (forall m, exists z, In (fst (dname m), z) models) /\
  (forall s z, In (s, z) models -> (branchOf z = None <-> In s ["BradfordWhiteAeroThermRE2HP50"; "BradfordWhiteAeroThermRE2HP65"; "BradfordWhiteAeroThermRE2HP80"; "IceAirccHPWH275D"; "IceAirccHPWH550D"])).
Proof. exact C108_branch_fact. Qed.
Print Assumptions C108_branch.

(** Initialising by name succeeds for every name of the enumeration but the five without a branch, for which it fails and leaves the object without heat sources; any other name fails and changes nothing. *)
Theorem C108_init : forall s ev junk (w : hpwh R),
  (In s (map fst models) -> ~ In s ["BradfordWhiteAeroThermRE2HP50"; "BradfordWhiteAeroThermRE2HP65"; "BradfordWhiteAeroThermRE2HP80"; "IceAirccHPWH275D"; "IceAirccHPWH550D"] ->
     exists w', initLegacyName s ev junk w = (Ok tt, w')) /\
  (In s ["BradfordWhiteAeroThermRE2HP50"; "BradfordWhiteAeroThermRE2HP65"; "BradfordWhiteAeroThermRE2HP80"; "IceAirccHPWH275D"; "IceAirccHPWH550D"] -> In s (map fst models) /\ exists e w', initLegacyName s ev junk w = (Err e, w') /\ w_hs w' = []) /\
  (~ In s (map fst models) -> exists e, initLegacyName s ev junk w = (Err e, w)).
Proof. exact C108_init_fact. Qed.
Print Assumptions C108_init.

(** The ranges of numbers that configure compares with pick out families by name: the shut-off by entering water is set for the single-pass systems and the Sanco units, the setpoint
    fixed for the Sanco units, scaling allowed for the scalable ones. *)
Theorem C108_configure : forall s z, In (s, z) models ->
  (classOf z = PSanco \/ classOf z = PShutoff \/ classOf z = PTamScalable <-> String.index 0 "_SP" s <> None \/ prefix "Sanco" s = true) /\
  (classOf z = PSanco <-> prefix "Sanco" s = true) /\ (classOf z = PScalableMP \/ classOf z = PTamScalable <-> String.index 0 "Scalable" s <> None) /\ (classOf z = PGE2012_50 <-> s = "GE2012_50").
Proof. exact C108_configure_fact. Qed.
Print Assumptions C108_configure.

(** A table of at least two axes is given to the interpolator axis by axis, the first three at most; fewer axes are undefined. Outside the table, in outside temperature, the last value is kept for the Mitsubishi and the
    multi-pass Nyle units and continued linearly for every other one, whatever the coil. *)
Theorem C108_axes : forall (T : Type) z cfg (grid : list (list T)),
  ((length grid < 2)%nat -> exists e, setUpGridAxes z cfg grid = UB e) /\
  ((2 <= length grid)%nat -> exists axes, setUpGridAxes z cfg grid = Ok axes /\ map (fun a => fst (fst a)) axes = firstn 3 grid /\
    exists x m1 e1, nth_error axes 0 = Some (x, m1, e1) /\
      (forall s, In (s, z) models -> (e1 = EConstant <-> prefix "Mitsubishi" s = true \/ prefix "Nyle" s = true /\ String.index 0 "_MP" s <> None)) /\ (z = -1 -> e1 = ELinear) /\
      (cfg <> External -> m1 = ILinear)).
Proof. exact C108_axes_fact. Qed.
Print Assumptions C108_axes.

(** Data read from a file under a name that is not in the enumeration lose what depends on the number: no adjustment is made and tables are continued linearly. The data of the Mitsubishi, read under its own name and
    under any other, give units of different behaviour. *)
Theorem C108_renamed : (forall s, ~ In s (map fst models) -> configureNamed (T:=R) s = configure POther /\
    forall (a b c : list R), setUpGridAxes (fst (getPresetNumberFromName s)) External [a; b; c] = Ok [(a, ICubic, ELinear); (b, ICubic, ELinear); (c, ILinear, ELinear)]) /\
  (let z := fst (getPresetNumberFromName "Mitsubishi_QAHV_N136TAU_HPB_SP") in configureNamed (T:=R) "Mitsubishi_QAHV_N136TAU_HPB_SP" = configure PShutoff /\
    forall (a b c : list R), setUpGridAxes z External [a; b; c] = Ok [(a, ILinear, EConstant); (b, ILinear, ELinear); (c, ILinear, EConstant)]).
Proof. exact C108_renamed_fact. Qed.
Print Assumptions C108_renamed.

(** Two names with a branch, one without, and one that is not in the enumeration. *)
Example C108_example : forall ev junk (w : hpwh R), (exists w', initLegacyName "Sanco83" ev junk w = (Ok tt, w')) /\ (exists w', initLegacyName "GE2012_50" ev junk w = (Ok tt, w')) /\
  (exists e w', initLegacyName "IceAirccHPWH275D" ev junk w = (Err e, w') /\ w_hs w' = []) /\ (exists e, initLegacyName "my Sanco" ev junk w = (Err e, w)).
Proof. exact C108_example_fact. Qed.
