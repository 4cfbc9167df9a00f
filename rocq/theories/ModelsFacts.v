(** Proofs of the theorems stated in PropsModels.v: Properties of the enumeration of presets and of what a name or number selects *)

From Coq Require Import ZArith QArith String List Bool Reals Lra Lia.
From Verif Require Import Num Base Units Utils Types TankM Logic HeatSrc Step Setters Config Perf Fitter DataModel Init Legacy LegacyTable ExtPreset ExtTable Models Spec SpecState.
From Verif Require Import RList FrameProofs ConfigFacts InitsFacts LegacyFacts ExtPresetsFacts Example.
Import ListNotations.
Local Open Scope string_scope.
Local Open Scope Z_scope.
Lemma models_noDup : NoDup (map fst models) /\ NoDup (map snd models).
Proof.
  split.
  - apply (NoDup_count_occ' string_dec). intros s HI. assert (HA : forallb (fun s => Nat.eqb (count_occ string_dec (map fst models) s) 1) (map fst models) = true) by (vm_compute; reflexivity). rewrite forallb_forall in HA. apply Nat.eqb_eq, HA, HI.
  - apply (NoDup_count_occ' Z.eq_dec). intros s HI. assert (HA : forallb (fun s => Nat.eqb (count_occ Z.eq_dec (map snd models) s) 1) (map snd models) = true) by (vm_compute; reflexivity). rewrite forallb_forall in HA. apply Nat.eqb_eq, HA, HI.
Qed.
(** the presets with a description in the enumeration but without a branch in initLegacy *)
Definition noBranch : list string := ["BradfordWhiteAeroThermRE2HP50"; "BradfordWhiteAeroThermRE2HP65"; "BradfordWhiteAeroThermRE2HP80"; "IceAirccHPWH275D"; "IceAirccHPWH550D"].
Lemma C108_lookup_fact : (forall s z, In (s, z) models -> getPresetNumberFromName s = (z, true) /\ getPresetNameFromNumber z = Some s) /\
  (forall s, ~ In s (map fst models) -> getPresetNumberFromName s = (-1, false)) /\ (forall z, ~ In z (map snd models) -> getPresetNameFromNumber z = None) /\ NoDup (map fst models) /\ NoDup (map snd models).
Proof.
  split; [|split; [|split; [|exact models_noDup]]].
  - assert (HA : forallb (fun e => String.eqb (fst (find_by_name (fst e))) (fst e) && (snd (find_by_name (fst e)) =? snd e) && String.eqb (fst (find_by_id (snd e))) (fst e) && (snd (find_by_id (snd e)) =? snd e) && negb (snd e =? -1)) models = true) by (vm_compute; reflexivity).
    intros s z HI. rewrite forallb_forall in HA. specialize (HA _ HI). cbn [fst snd] in HA. repeat (apply andb_prop in HA; destruct HA as (HA & ?)). unfold getPresetNumberFromName, getPresetNameFromNumber.
    repeat match goal with H : (_ =? _) = true |- _ => apply Z.eqb_eq in H | H : String.eqb _ _ = true |- _ => apply String.eqb_eq in H end. split.
    + congruence.
    + cbv zeta. rewrite H0, H1. rewrite H. reflexivity.
  - intros s HN. unfold getPresetNumberFromName, find_by_name. destruct (find _ models) as [e|] eqn:EF; [|reflexivity]. exfalso. apply find_some in EF. destruct EF as (HI & HE). apply String.eqb_eq in HE. subst s. apply HN, in_map, HI.
  - intros z HN. unfold getPresetNameFromNumber, find_by_id. destruct (find _ models) as [e|] eqn:EF; [|reflexivity]. exfalso. apply find_some in EF. destruct EF as (HI & HE). apply Z.eqb_eq in HE. subst z. apply HN, in_map, HI.
Qed.
Lemma C108_branch_fact : (forall m z, In (fst (dname m), z) models -> branchOf z = Some (snd (dname m))) /\ (forall m, exists z, In (fst (dname m), z) models) /\
  (forall s z, In (s, z) models -> (branchOf z = None <-> In s ["BradfordWhiteAeroThermRE2HP50"; "BradfordWhiteAeroThermRE2HP65"; "BradfordWhiteAeroThermRE2HP80"; "IceAirccHPWH275D"; "IceAirccHPWH550D"])).
Proof.
  assert (HD : forall m, In m described) by (intros [m|m]; destruct m; vm_compute; tauto).
  assert (HB : forallb (fun m => match find (fun e => String.eqb (fst e) (fst (dname m))) models with Some e => match branchOf (snd e) with Some l => l =? snd (dname m) | None => false end | None => false end) described = true) by (vm_compute; reflexivity). rewrite forallb_forall in HB.
  assert (HE : forall m, exists z, In (fst (dname m), z) models /\ branchOf z = Some (snd (dname m))).
  { intros m. specialize (HB m (HD m)). destruct (find _ models) as [e|] eqn:EF; [|discriminate]. apply find_some in EF. destruct EF as (HI & HS). apply String.eqb_eq in HS. exists (snd e). rewrite <- HS. destruct e as [a b]. split; [exact HI|]. cbn [fst snd] in *. destruct (branchOf b); [|discriminate]. apply Z.eqb_eq in HB. congruence. }
  split; [|split].
  - intros m z HI. destruct (HE m) as (z' & HI' & HBr). destruct models_noDup as (ND & _). destruct C108_lookup_fact as (HL & _). destruct (HL _ _ HI) as (L1 & _). destruct (HL _ _ HI') as (L2 & _). congruence.
  - intros m. destruct (HE m) as (z & HI & _). eauto.
  - assert (HN : forallb (fun e => Bool.eqb (match branchOf (snd e) with None => true | Some _ => false end) (existsb (String.eqb (fst e)) noBranch)) models = true) by (vm_compute; reflexivity). rewrite forallb_forall in HN. intros s z HI. specialize (HN _ HI). cbn [fst snd] in HN. apply Bool.eqb_prop in HN. change (branchOf z = None <-> In s noBranch). split.
    + intros E. rewrite E in HN. symmetry in HN. apply existsb_exists in HN. destruct HN as (x & HX & HS). apply String.eqb_eq in HS. subst; auto.
    + intros HX. destruct (branchOf z); [|reflexivity]. exfalso. assert (existsb (String.eqb s) noBranch = true) by (apply existsb_exists; exists s; split; [auto|apply String.eqb_refl]). congruence.
Qed.
Lemma C108_init_fact : forall s ev junk (w : hpwh R),
  (In s (map fst models) -> ~ In s ["BradfordWhiteAeroThermRE2HP50"; "BradfordWhiteAeroThermRE2HP65"; "BradfordWhiteAeroThermRE2HP80"; "IceAirccHPWH275D"; "IceAirccHPWH550D"] ->
     exists w', initLegacyName s ev junk w = (Ok tt, w')) /\
  (In s ["BradfordWhiteAeroThermRE2HP50"; "BradfordWhiteAeroThermRE2HP65"; "BradfordWhiteAeroThermRE2HP80"; "IceAirccHPWH275D"; "IceAirccHPWH550D"] -> In s (map fst models) /\ exists e w', initLegacyName s ev junk w = (Err e, w') /\ w_hs w' = []) /\
  (~ In s (map fst models) -> exists e, initLegacyName s ev junk w = (Err e, w)).
Proof.
  intros s ev junk w. destruct C108_lookup_fact as (HL & HU & _). destruct C108_branch_fact as (HB & _ & HN). split; [|split].
  - intros HI HX. apply in_map_iff in HI. destruct HI as ([s' z] & E & HI). cbn in E. subst s'. destruct (HL _ _ HI) as (L1 & L2). unfold initLegacyName. rewrite L1. unfold initLegacyId.
    destruct (branchOf z) as [l|] eqn:EB; [|exfalso; apply HX, (HN s z HI), EB].
    assert (EI : fst (find_by_id z) = s) by (unfold getPresetNameFromNumber in L2; cbv zeta in L2; destruct (negb (snd (find_by_id z) =? -1)); congruence). rewrite EI.
    assert (HC : forallb (fun e => existsb (String.eqb (fst e)) noBranch || match find (fun m => String.eqb (fst (dname m)) (fst e)) described with Some _ => true | None => false end) models = true) by (vm_compute; reflexivity).
    rewrite forallb_forall in HC. specialize (HC _ HI). cbn [fst] in HC. apply orb_prop in HC. destruct HC as [HC|HC].
    + exfalso. apply HX. apply existsb_exists in HC. destruct HC as (x & HX' & HS). apply String.eqb_eq in HS. subst x. exact HX'.
    + destruct (find _ described) as [[m|m]|]; [apply C102_accepts_fact|apply C105_accepts_fact|discriminate].
  - intros HX. assert (HM : In s (map fst models)). { assert (HC : forallb (fun s => existsb (String.eqb s) (map fst models)) noBranch = true) by (vm_compute; reflexivity). rewrite forallb_forall in HC. specialize (HC s HX). apply existsb_exists in HC. destruct HC as (x & HX' & HS). apply String.eqb_eq in HS. subst; auto. }
    split; [exact HM|]. apply in_map_iff in HM. destruct HM as ([s' z] & E & HI). cbn in E. subst s'. destruct (HL _ _ HI) as (L1 & _). unfold initLegacyName. rewrite L1. unfold initLegacyId. rewrite (proj2 (HN s z HI) HX).
    eexists _, _. split; [reflexivity|]. reflexivity.
  - intros HX. unfold initLegacyName. rewrite (HU s HX). eexists. reflexivity.
Qed.
(** s contains sub; s starts with pre *)
Definition contains (sub s : string) : bool := match String.index 0 sub s with Some _ => true | None => false end.
Definition classChk (e : string * Z) : bool :=
  let '(s, z) := e in
  Bool.eqb (match classOf z with PSanco | PShutoff | PTamScalable => true | _ => false end) (contains "_SP" s || prefix "Sanco" s) &&
  Bool.eqb (match classOf z with PSanco => true | _ => false end) (prefix "Sanco" s) &&
  Bool.eqb (match classOf z with PScalableMP | PTamScalable => true | _ => false end) (contains "Scalable" s) &&
  Bool.eqb (match classOf z with PGE2012_50 => true | _ => false end) (String.eqb s "GE2012_50").
Lemma C108_configure_fact : forall s z, In (s, z) models ->
  (classOf z = PSanco \/ classOf z = PShutoff \/ classOf z = PTamScalable <-> String.index 0 "_SP" s <> None \/ prefix "Sanco" s = true) /\
  (classOf z = PSanco <-> prefix "Sanco" s = true) /\ (classOf z = PScalableMP \/ classOf z = PTamScalable <-> String.index 0 "Scalable" s <> None) /\ (classOf z = PGE2012_50 <-> s = "GE2012_50").
Proof.
  intros s z HI. assert (HA : forallb classChk models = true) by (vm_compute; reflexivity). rewrite forallb_forall in HA. specialize (HA _ HI). cbn [classChk] in HA. unfold contains in HA.
  apply andb_prop in HA. destruct HA as (HA & H4). apply andb_prop in HA. destruct HA as (HA & H3). apply andb_prop in HA. destruct HA as (H1 & H2). apply Bool.eqb_prop in H1, H2, H3, H4. clear HI. symmetry in H4.
  split; [|split; [|split]].
  - destruct (prefix "Sanco" s); destruct (String.index 0 "_SP" s); cbn [orb] in H1; destruct (classOf z); try discriminate; (split; [intros _; first [left; discriminate|right; reflexivity]|intros _; tauto]) || (split; [intros [X|[X|X]]; discriminate|intros [X|X]; [congruence|discriminate]]).
  - destruct (classOf z); split; intros X; try congruence; try discriminate; auto.
  - destruct (String.index 0 "Scalable" s); destruct (classOf z); try discriminate; split; try (intros [X|X]; discriminate); try (intros _; discriminate); try (intros X; congruence); tauto.
  - destruct (classOf z); split; intros X; try discriminate; try (apply String.eqb_eq; auto; fail); try (subst s; rewrite String.eqb_refl in H4; discriminate); auto.
Qed.
Definition constantName (s : string) : bool := prefix "Mitsubishi" s || (prefix "Nyle" s && contains "_MP" s).
Lemma C108_axes_fact : forall (T : Type) z cfg (grid : list (list T)),
  ((length grid < 2)%nat -> exists e, setUpGridAxes z cfg grid = UB e) /\
  ((2 <= length grid)%nat -> exists axes, setUpGridAxes z cfg grid = Ok axes /\ map (fun a => fst (fst a)) axes = firstn 3 grid /\
    exists x m1 e1, nth_error axes 0 = Some (x, m1, e1) /\
      (forall s, In (s, z) models -> (e1 = EConstant <-> prefix "Mitsubishi" s = true \/ prefix "Nyle" s = true /\ String.index 0 "_MP" s <> None)) /\ (z = -1 -> e1 = ELinear) /\
      (cfg <> External -> m1 = ILinear)).
Proof.
  intros T z cfg grid. split.
  - intros HL. destruct grid as [|a [|b r]]; [eexists; reflexivity|eexists; reflexivity|cbn in HL; lia].
  - intros HL. destruct grid as [|a [|b r]]; [cbn in HL; lia|cbn in HL; lia|]. unfold setUpGridAxes. eexists. split; [reflexivity|]. split; [destruct r; reflexivity|]. eexists _, _, _. split; [reflexivity|]. split; [|split].
    + intros s HI. assert (HA : forallb (fun e => Bool.eqb ((snd e =? 250) || ((331 <=? snd e) && (snd e <=? 345))) (constantName (fst e))) models = true) by (vm_compute; reflexivity). rewrite forallb_forall in HA. specialize (HA _ HI). cbn [fst snd] in HA. apply Bool.eqb_prop in HA. rewrite HA. unfold constantName, contains.
      destruct (prefix "Mitsubishi" s); destruct (prefix "Nyle" s); destruct (String.index 0 "_MP" s); cbn [orb andb]; split; try (intros _; first [left; reflexivity|right; split; [reflexivity|discriminate]]); try (intros; reflexivity); try (intros X; discriminate); intros [X|(X & Y)]; congruence.
    + intros ->. reflexivity.
    + intros HC. destruct cfg; try congruence; rewrite orb_true_r; reflexivity.
Qed.
Lemma C108_renamed_fact : (forall s, ~ In s (map fst models) -> configureNamed (T:=R) s = configure POther /\
    forall (a b c : list R), setUpGridAxes (fst (getPresetNumberFromName s)) External [a; b; c] = Ok [(a, ICubic, ELinear); (b, ICubic, ELinear); (c, ILinear, ELinear)]) /\
  (let z := fst (getPresetNumberFromName "Mitsubishi_QAHV_N136TAU_HPB_SP") in configureNamed (T:=R) "Mitsubishi_QAHV_N136TAU_HPB_SP" = configure PShutoff /\
    forall (a b c : list R), setUpGridAxes z External [a; b; c] = Ok [(a, ILinear, EConstant); (b, ILinear, ELinear); (c, ILinear, EConstant)]).
Proof.
  split.
  - intros s HN. destruct C108_lookup_fact as (_ & HU & _). unfold configureNamed. rewrite (HU s HN). split; [reflexivity|]. intros a b c. reflexivity.
  - unfold configureNamed. cbv zeta. replace (fst (getPresetNumberFromName "Mitsubishi_QAHV_N136TAU_HPB_SP")) with 250 by (vm_compute; reflexivity). split; [reflexivity|]. intros a b c. reflexivity.
Qed.
Lemma C108_example_fact : forall ev junk (w : hpwh R), (exists w', initLegacyName "Sanco83" ev junk w = (Ok tt, w')) /\ (exists w', initLegacyName "GE2012_50" ev junk w = (Ok tt, w')) /\
  (exists e w', initLegacyName "IceAirccHPWH275D" ev junk w = (Err e, w') /\ w_hs w' = []) /\ (exists e, initLegacyName "my Sanco" ev junk w = (Err e, w)).
Proof.
  intros ev junk w. assert (HM : forall s, existsb (String.eqb s) (map fst models) = true -> In s (map fst models)) by (intros s HC; apply existsb_exists in HC; destruct HC as (x & HX' & HS); apply String.eqb_eq in HS; subst; auto).
  split; [|split; [|split]].
  - apply C108_init_fact; [apply HM; vm_compute; reflexivity|]. cbn [In]. intros HI; decompose [or] HI; discriminate || auto.
  - apply C108_init_fact; [apply HM; vm_compute; reflexivity|]. cbn [In]. intros HI; decompose [or] HI; discriminate || auto.
  - apply C108_init_fact. cbn [In]. tauto.
  - apply C108_init_fact. intros HI. apply in_map_iff in HI. assert (HC : forallb (fun s => negb (String.eqb s "my Sanco")) (map fst models) = true) by (vm_compute; reflexivity). rewrite forallb_forall in HC. destruct HI as (e & E & HI). specialize (HC (fst e) (in_map fst _ _ HI)). rewrite E in HC. discriminate.
Qed.
