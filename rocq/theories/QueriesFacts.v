(** Proofs of the theorems stated in PropsQueries.v: Properties of the queries about the compressor and about single temperatures *)

From Coq Require Import ZArith QArith Qreals String List Bool Reals Lra Lia.
From Verif Require Import Num Base Units Utils Types TankM Logic HeatSrc Step Setters Config Perf Fitter DataModel Init Legacy ExtPreset ExtTable Report Queries Spec SpecState SpecExt SpecExtPreset.
From Verif Require Import RList FrameProofs DistProofs TankFacts ConfigFacts InitsFacts LegacyFacts ExtPresetsFacts Example.
Import ListNotations.
Local Open Scope R_scope.
Lemma comp_at (w : hpwh R) k h : nth_error (w_hs w) k = Some h -> w_compIx w = Z.of_nat k -> hasCompressor w = true /\ compressor w = Ok h.
Proof.
  intros HK HC. unfold hasCompressor, compressor. rewrite HC, Nat2Z.id, HK. split; [apply Z.leb_le; lia|]. destruct (Z.ltb_spec (Z.of_nat k) 0); [lia|reflexivity].
Qed.
Lemma flow_roundtrip x : LPS_TO_GPM (GPM_TO_LPS (T:=R) x) = x.
Proof. unfold LPS_TO_GPM, GPM_TO_LPS, L_per_gal, sec_per_min, dec. num_simpl. cbn [Z.eqb Pos.eqb]. field; try lra. Qed.
Lemma C107_external_presets_fact : forall m ev junk (w w' : hpwh R), initExternal (xpresetOf m) ev junk w = (Ok tt, w') ->
  getCompressorCoilConfig w' = Ok External /\ isCompressorExternal w' = Ok true /\
  (isCompressorMultipass w' = Ok true /\ (exists x, xp_flow (xpresetOf m) = Some x /\ getExternalMPFlowRate U_GPM w' = Ok (lval x) /\ 0 < lval (T:=R) x) \/
   isCompressorMultipass w' = Ok false /\ forall u, exists e, getExternalMPFlowRate u w' = Err e).
Proof.
  intros m ev junk w w' E. destruct (preset_unit m ev junk w w' E) as (_ & _ & _ & _ & k & h & bk & HK & HX & _ & HC). cbv zeta in *. pose proof (all_xrun m) as HR. clear E. generalize dependent (xpresetOf m). intros p HX HR.
  destruct (comp_at w' k h HK HC) as (H1 & H2). pose proof (xc_config _ _ _ _ HX) as EC. pose proof (xc_multi _ _ _ _ HX) as EM.
  unfold getCompressorCoilConfig, isCompressorExternal, isCompressorMultipass, getExternalMPFlowRate, isExternalMultipass. rewrite H1. cbn [negb]. rewrite H2. cbn [obind]. rewrite EC, EM, andb_true_r.
  split; [reflexivity|]. split; [reflexivity|]. destruct (xp_multi p) eqn:EP; cbn [negb]; [left|right; split; [reflexivity|intros u; eexists; reflexivity]].
  split; [reflexivity|]. pose proof (xflow _ _ _ _ HX HR EP) as HF. unfold xrunChk, flowOK in HR. pose proof (xc_flow _ _ _ _ HX) as XF. destruct (xp_flow p) as [x|] eqn:EF.
  - exists x. split; [reflexivity|]. rewrite (XF x eq_refl) in *. rewrite flow_roundtrip. split; [reflexivity|]. revert HF. unfold GPM_TO_LPS, L_per_gal, sec_per_min, dec. num_simpl. cbn [Z.eqb Pos.eqb]. intros HF. set (y := lval (T:=R) x) in *. clearbody y. lra.
  - exfalso. rewrite EP in HR. cbn [negb orb] in HR. rewrite andb_false_r in HR. discriminate.
Qed.
Lemma C107_no_compressor_fact : forall (w : hpwh R) u, (w_compIx w < 0)%Z -> (exists e, getCompressorCoilConfig w = Err e) /\ (exists e, isCompressorMultipass w = Err e) /\ (exists e, isCompressorExternal w = Err e) /\
  (exists e, isExternalMultipass w = Err e) /\ (exists e, getExternalMPFlowRate u w = Err e) /\ (exists e, getCompressorMinRuntime u w = Err e).
Proof.
  intros w u HC. assert (H1 : hasCompressor w = false) by (unfold hasCompressor; apply Z.leb_gt; lia). unfold getCompressorCoilConfig, isCompressorMultipass, isCompressorExternal, getExternalMPFlowRate, isExternalMultipass, getCompressorMinRuntime. rewrite H1. cbn [negb obind]. unfold noCompressor. splits; eexists; reflexivity.
Qed.
Lemma C107_flow_fact : forall (w : hpwh R) k h, nth_error (w_hs w) k = Some h -> w_compIx w = Z.of_nat k ->
  (h_config h = External /\ h_multipass h = true ->
     getExternalMPFlowRate U_LPS w = Ok (h_mpFlow h) /\ (exists g, getExternalMPFlowRate U_GPM w = Ok g /\ g * (378541 / 100000) = h_mpFlow h * 60) /\ forall u, u <> U_LPS -> u <> U_GPM -> exists e, getExternalMPFlowRate u w = Err e) /\
  (h_config h <> External \/ h_multipass h = false -> forall u, exists e, getExternalMPFlowRate u w = Err e).
Proof.
  intros w k h HK HC. destruct (comp_at w k h HK HC) as (H1 & H2). unfold getExternalMPFlowRate, isExternalMultipass. rewrite H1. cbn [negb]. rewrite H2. cbn [obind]. split.
  - intros (-> & ->). cbn [andb negb obind]. split; [reflexivity|]. split.
    + eexists. split; [reflexivity|]. unfold LPS_TO_GPM, L_per_gal, sec_per_min, dec. num_simpl. cbn [Z.eqb Pos.eqb]. field; try lra.
    + intros u N1 N2. destruct u; try congruence; eexists; reflexivity.
  - intros HN u. destruct (h_multipass h); [|eexists; reflexivity]. destruct HN as [HN|HN]; [|discriminate]. destruct (h_config h); [| |congruence]; eexists; reflexivity.
Qed.
Lemma C107_min_runtime_fact : forall (w : hpwh R), (0 <= w_compIx w)%Z -> getCompressorMinRuntime U_MIN w = Ok 10 /\ getCompressorMinRuntime U_SEC w = Ok 600 /\ getCompressorMinRuntime U_HR w = Ok (1 / 6) /\
  forall u, u <> U_MIN -> u <> U_SEC -> u <> U_HR -> exists e, getCompressorMinRuntime u w = Err e.
Proof.
  intros w HC. assert (H1 : hasCompressor w = true) by (apply Z.leb_le; lia). unfold getCompressorMinRuntime. rewrite H1. cbn [negb]. splits.
  - num_simpl. reflexivity.
  - unfold MIN_TO_SEC, sec_per_min. num_simpl. f_equal. lra.
  - unfold MIN_TO_HR, min_per_hr. num_simpl. f_equal. lra.
  - intros u N1 N2 N3. destruct u; try congruence; eexists; reflexivity.
Qed.
Lemma C107_node_fact : forall (w : hpwh R) k t, nth_error (t_Ts (w_tank w)) k = Some t ->
  getTankNodeTemp (Z.of_nat k) U_C w = Ok t /\ (exists f, getTankNodeTemp (Z.of_nat k) U_F w = Ok f /\ f = 9 / 5 * t + 32) /\ forall u, u <> U_C -> u <> U_F -> exists e, getTankNodeTemp (Z.of_nat k) u w = Err e.
Proof.
  intros w k t HK. assert (HL : (k < length (t_Ts (w_tank w)))%nat) by (apply nth_error_Some; congruence).
  assert (HN : getNodeT (Z.of_nat k) (w_tank w) = Ok t).
  { unfold getNodeT, numNodes. destruct (t_Ts (w_tank w)) as [|a l] eqn:ET; [cbn in HL; lia|]. replace ((0 <=? Z.of_nat k)%Z && (Z.of_nat k <? Z.of_nat (length (a :: l)))%Z)%bool with true by (symmetry; apply andb_true_intro; split; [apply Z.leb_le|apply Z.ltb_lt]; lia).
    rewrite Nat2Z.id. unfold nget. f_equal. apply nth_error_nth. exact HK. }
  unfold getTankNodeTemp. rewrite HN. cbn [obind tempFromC]. splits; auto.
  - eexists. split; [reflexivity|]. unfold C_TO_F, offsetF, FperC, dec. num_simpl. cbn [Z.eqb Pos.eqb]. lra.
  - intros u N1 N2. destruct u; try congruence; eexists; reflexivity.
Qed.
Lemma C107_node_unchecked_fact : forall (w : hpwh R) i u, ~ (0 <= i < Z.of_nat (length (t_Ts (w_tank w))))%Z ->
  (t_Ts (w_tank w) <> [] -> exists e, getTankNodeTemp i u w = UB e) /\ (t_Ts (w_tank w) = [] -> exists e, getTankNodeTemp i u w = Err e).
Proof.
  intros w i u HI. unfold getTankNodeTemp, getNodeT, numNodes. destruct (t_Ts (w_tank w)) as [|a l] eqn:ET; (split; [intros HN|intros HN]); try congruence.
  - eexists. reflexivity.
  - replace ((0 <=? i)%Z && (i <? Z.of_nat (length (a :: l)))%Z)%bool with false; [eexists; reflexivity|]. symmetry. apply andb_false_iff. destruct (Z.leb_spec 0 i); [right; apply Z.ltb_ge; lia|left; reflexivity].
Qed.
Lemma C107_thermocouple_fact : forall (w : hpwh R) i n t, nthThermocouple i n (w_tank w) = Ok t ->
  getNthSimTcouple i n U_C w = Ok t /\ (exists f, getNthSimTcouple i n U_F w = Ok f /\ f = 9 / 5 * t + 32) /\ forall u, u <> U_C -> u <> U_F -> exists e, getNthSimTcouple i n u w = Err e.
Proof.
  intros w i n t HN. unfold getNthSimTcouple. rewrite HN. cbn [obind tempFromC]. splits; auto.
  - eexists. split; [reflexivity|]. unfold C_TO_F, offsetF, FperC, dec. num_simpl. cbn [Z.eqb Pos.eqb]. lra.
  - intros u N1 N2. destruct u; try congruence; eexists; reflexivity.
Qed.
Lemma C107_example_fact : forall ev junk (w : hpwh R), exists w1 w2, initExternal (xpresetOf X_ColmacCxV_5_MP) ev junk w = (Ok tt, w1) /\ getExternalMPFlowRate U_GPM w1 = Ok 9 /\ getCompressorMinRuntime U_SEC w1 = Ok 600 /\
  initExternal (xpresetOf X_Sanco83) ev junk w = (Ok tt, w2) /\ getTankNodeTemp 95 U_F w2 = Ok 149 /\ exists e, getTankNodeTemp 96 U_F w2 = UB e.
Proof.
  intros ev junk w. destruct (C105_accepts_fact X_ColmacCxV_5_MP ev junk w) as (w1 & E1). destruct (C105_accepts_fact X_Sanco83 ev junk w) as (w2 & E2). exists w1, w2. split; [exact E1|].
  destruct (C107_external_presets_fact _ _ _ _ _ E1) as (_ & _ & [(_ & x & Ex & Ef & _)|(EM & _)]).
  2:{ exfalso. destruct (preset_unit _ ev junk w w1 E1) as (_ & _ & _ & _ & k & h & bk & HK & HX & _ & HC). destruct (comp_at w1 k h HK HC) as (H1 & H2). unfold isCompressorMultipass in EM. rewrite H1 in EM. cbn [negb] in EM. rewrite H2 in EM. cbn [obind] in EM. rewrite (xc_multi _ _ _ _ HX) in EM.
      replace (xp_multi (xpresetOf X_ColmacCxV_5_MP)) with true in EM by reflexivity. discriminate. }
  split. { rewrite Ef. f_equal. replace (xp_flow (xpresetOf X_ColmacCxV_5_MP)) with (Some (Lit 9 1)) in Ex by reflexivity. injection Ex as <-. rewrite <- qv_ok by (vm_compute; reflexivity). unfold Q2R. cbn. lra. }
  destruct (preset_unit _ ev junk w w1 E1) as (_ & _ & _ & _ & k & h & bk & _ & _ & _ & HC). split; [apply C107_min_runtime_fact; lia|]. split; [exact E2|].
  destruct (sanco_unit X_Sanco83 ev junk w w2 (or_introl eq_refl) E2) as (ES & EN & _). destruct (C105_result_fact _ _ _ _ _ E2) as (_ & HT & _). 
  destruct (nth_error (t_Ts (w_tank w2)) 95) as [t|] eqn:E95; [|apply nth_error_None in E95; lia]. assert (Et : t = 65) by (rewrite <- ES; apply HT; eapply nth_error_In; eauto).
  destruct (C107_node_fact w2 95 t E95) as (_ & (f & Ff & Ff') & _). change (Z.of_nat 95) with 95%Z in Ff. split; [rewrite Ff; f_equal; lra|].
  apply C107_node_unchecked_fact; [rewrite EN; cbn; lia|]. intros H0. rewrite H0 in EN. discriminate.
Qed.
