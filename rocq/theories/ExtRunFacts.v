(** Proofs of the theorems stated in PropsExtRun.v: Steps and runs of units with external condensers complete *)

From Coq Require Import ZArith String List Bool Reals Lra Lia Floats.
From Verif Require Import Num FNum Base Units Utils Types TankM Logic HeatSrc Step Report Cli Spec SpecState SpecDist SpecEnergy SpecStep SpecExt.
From Verif Require Import RList FrameProofs SimFrame MixProofs DrawProofs TankProofs StandbyProofs HeatProofs ControlProofs SeqProofs.
From Verif Require Import CsvFacts.
From Verif Require Import DistProofs EnergyProofs ExtProofs StepEnergy WholeStep AvgProofs Progress ExtProgress SPProgress StepProgress RunsFacts EnergyFacts SinglePassFacts CommandFacts Example.
Import ListNotations.
Local Open Scope R_scope.
Lemma C101_step_completes_fact : forall fuel x D (w : hpwh R), unitOK (sourceAir w x) D w -> covered D x w -> unitReadyX True (sourceAir w x) D w ->
  extReady fuel D (fun lo => calm lo (w_setpoint w) x w) w ->
  0 < w_minStep w -> (w_doDepress w = true -> w_minStep w = 1) ->
  (0 < i_draw x -> i_vol2 x <= i_draw x) -> t_mixBelowFrac (w_tank w) <= 1 ->
  (t_doCond (w_tank w) = true -> condTau (w_tank w) (w_secStep w) <= 1) ->
  extraList x = [] ->
  (length (t_Ts (w_tank w)) * length (t_Ts (w_tank w)) < fuel)%nat -> i_draw x / t_nodeVol (w_tank w) <= INR fuel ->
  exists w', runOneStep fuel x w = (Ok tt, w') /\ w_setpoint w' = w_setpoint w.
Proof. exact (step_succ_ext (X:=True)). Qed.

Lemma C101_run_completes_fact : forall fuel D rows (w : hpwh R), w_doDepress w = false -> 0 < w_minStep w -> coveredRun D rows w ->
  (forall r, In r rows -> unitOK (r_ext r) D w /\ unitReadyX True (r_ext r) D w /\ 0 <= r_draw r /\ r_draw r / t_nodeVol (w_tank w) <= INR fuel) ->
  extReady fuel D (fun lo => calmRun rows lo (w_setpoint w) w) w ->
  Rsum (map r_draw rows) <> 0 ->
  t_mixBelowFrac (w_tank w) <= 1 -> (t_doCond (w_tank w) = true -> condTau (w_tank w) (w_secStep w) <= 1) ->
  (length (t_Ts (w_tank w)) * length (t_Ts (w_tank w)) < fuel)%nat ->
  exists w', runNSteps fuel rows w = (Ok tt, w') /\
    tankHeat (w_tank w') = tankHeat (w_tank w)
      + CPWATER * DENSITYWATER * (Rsum (map (fun r => r_draw r * r_inletT r) rows) - t_outletT (w_tank w') * Rsum (map r_draw rows))
      + 3600 * Rsum (map h_eOut (w_hs w')) - 3600 * w_stbyE w'.
Proof.
  intros fuel D rows w H1 H2 HCv H3 HE H4 H5 H6 H7. destruct (runs_succ_ext (X:=True) fuel D rows w H1 H2 HCv H3 HE H5 H6 H7) as (ws & wl & HR).
  destruct (C24_succeeds_fact _ _ _ _ _ HR H4) as [w' E]. exists w'. split; auto.
  apply (C23_run_balance_fact fuel D rows w w'); auto.
  - intros air [HX|HX]; [congruence|]. apply in_map_iff in HX. destruct HX as (r & <- & Hr). apply (H3 r Hr).
  - apply Forall_forall. intros r Hr. apply (H3 r Hr).
Qed.

(** ** Examples *)
Definition exTsS : list R := repeat 20 24.
Lemma exSP_ok air D n : srcOK n air D (exSP 24 (exOff 60)).
Proof.
  constructor; cbn [exSP set_h_config set_h_extIn set_h_extOut exHS h_type h_config h_multipass h_extIn h_extOut h_shutOff]; try discriminate; try (intros; lia).
  - intros _ w c p _ E. rewrite exSP_perf in E. inversion E. cbn. lra.
  - intros [H|H]; [discriminate|contradiction H; reflexivity].
  - intros _ _ w f E. eapply stopsHot_fract; [|exact E]. apply Forall_cons; [|apply Forall_nil]. split; [reflexivity|discriminate].
Qed.
Lemma exSPUnit_ok air D : unitOK air D (exSPUnit (exOff 60) exTsS).
Proof.
  constructor.
  - apply exUnit_wf. cbn. lia.
  - unfold ports_ok. cbn. lia.
  - reflexivity.
  - change (w_hs (exSPUnit (exOff 60) exTsS)) with [exSP 24 (exOff 60)]. apply Forall_cons; [apply exSP_ok|apply Forall_nil].
  - cbn. num_simpl. lra.
Qed.
Lemma exSPUnit_ready air D : -100 < air -> unitReadyX True air D (exSPUnit (exOff 60) exTsS).
Proof.
  intros Ha. constructor; try (cbn; lia).
  - change (w_hs (exSPUnit (exOff 60) exTsS)) with [exSP 24 (exOff 60)]. apply Forall_cons; [|apply Forall_nil].
    constructor; cbn [exSP set_h_config set_h_extIn set_h_extOut exHS h_type h_config h_multipass h_backup h_companion h_followed h_turnOn h_shutOff h_standby h_dist h_power h_shrink h_maxSet h_mlAir]; try discriminate; auto.
    + apply Forall_cons; [intros _; apply exLower_good|apply Forall_nil].
    + apply Forall_cons; [cbn; discriminate|apply Forall_nil].
    + apply exLower_good.
    + intros _. change (55 <= 60). lra.
    + intros _ w c _. eexists. split; [apply exSP_perf|]. cbn. lra.
  - intros HX. discriminate HX.
Qed.
Lemma exSPUnit_calm : calmUnit 10 55 (exSPUnit (exOff 60) exTsS).
Proof.
  constructor; try reflexivity; try (cbn; num_simpl; unfold dec; num_simpl; lra).
  - apply (repeat_strat 20 24).
  - change (w_hs (exSPUnit (exOff 60) exTsS)) with [exSP 24 (exOff 60)]. apply Forall_cons; [|apply Forall_nil]. intros (_ & _ & HX). discriminate HX.
  - intros x Hx. change (In x (repeat 20 24)) in Hx. apply repeat_spec in Hx. subst x. lra.
  - intros ends ->. cbn. unfold dec, CPWATER, DENSITYWATER, nofN. num_simpl. unfold dec. num_simpl. cbn. lra.
Qed.
Lemma exSPUnit_ext fuel (D Q : R -> Prop) : (forall c, D c) -> Q 10 -> passes 24 55 10 <= INR fuel -> extReady fuel D Q (exSPUnit (exOff 60) exTsS).
Proof.
  intros HD HQ HP h Hin Ht Hc. change (w_hs (exSPUnit (exOff 60) exTsS)) with [exSP 24 (exOff 60)] in Hin. destruct Hin as [<-|[]]. cbv zeta.
  change (h_multipass (exSP 24 (exOff 60))) with false. cbn iota. change (length (t_Ts (w_tank (exSPUnit (exOff 60) exTsS)))) with 24%nat.
  split; [split; reflexivity|]. split; [lia|]. split; [apply Forall_cons; [|apply Forall_nil]; split; [reflexivity|discriminate]|].
  exists 10. split; [auto|]. split; [exact HQ|exact HP].
Qed.
Lemma exSPUnit_tau : condTau (w_tank (exSPUnit (exOff 60) exTsS)) (w_secStep (exSPUnit (exOff 60) exTsS)) <= 1.
Proof.
  change (condTau (exTankG exTsS) 60 <= 1). unfold exTsS. cbn [exTankG repeat]. unfold condTau. cbn. num_simpl. unfold dec, KWATER, DENSITYWATER, CPWATER. num_simpl. unfold dec. num_simpl. lra.
Qed.
(** enough fuel for the unit *)
Definition exFuel (fuel : nat) : Prop := (24 * 24 < fuel)%nat /\ passes 24 55 10 <= INR fuel.
Lemma exFuel_some : exists fuel, exFuel fuel.
Proof.
  destruct (nat_above (passes 24 55 10 + INR 577)) as [fuel Hf]. exists fuel.
  assert (Hpos : 0 < passes 24 55 10). { unfold passes. assert (0 <= INR 24) by apply pos_INR. nra. }
  split.
  - apply INR_lt. apply Rlt_trans with (INR 577); [apply lt_INR; lia|lra].
  - pose proof (pos_INR 577). lra.
Qed.
Lemma exFuel_draw fuel d : exFuel fuel -> d <= 8 -> d / t_nodeVol (w_tank (exSPUnit (exOff 60) exTsS)) <= INR fuel.
Proof.
  intros [HF _] Hd. change (t_nodeVol (w_tank (exSPUnit (exOff 60) exTsS))) with (200 / nofN (length exTsS)). unfold nofN. num_simpl.
  change (IZR (Z.of_nat (length exTsS))) with 24. apply Rle_trans with 1.
  - apply Rle_trans with (8 / (200 / 24)); [|lra]. unfold Rdiv. apply Rmult_le_compat_r; [|lra]. lra.
  - replace 1 with (INR 1) by reflexivity. apply le_INR. lia.
Qed.

Lemma C101_run_example_fact : exists fuel w', runNSteps fuel exRowsR (exSPUnit (exOff 60) exTsS) = (Ok tt, w').
Proof.
  destruct exFuel_some as [fuel HF]. exists fuel.
  destruct (C101_run_completes_fact fuel (fun _ => True) exRowsR (exSPUnit (exOff 60) exTsS)) as (w' & E & _); [..|exists w'; exact E].
  - reflexivity.
  - cbn. num_simpl. lra.
  - left. auto.
  - intros r Hr. assert (-100 < r_ext r /\ 0 <= r_draw r <= 8) as [HA HB].
    { destruct Hr as [<-|[<-|[<-|[]]]]; cbn; lra. }
    split; [apply exSPUnit_ok|]. split; [apply exSPUnit_ready; auto|]. split; [lra|]. apply exFuel_draw; auto; lra.
  - apply exSPUnit_ext; auto; [|apply HF]. split; [apply exSPUnit_calm|]. split; [reflexivity|].
    intros r Hr. destruct Hr as [<-|[<-|[<-|[]]]]; cbn; lra.
  - unfold Rsum. cbn. lra.
  - cbn. num_simpl. lra.
  - intros _. apply exSPUnit_tau.
  - apply HF.
Qed.
Lemma C101_step_example_fact : exists fuel w', runOneStep fuel (exIn 8 20 0) (exSPUnit (exOff 60) exTsS) = (Ok tt, w').
Proof.
  destruct exFuel_some as [fuel HF]. exists fuel.
  destruct (C101_step_completes_fact fuel (exIn 8 20 0) (fun _ => True) (exSPUnit (exOff 60) exTsS)) as (w' & E & _); [..|exists w'; exact E].
  - apply exSPUnit_ok.
  - left. auto.
  - apply exSPUnit_ready. cbn. lra.
  - apply exSPUnit_ext; auto; [|apply HF]. constructor; [apply exSPUnit_calm|cbn; num_simpl; lra..].
  - cbn. num_simpl. lra.
  - intros HX. discriminate HX.
  - cbn. num_simpl. lra.
  - cbn. num_simpl. lra.
  - intros _. apply exSPUnit_tau.
  - reflexivity.
  - apply HF.
  - apply exFuel_draw; auto. cbn. lra.
Qed.
Lemma C101_command_example_fact : forall n, (0 < n < 500000)%Z -> exists fuel cols cells s w',
  simulate fuel (exConf n) (exSPUnit (exOff 60) exTsS) = (Ok s, w') /\ lp_lines s = LHead cols :: map LRow cells /\
  tableOf fuel cols 0 (exSPUnit (exOff 60) exTsS) (repeat exRow1 (Z.to_nat n)) cells w'.
Proof.
  intros n Hn. destruct exFuel_some as [fuel HF]. exists fuel.
  assert (HG : gallon = 378541 / 100000) by (unfold gallon, L_per_gal, dec; num_simpl; reflexivity).
  assert (HR : cmdReady fuel (fun _ => True) (repeat exRow1 (Z.to_nat n)) (exSPUnit (exOff 60) exTsS)).
  { constructor.
    - cbn. lia.
    - reflexivity.
    - cbn. num_simpl. reflexivity.
    - left. auto.
    - intros r Hr. apply repeat_spec in Hr. subst r. cbn [exRow1 r_ext r_draw].
      split; [apply exSPUnit_ok|]. split; [apply exSPUnit_ready; lra|]. split; [lra|]. apply exFuel_draw; auto; lra.
    - apply exSPUnit_ext; auto; [|apply HF]. split; [apply exSPUnit_calm|]. split; [reflexivity|].
      intros r Hr. apply repeat_spec in Hr. subst r. cbn [exRow1 r_amb r_inletT]. change (w_setpoint (exSPUnit (exOff 60) exTsS)) with 55. lra.
    - cbn. num_simpl. lra.
    - intros _. apply exSPUnit_tau.
    - apply HF. }
  destruct (C97_minutes_fact fuel (exConf n) (fun _ => True) (repeat exRow1 (Z.to_nat n)) (exSPUnit (exOff 60) exTsS) false) as (cols & cells & s & w' & E & L & _ & _ & T);
    [split; [reflexivity|]; split; [reflexivity|]; split; [reflexivity|]; left; reflexivity|unfold exConf; cbn [rc_minutes]; lia|apply repeat_length|apply exConf_at|exact HR|reflexivity|].
  exists cols, cells, s, w'. auto.
Qed.

(** C101: a tank of four nodes, heated by many passes, over the same three steps. *)
Definition exMPUnit : hpwh R := set_w_compIx 0 (set_w_lowIx (-1) (set_w_vipIx (-1) (exExtUnit true))).
Lemma C101_multi_pass_example_fact : exists w', runNSteps 100 exRowsR exMPUnit = (Ok tt, w').
Proof.
  pose proof exLower_good as HL.
  destruct (C101_run_completes_fact 100 (fun _ => True) exRowsR exMPUnit) as (w' & E & _); [..|exists w'; exact E].
  - reflexivity.
  - cbn. num_simpl. lra.
  - left. auto.
  - intros r Hr. assert (-100 < r_ext r /\ 0 <= r_draw r <= 8) as [HA HB].
    { destruct Hr as [<-|[<-|[<-|[]]]]; cbn; lra. }
    split; [|split; [|split; [lra|]]].
    + destruct (exUnit_ok (r_ext r) (fun _ => True) [20; 30; 45; 50] eq_refl) as [A1 A2 A3 _ A5]. constructor; auto.
      change (w_hs exMPUnit) with [exExt true]. apply Forall_cons; [apply exExt_ok|apply Forall_nil].
    + constructor; try (cbn; lia).
      * change (w_hs exMPUnit) with [exExt true]. apply Forall_cons; [|apply Forall_nil].
        constructor; try (intros; discriminate); auto.
        -- apply Forall_cons; [intros _; assumption|apply Forall_nil].
        -- apply Forall_nil.
        -- intros _. change (55 <= 60). lra.
        -- intros _ w c _. eexists. split; [apply exExt_perf|]. cbn. lra.
      * intros HX. discriminate HX.
    + change (t_nodeVol (w_tank exMPUnit)) with (200 / nofN (T:=R) 4). unfold nofN. num_simpl. cbn. lra.
  - intros h Hin Ht Hc. change (w_hs exMPUnit) with [exExt true] in Hin. destruct Hin as [<-|[]]. cbv zeta.
    change (h_multipass (exExt true)) with true. cbn iota. split; [cbn; lia|]. split; [cbn; lia|].
    change (1 / 100 * (1 * 60) / (200 / nofN (T:=R) 4) <= INR 100). unfold nofN. num_simpl. cbn. lra.
  - unfold Rsum. cbn. lra.
  - cbn. num_simpl. lra.
  - intros _. change (condTau (exTankG [20; 30; 45; 50]) 60 <= 1). cbn [exTankG]. unfold condTau. cbn. num_simpl. unfold dec, KWATER, DENSITYWATER, CPWATER. num_simpl. unfold dec. num_simpl. lra.
  - cbn. lia.
Qed.
