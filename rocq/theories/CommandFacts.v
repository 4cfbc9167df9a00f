(** Proofs of the theorems stated in PropsCommand.v: The command "hpwh run": its loop completes, and the file it writes holds one line for each minute or day. *)

From Coq Require Import ZArith String List Bool Reals Lra Lia Floats.
From Verif Require Import Num FNum Base Units Utils Types TankM Logic HeatSrc Step Setters Config Perf Rating Fitter DataModel Report Cli Init Spec SpecState SpecDist SpecEnergy SpecStep SpecExt.
From Verif Require Import RList FrameProofs SimFrame MixProofs DistProofs TankFacts ControlProofs StepEnergy SeqProofs WholeStep Progress StepProgress EnergyFacts SettersFacts DistFacts RatingFacts SourcesFacts ConfigFacts PerfFacts InitsFacts InitGenFacts CsvFacts ScheduleFacts Example.
Import ListNotations.
Local Open Scope R_scope.
Local Open Scope monad_scope.
(** ** Words for the claims *)

(** the schedules say at minute [i] what [r] says; its draw is in litres, those of the schedule in gallons *)
Definition schedAt (c : runConf R) (i : nat) (r : rowIn (T:=R)) : Prop :=
  nth_error (rc_inlet c) i = Some (r_inletT r) /\ (exists g, nth_error (rc_draw c) i = Some g /\ r_draw r = g * gallon) /\
  nth_error (rc_amb c) i = Some (r_amb r) /\ nth_error (rc_ext c) i = Some (r_ext r) /\ (exists x, nth_error (rc_dr c) i = Some x /\ r_dr r = ntrunc x).
(** no schedule of setpoints or states of charge, no depression of the air temperature, no reduction of draws *)
Definition plainConf (c : runConf R) : Prop := rc_setpoint c = [] /\ rc_useSoC c = false /\ rc_air c = None /\ (rc_large c = false \/ (rc_minutes c <= 500000)%Z).
(** the states after each minute *)
Inductive stepsFrom (fuel : nat) : list (rowIn (T:=R)) -> hpwh R -> list (hpwh R) -> Prop :=
| sf_nil w : stepsFrom fuel [] w []
| sf_cons r rows w w1 ws : runOneStepInlet fuel (r_inletT r) (mkin (r_draw r) (r_amb r) (r_ext r) (r_dr r) (r_draw r) (r_inletT r) None) w = (Ok tt, w1) ->
    stepsFrom fuel rows w1 ws -> stepsFrom fuel (r :: rows) w (w1 :: ws).
(** a unit that can be run with the rows: sound, ready (external condensers included) and covered; minute steps; no depression *)
Record cmdReady (fuel : nat) (D : R -> Prop) (rows : list (rowIn (T:=R))) (w : hpwh R) : Prop := {
  cr_comp : (0 <= w_compIx w)%Z;
  cr_dep : w_doDepress w = false;
  cr_min : w_minStep w = 1;
  cr_cov : coveredRun D rows w;
  cr_rows : forall r, In r rows -> unitOK (r_ext r) D w /\ unitReadyX True (r_ext r) D w /\ 0 <= r_draw r /\ r_draw r / t_nodeVol (w_tank w) <= INR fuel;
  cr_ext : extReady fuel D (fun lo => calmRun rows lo (w_setpoint w) w) w;
  cr_mix : t_mixBelowFrac (w_tank w) <= 1;
  cr_tau : t_doCond (w_tank w) = true -> condTau (w_tank w) (w_secStep w) <= 1;
  cr_fuel : (length (t_Ts (w_tank w)) * length (t_Ts (w_tank w)) < fuel)%nat
}.
(** the record of minute [i] *)
Record minuteRow (i : nat) (r : rowIn (T:=R)) (v : hpwh R) (td : testData (T:=R)) : Prop := {
  mr_time : td_time td = Z.of_nat i;
  mr_amb : td_amb td = r_amb r;
  mr_set : td_setpoint td = w_setpoint v;
  mr_inlet : td_inlet td = r_inletT r;
  mr_draw : td_draw td = r_draw r;
  mr_in : td_in td = map h_eIn (w_hs v);
  mr_out : td_out td = map h_eOut (w_hs v);
  mr_tc : length (td_tc td) = 6%nat /\ forall k, (k < 6)%nat -> exists x, nth_error (td_tc td) k = Some x /\ nthThermocouple (Z.of_nat (S k)) 6 (w_tank v) = Ok x;
  mr_outlet : td_outlet td = t_outletT (w_tank v)
}.

(** ** One minute *)
Definition cmdStep (r : rowIn (T:=R)) : stepIn := mkin (r_draw r) (r_amb r) (r_ext r) (r_dr r) (r_draw r) (r_inletT r) None.

Lemma cmd_calm lo hi r (w : hpwh R) : calmUnit lo hi w -> w_doDepress w = false -> 0 <= r_draw r -> lo <= r_amb r <= hi /\ lo <= r_inletT r <= hi ->
  calm lo hi (cmdStep r) (setInletT (r_inletT r) w).
Proof.
  intros HU HN Hd [HA HI]. destruct HU. constructor.
  - constructor; auto.
  - unfold tankAir. replace (w_doDepress (setInletT (r_inletT r) w)) with (w_doDepress w) by (destruct w; reflexivity). rewrite HN. exact HA.
  - exact Hd.
  - intros _ HX. exfalso. cbn in HX. lra.
  - intros _ _. exact HI.
Qed.
Lemma cmd_calmRun_first r rows lo hi (w : hpwh R) : 0 <= r_draw r -> calmRun (r :: rows) lo hi w -> calm lo hi (cmdStep r) (setInletT (r_inletT r) w).
Proof. intros Hd (HU & HN & HR). apply cmd_calm; auto. apply HR. left. auto. Qed.
Lemma cmd_first D r rows (w : hpwh R) : 0 <= r_draw r -> coveredRun D (r :: rows) w -> covered D (cmdStep r) (setInletT (r_inletT r) w).
Proof.
  intros Hd [HA|(lo & hi & HD & HU)]; [left; auto|right]. exists lo, hi. split; auto. eapply cmd_calmRun_first; eauto.
Qed.
Lemma cmd_calmRun_next D fuel r rows lo hi (w w1 : hpwh R) : let w0 := setInletT (r_inletT r) w in 0 <= r_draw r ->
  unitOK (sourceAir w0 (cmdStep r)) D w0 -> runOneStep fuel (cmdStep r) w0 = (Ok tt, w1) -> (forall c, lo <= c <= hi -> D c) ->
  calmRun (r :: rows) lo hi w -> calmRun rows lo hi w1.
Proof.
  intros w0 Hd HU E HD HCR. pose proof (cmd_calmRun_first _ _ _ _ _ Hd HCR) as HCa. fold w0 in HCa. destruct HCR as (HUn & HN & HR).
  assert (HF : covered D (cmdStep r) w0) by (right; eauto).
  pose proof (step_rel fuel (cmdStep r) D w0 w1 HU HF ltac:(right; intros ? []) ltac:(intros []; reflexivity) E) as HS.
  pose proof (step_range fuel (cmdStep r) w0 w1 D lo hi HU HD HCa eq_refl E) as HW.
  pose proof (step_times _ _ _ _ E) as HT. assert (HT1 : w_hrStep w1 = w_hrStep w0) by (injection HT; auto). assert (HT2 : w_secStep w1 = w_secStep w0) by (injection HT; auto). clear HT.
  pose proof (ca_unit _ _ _ _ HCa) as [K1 K2 K3 K4 K5 K6 K7 K8 K9 K10 K11 K12 K13]. clear HCa HUn HF.
  assert (HN0 : w_doDepress w0 = false) by (unfold w0; destruct w; exact HN). clearbody w0.
  destruct HS as [A1 A2 A3 A4 A5 A6 A7 A8 A9 A10 A11 A12].
  split; [|split].
  - constructor; rewrite ?HT1, ?HT2; auto; try (rewrite A2; assumption); try lra.
    + clear - A9 K3. induction A9; inversion K3; subst; constructor; auto. intros HX. apply H2. eapply multiPass_hframe; eauto.
    + rewrite A1. intros ends He. rewrite A2. apply K13. exact He.
  - rewrite A12. exact HN0.
  - intros r' Hr'. apply HR. right. exact Hr'.
Qed.
Lemma cmd_next D fuel r rows (w w1 : hpwh R) : let w0 := setInletT (r_inletT r) w in 0 <= r_draw r ->
  unitOK (sourceAir w0 (cmdStep r)) D w0 -> runOneStep fuel (cmdStep r) w0 = (Ok tt, w1) ->
  coveredRun D (r :: rows) w -> coveredRun D rows w1.
Proof.
  intros w0 Hd HU E [HA|(lo & hi & HD & HC)]; [left; auto|right]. exists lo, hi. split; auto. eapply cmd_calmRun_next; eauto.
Qed.

(** the heat of the water over one minute *)
Definition minuteBalance (r : rowIn (T:=R)) (w w1 : hpwh R) : Prop :=
  tankHeat (w_tank w1) = tankHeat (w_tank w) + CPWATER * DENSITYWATER * r_draw r * (r_inletT r - t_outletT (w_tank w1)) + 3600 * Rsum (map h_eOut (w_hs w1)) - 3600 * w_stbyE w1.

Lemma cmd_step fuel D r rows (w : hpwh R) : cmdReady fuel D (r :: rows) w ->
  exists w1, runOneStepInlet fuel (r_inletT r) (cmdStep r) w = (Ok tt, w1) /\ cmdReady fuel D rows w1 /\ Forall2 hframe (w_hs w) (w_hs w1) /\
    w_compIx w1 = w_compIx w /\ w_usesSoC w1 = w_usesSoC w /\ wf_tank (w_tank w) /\ wf_tank (w_tank w1) /\ minuteBalance r w w1 /\
    w_extraE w1 = 0 /\ w_envE w1 = Rsum (map (fun h => h_eOut h - h_eIn h) (w_hs w1)) /\ Forall (fun h => 0 <= h_runtime h <= 1) (w_hs w1).
Proof.
  intros [H0 H1 H2 H3 H4 HEx H5 H6 H7]. destruct (H4 r (or_introl eq_refl)) as (U1 & U2 & U3 & U4).
  pose proof (cmd_first _ _ _ _ U3 H3) as HCf.
  pose proof (fun w1 HX HS => cmd_next D fuel r rows w w1 U3 HX HS H3) as HCn.
  assert (HKn : forall w1 lo, unitOK (sourceAir (setInletT (r_inletT r) w) (cmdStep r)) D (setInletT (r_inletT r) w) ->
    runOneStep fuel (cmdStep r) (setInletT (r_inletT r) w) = (Ok tt, w1) -> (forall c, lo <= c <= w_setpoint w -> D c) ->
    calmRun (r :: rows) lo (w_setpoint w) w -> calmRun rows lo (w_setpoint w) w1) by (intros; eapply cmd_calmRun_next; eauto).
  assert (HKf : extReady fuel D (fun lo => calm lo (w_setpoint (setInletT (r_inletT r) w)) (cmdStep r) (setInletT (r_inletT r) w)) (setInletT (r_inletT r) w)).
  { eapply (extReady_frame fuel D _ _ w); [| | | | | |exact HEx]; try reflexivity.
    - apply Forall2_refl'. intros h. apply hframe_refl.
    - intros lo HC. exact (cmd_calmRun_first _ _ _ _ _ U3 HC). }
  set (w0 := setInletT (r_inletT r) w) in *.
  assert (P0 : runOneStepInlet fuel (r_inletT r) (cmdStep r) w = runOneStep fuel (cmdStep r) w0) by reflexivity.
  assert (P1 : w_doDepress w0 = false) by exact H1.
  assert (P2 : w_tank w0 = w_tank w) by reflexivity. assert (P3 : w_minStep w0 = 1) by exact H2.
  assert (P4 : w_secStep w0 = w_secStep w) by reflexivity.
  assert (P5 : forall air, unitOK air D w -> unitOK air D w0) by (intros air [O1 O2 O3 O4 O5]; constructor; auto).
  assert (P6 : forall air, unitReadyX True air D w -> unitReadyX True air D w0) by (intros; apply setInlet_ready; auto).
  assert (P7 : w_hs w0 = w_hs w) by reflexivity. assert (P8 : w_compIx w0 = w_compIx w) by reflexivity. assert (P9 : w_usesSoC w0 = w_usesSoC w) by reflexivity.
  assert (P10 : w_inletT w0 = r_inletT r) by reflexivity. assert (P11 : w_setpoint w0 = w_setpoint w) by reflexivity.
  clearbody w0.
  assert (Ea : sourceAir w0 (cmdStep r) = r_ext r) by (unfold sourceAir; rewrite P1; reflexivity).
  destruct (step_succ_ext (X:=True) fuel (cmdStep r) D w0) as (w1 & E1 & Esp); rewrite ?Ea, ?P2, ?P3, ?P4; auto; try (cbn; lra).
  pose proof (step_rel fuel (cmdStep r) D w0 w1 ltac:(rewrite Ea; auto) HCf ltac:(right; intros q []) ltac:(intros HX; contradiction HX; reflexivity) E1) as HS.
  pose proof (step_cfg _ _ _ _ E1) as HC. unfold cfg in HC. injection HC as C1 C2 C3 C4 C5 C6.
  pose proof (sr_tank _ _ _ HS) as HT. pose proof (sr_len _ _ _ HS) as HL.
  assert (T1 : t_nodeVol (w_tank w1) = t_nodeVol (w_tank w) /\ t_mixBelowFrac (w_tank w1) = t_mixBelowFrac (w_tank w) /\ t_doCond (w_tank w1) = t_doCond (w_tank w) /\
     condTau (w_tank w1) (w_secStep w) = condTau (w_tank w) (w_secStep w)) by (rewrite HT, P2; splits; reflexivity).
  destruct T1 as (T1 & T2 & T3 & T4).
  assert (HX0 : w_extraE w1 = 0) by (rewrite (sr_extra _ _ _ HS); unfold extraList; cbn [cmdStep i_extra]; unfold Rsum; cbn; lra).
  exists w1. splits.
  - rewrite P0. exact E1.
  - constructor.
    + rewrite C3, P8. exact H0.
    + rewrite (sr_dep _ _ _ HS). exact P1.
    + rewrite (sr_min _ _ _ HS). exact P3.
    + apply HCn; auto. rewrite Ea. auto.
    + intros r' Hr'. destruct (H4 r' (or_intror Hr')) as (V1 & V2 & V3 & V4). splits; auto.
      * eapply stepRel_unitOK; eauto.
      * eapply unitReady_frame; [apply (sr_src _ _ _ HS)|exact C1|apply (sr_sp _ _ _ HS)|exact C3|exact C4|exact C5|exact C2|auto].
      * rewrite T1. exact V4.
    + assert (HE2 : extReady fuel D (fun lo => (forall c, lo <= c <= w_setpoint w -> D c) /\ calmRun (r :: rows) lo (w_setpoint w) w) w).
      { clear - HEx. intros h A B C. specialize (HEx h A B C). cbv zeta in *. destruct (h_multipass h); auto.
        destruct HEx as (X1 & X2 & X3 & lo & X4 & X5 & X6). split; [auto|]. split; [auto|]. split; [auto|]. exists lo. auto. }
      eapply (extReady_frame fuel D _ _ w); [rewrite <- P7; apply (sr_src _ _ _ HS)| | | | | |exact HE2].
      * rewrite HL, P2. reflexivity.
      * exact T1.
      * congruence.
      * rewrite (sr_min _ _ _ HS), P3, H2. reflexivity.
      * intros lo [HD HC]. rewrite Esp, P11. apply HKn; auto. rewrite Ea. auto.
    + rewrite T2. exact H5.
    + rewrite T3, C6, P4, T4. exact H6.
    + rewrite HL, P2. exact H7.
  - rewrite <- P7. apply (sr_src _ _ _ HS).
  - congruence.
  - congruence.
  - apply (uo_wf _ _ _ U1).
  - apply (uo_wf (r_ext r) D). eapply stepRel_unitOK; eauto.
  - unfold minuteBalance. rewrite (sr_heat _ _ _ HS), HX0, P2, P10. unfold drawnHeat, deliveredKJ. cbn [cmdStep i_draw i_vol2 i_inT2].
    destruct (Rle_dec (r_draw r) 0); [assert (r_draw r = 0) as -> by lra; ring|]. destruct (t_hasHX (w_tank w)); ring.
  - exact HX0.
  - apply (sr_env _ _ _ HS).
  - pose proof (sr_rt _ _ _ HS) as HR. rewrite (sr_min _ _ _ HS), P3 in HR. exact HR.
Qed.

Lemma balanced_ok r (w w1 : hpwh R) : wf_tank (w_tank w) -> wf_tank (w_tank w1) -> minuteBalance r w w1 -> w_extraE w1 = 0 ->
  w_envE w1 = Rsum (map (fun h => h_eOut h - h_eIn h) (w_hs w1)) ->
  isEnergyBalanced (r_draw r) (r_inletT r) 0 0 (heatContent (w_tank w)) (dec 1 1000000) w1 = true.
Proof.
  intros W0 W1 HB HX HE. assert (HD : dec (T:=R) 1 1000000 = 1 / 1000000) by (unfold dec; num_simpl; reflexivity). rewrite HD.
  assert (H0 : 0 <= 1 / 1000000) by lra. apply C22_detects_fact; [exact W1|exact H0|]. rewrite C04_heat_content_is_stored_heat_fact by auto. rewrite HB, HX, HE.
  assert (HS : Rsum (map (fun h => h_eOut h - h_eIn h) (w_hs w1)) = Rsum (map h_eOut (w_hs w1)) - Rsum (map h_eIn (w_hs w1))).
  { generalize (w_hs w1). induction l as [|h l IH]; unfold Rsum in *; cbn; lra. }
  rewrite HS. match goal with |- Rabs ?q <= _ => replace q with 0 by ring end. rewrite Rabs_R0.
  assert (0 < Rmax (tankHeat (w_tank w)) 1) by (pose proof (Rmax_r (tankHeat (w_tank w)) 1); lra). nra.
Qed.

Lemma at_some (l : list R) i x : nth_error l i = Some x -> at_ l i = Ok x.
Proof. unfold at_. intros ->. reflexivity. Qed.
Lemma bindOk {S A B} (m : M S A) (k : A -> M S B) s a s' : m s = (Ok a, s') -> bind m k s = k a s'.
Proof. intros E. unfold bind. rewrite E. reflexivity. Qed.
Lemma bindGet {S B} (k : S -> M S B) s : bind get k s = k s s.
Proof. reflexivity. Qed.
Lemma bindGets {S A B} (f : S -> A) (k : A -> M S B) s : bind (gets f) k s = k (f s) s.
Proof. reflexivity. Qed.
Lemma bindRet {S A B} (a : A) (k : A -> M S B) s : bind (ret a) k s = k a s.
Proof. reflexivity. Qed.

Lemma mp_of (w : hpwh R) : (0 <= w_compIx w)%Z -> (w_compIx w < Z.of_nat (length (w_hs w)))%Z -> exists h, compressor w = Ok h /\ isExternalMultipass w = Ok (h_multipass h && match h_config h with External => true | _ => false end)%bool.
Proof.
  intros H0 H1. unfold compressor. replace (w_compIx w <? 0)%Z with false by (symmetry; apply Z.ltb_ge; auto).
  destruct (nth_error (w_hs w) (Z.to_nat (w_compIx w))) as [h|] eqn:E; [|apply nth_error_None in E; lia].
  exists h. split; auto. apply (proj2 (C95_no_compressor_fact 0 exData w)); auto.
Qed.
Lemma mp_frame (w w1 : hpwh R) : Forall2 hframe (w_hs w) (w_hs w1) -> w_compIx w1 = w_compIx w -> isExternalMultipass w1 = isExternalMultipass w.
Proof.
  intros HF HC. unfold isExternalMultipass, hasCompressor, compressor. rewrite HC.
  assert (HN : forall k, match nth_error (w_hs w) k, nth_error (w_hs w1) k with Some h, Some h' => hframe h h' | None, None => True | _, _ => False end).
  { clear HC. induction HF as [|h h' l l' Hh HF IH]; intros [|k]; cbn; auto. apply IH. }
  specialize (HN (Z.to_nat (w_compIx w))). destruct (_ <? 0)%Z; [reflexivity|].
  destruct (nth_error (w_hs w) _) as [h|]; destruct (nth_error (w_hs w1) _) as [h'|]; try contradiction; [|reflexivity].
  unfold hframe in HN. rewrite HN. reflexivity.
Qed.
Lemma run_times (w : hpwh R) : Forall (fun h => 0 <= h_runtime h <= 1) (w_hs w) ->
  forall l, (forall k, In k l -> (k < length (w_hs w))%nat) ->
  forM l (fun k => r <- lift (getNthRunTime (Z.of_nat k) w) ;; if nltb 1 r then throw "heat source ran too long" else ret tt) w = (Ok tt, w).
Proof.
  intros HF. induction l as [|k l IH]; intros HK; cbn [forM]; [reflexivity|].
  destruct (nth_error (w_hs w) k) as [h|] eqn:E; [|apply nth_error_None in E; specialize (HK k (or_introl eq_refl)); lia].
  assert (ER : getNthRunTime (Z.of_nat k) w = Ok (h_runtime h)).
  { unfold getNthRunTime. rewrite (nthSource_nat k w h) by (apply HK; left; auto). cbn [obind]. erewrite nth_error_nth by exact E. reflexivity. }
  rewrite (bindOk _ _ w tt w); [apply IH; intros; apply HK; right; auto|].
  rewrite (bind_lift _ _ _ _ ER).
  assert (HR : 0 <= h_runtime h <= 1) by (eapply Forall_forall in HF; [exact HF|eapply nth_error_In; eauto]).
  num_simpl. replace (Rltb 1 (h_runtime h)) with false by (symmetry; apply Rltb_false; lra). reflexivity.
Qed.

Lemma minute_run fuel c D i r rows (w : hpwh R) : plainConf c -> schedAt c i r -> cmdReady fuel D (r :: rows) w ->
  exists w1 bad, minute fuel c i w = (Ok (r_amb r, r_inletT r, r_draw r, bad), w1) /\ runOneStepInlet fuel (r_inletT r) (cmdStep r) w = (Ok tt, w1) /\ cmdReady fuel D rows w1 /\ Forall2 hframe (w_hs w) (w_hs w1) /\
    w_compIx w1 = w_compIx w /\ w_usesSoC w1 = w_usesSoC w /\ wf_tank (w_tank w1) /\ minuteBalance r w w1.
Proof.
  intros (HP1 & HP2 & HP3 & HP4) (S1 & (g & S2 & Sg) & S3 & S4 & (x & S5 & Sx)) HR.
  destruct (cmd_step fuel D r rows w HR) as (w1 & E1 & HR1 & HF & HC & HS & W0 & W1 & HB & HX & HE & HT).
  assert (HL : length (w_hs w1) = length (w_hs w)) by (clear - HF; induction HF; cbn; auto).
  assert (HI : (w_compIx w1 < Z.of_nat (length (w_hs w1)))%Z) by (rewrite HC, HL; destruct (cr_rows _ _ _ _ HR r (or_introl eq_refl)) as (_ & HD & _); apply (rd_comp HD)).
  destruct (mp_of w1 (cr_comp _ _ _ _ HR1) HI) as (hc & EC & EM).
  assert (EX : mkin (GAL_TO_L g) (r_amb r) (r_ext r) (ntrunc x) (1 * GAL_TO_L g) (r_inletT r) None = cmdStep r).
  { unfold cmdStep. rewrite Sg, Sx. change (GAL_TO_L g) with (g * gallon). rewrite Rmult_1_l. reflexivity. }
  exists w1. unfold minute. rewrite HP1, HP2, HP3.
  rewrite (bind_lift _ _ _ _ (at_some _ _ _ S3)), bindGets, (bind_lift _ _ _ _ (at_some _ _ _ S5)), bindGet, !bindRet, (bind_lift _ _ _ _ (at_some _ _ _ S1)), (bind_lift _ _ _ _ (at_some _ _ _ S2)), bindGet.
  assert (EMix : mixDown c (r_inletT r) g w = Ok g).
  { unfold mixDown. replace (rc_large c && isYear c)%bool with false; [reflexivity|]. symmetry. destruct HP4 as [->|HP4]; [reflexivity|].
    apply andb_false_iff. right. unfold isYear. rewrite Z.gtb_ltb. apply Z.ltb_ge. auto. }
  rewrite (bind_lift _ _ _ _ EMix), (bind_lift _ _ _ _ (at_some _ _ _ S4)). cbv zeta.
  change (GAL_TO_L g) with (g * gallon) in *. rewrite <- Sg in *. num_simpl. rewrite EX. rewrite (bindOk _ _ _ _ _ E1), bindGet.
  rewrite (balanced_ok r w w1) by auto. cbn [negb].
  rewrite (bindOk _ _ w1 tt w1); [|apply (run_times w1 HT); intros k HK; apply in_seq in HK; unfold numHS in HK; lia].
  rewrite (bind_lift _ _ _ _ EM).
  assert (EB : exists bad, (if h_multipass hc && match h_config hc with External => true | _ => false end
    then v <- lift (getExternalVolumeHeated U_GAL w1) ;; h <- lift (compressor w1) ;; r0 <- lift (getNthRunTime (w_compIx w1) w1) ;;
         ret (nltb (dec 1 1000000) (nabs (v - LPS_TO_GPM (h_mpFlow h) * r0)))
    else ret false) w1 = (Ok bad, w1)).
  { destruct (h_multipass hc && _)%bool; [|eexists; reflexivity].
    assert (ER : exists t, getNthRunTime (w_compIx w1) w1 = Ok t).
    { unfold getNthRunTime. replace (w_compIx w1) with (Z.of_nat (Z.to_nat (w_compIx w1))) by (rewrite Z2Nat.id; [auto|apply (cr_comp _ _ _ _ HR1)]).
      rewrite (nthSource_nat _ w1 hc) by (pose proof (cr_comp _ _ _ _ HR1); lia). eexists. reflexivity. }
    destruct ER as (t & ER). rewrite (bind_lift _ (w_extVol w1 / gallon)) by reflexivity. rewrite (bind_lift _ _ _ _ EC), (bind_lift _ _ _ _ ER). eexists. reflexivity. }
  destruct EB as (bad & EB). exists bad. rewrite (bindOk _ _ _ _ _ EB). splits; auto.
Qed.

(** ** Loops *)
Lemma hframe_len (l l' : list (hsrc R)) : Forall2 hframe l l' -> length l' = length l.
Proof. induction 1; cbn; auto. Qed.
Lemma tcs_ok (t : tank R) : wf_tank t -> exists tcs, omap (fun i => nthThermocouple i 6 t) [1; 2; 3; 4; 5; 6]%Z = Ok tcs /\ length tcs = 6%nat /\
  forall k, (k < 6)%nat -> exists x, nth_error tcs k = Some x /\ nthThermocouple (Z.of_nat (S k)) 6 t = Ok x.
Proof.
  intros HW. set (f := fun i => nthThermocouple i 6 t).
  assert (HF : forall i, (1 <= i <= 6)%Z -> exists x, f i = Ok x) by (intros i Hi; destruct (C42_thermocouple_fact t i 6 HW Hi) as (x & E & _); exists x; exact E).
  destruct (HF 1%Z ltac:(lia)) as (x1 & F1). destruct (HF 2%Z ltac:(lia)) as (x2 & F2). destruct (HF 3%Z ltac:(lia)) as (x3 & F3).
  destruct (HF 4%Z ltac:(lia)) as (x4 & F4). destruct (HF 5%Z ltac:(lia)) as (x5 & F5). destruct (HF 6%Z ltac:(lia)) as (x6 & F6). clear HF.
  exists [x1; x2; x3; x4; x5; x6]. cbn [omap]. rewrite F1, F2, F3, F4, F5, F6. cbn [obind]. splits; auto.
  unfold f in *. intros i Hi. do 6 (destruct i as [|i]; [eexists; split; [reflexivity|assumption]|]). lia.
Qed.
Lemma recordRow_ok c i r (v : hpwh R) : rc_air c = None -> wf_tank (w_tank v) -> exists td, recordRow c i (r_amb r) (r_inletT r) (r_draw r) v = Ok td /\ minuteRow i r v td.
Proof.
  intros HA HW. unfold recordRow. cbv zeta. unfold numHS.
  assert (D : {d : hsrc R | True} + {w_hs v = []}) by (destruct (w_hs v) as [|h l]; [right; auto|left; exists h; auto]).
  assert (EI : omap (fun i => getNthEnergyInput i U_KWH v) (map Z.of_nat (seq 0 (length (w_hs v)))) = Ok (map h_eIn (w_hs v))).
  { destruct D as [[d _]|E]; [|rewrite E; reflexivity]. rewrite (omap_seq _ (fun i => h_eIn (nth i (w_hs v) d))); [rewrite RatingFacts.map_nth_seq; reflexivity|].
    intros k Hk. unfold getNthEnergyInput. rewrite (nthSource_nat k v d) by lia. reflexivity. }
  assert (EO : omap (fun i => getNthEnergyOutput i U_KWH v) (map Z.of_nat (seq 0 (length (w_hs v)))) = Ok (map h_eOut (w_hs v))).
  { destruct D as [[d _]|E]; [|rewrite E; reflexivity]. rewrite (omap_seq _ (fun i => h_eOut (nth i (w_hs v) d))); [rewrite RatingFacts.map_nth_seq; reflexivity|].
    intros k Hk. unfold getNthEnergyOutput. rewrite (nthSource_nat k v d) by lia. reflexivity. }
  destruct (tcs_ok _ HW) as (tcs & ET & HT). rewrite EI, EO, ET, HA. cbn [obind]. eexists. split; [reflexivity|]. constructor; auto.
Qed.

(** the table of a run: for each minute a step from the state before, whose heat balances, and a line that shows its record under the columns *)
Inductive tableOf (fuel : nat) (cols : list col) : nat -> hpwh R -> list (rowIn (T:=R)) -> list (list (cell R)) -> hpwh R -> Prop :=
| tb_nil i w : tableOf fuel cols i w [] [] w
| tb_cons i w r rows v td cl cells w' :
    runOneStepInlet fuel (r_inletT r) (mkin (r_draw r) (r_amb r) (r_ext r) (r_dr r) (r_draw r) (r_inletT r) None) w = (Ok tt, v) ->
    minuteBalance r w v -> minuteRow i r v td -> Forall2 (shows td v) cols cl ->
    tableOf fuel cols (S i) v rows cells w' -> tableOf fuel cols i w (r :: rows) (cl :: cells) w'.

Lemma written_ok {A S} (m : M (list A) unit) l (s : S) : m [] = (Ok tt, l) -> written m s = (Ok l, s).
Proof. intros E. unfold written. rewrite E. reflexivity. Qed.

Lemma loop_short fuel c D mp soc n : plainConf c -> (rc_minutes c < 500000)%Z -> forall rows i (w : hpwh R) s,
  cmdReady fuel D rows w -> isExternalMultipass w = Ok mp -> w_usesSoC w = soc -> length (w_hs w) = n ->
  (forall k r, nth_error rows k = Some r -> schedAt c (i + k) r) ->
  exists cells s' w', foldM (seq i (length rows)) (body fuel c) s w = (Ok s', w') /\ lp_lines s' = (lp_lines s ++ map LRow cells)%list /\
    tableOf fuel (headCols false mp soc n) i w rows cells w'.
Proof.
  intros HP HM. induction rows as [|r rows IH]; intros i w s HR HMp HSo HN HSc.
  { exists [], s, w. cbn. rewrite app_nil_r. splits; auto. constructor. }
  pose proof (HSc 0%nat r eq_refl) as HS0. rewrite Nat.add_0_r in HS0.
  destruct (minute_run fuel c D i r rows w HP HS0 HR) as (v & bad & E1 & E2 & HR1 & HF & HC & HU & HW & HB).
  assert (HL : length (w_hs v) = n) by (rewrite (hframe_len _ _ HF); auto).
  assert (HMv : isExternalMultipass v = Ok mp) by (rewrite (mp_frame w v); auto).
  destruct (recordRow_ok c i r v (proj1 (proj2 (proj2 HP))) HW) as (td & ET & HT).
  assert (L1 : (numHS v <= length (td_in td))%nat) by (rewrite (mr_in _ _ _ _ HT), map_length; unfold numHS; lia).
  assert (L2 : (numHS v <= length (td_out td))%nat) by (rewrite (mr_out _ _ _ _ HT), map_length; unfold numHS; lia).
  assert (L3 : (6 <= length (td_tc td))%nat) by (rewrite (proj1 (mr_tc _ _ _ _ HT)); lia).
  pose proof (row_run 0 td v mp HMv L1 L2 L3) as ER. change (csv_has CSVOPT_IPUNITS 0) with false in ER. rewrite HU, HSo in ER.
  set (cl := rowCells false mp soc td v) in *.
  set (s0 := if bad : bool then mkloop (lp_cum s) (lp_sub s) (lp_lines s) (lp_bad s ++ [i])%list else s).
  assert (EB : body fuel c i s w = (Ok (mkloop (lp_cum s0) (lp_sub s0) (lp_lines s0 ++ [LRow cl])%list (lp_bad s0)), v)).
  { unfold body. rewrite (bindOk _ _ _ _ _ E1). fold s0. unfold output. rewrite bindGet.
    replace (isShort c) with true by (symmetry; unfold isShort; apply Z.ltb_lt; auto).
    rewrite (bind_lift _ _ _ _ ET). rewrite (bindOk _ _ _ _ _ (written_ok _ _ v ER)). reflexivity. }
  set (s1 := mkloop (lp_cum s0) (lp_sub s0) (lp_lines s0 ++ [LRow cl])%list (lp_bad s0)) in *.
  destruct (IH (S i) v s1) as (cells & s' & w' & E & HLn & HTb); auto.
  { congruence. }
  { intros k r' Hk. replace (S i + k)%nat with (i + S k)%nat by lia. apply HSc. exact Hk. }
  exists (cl :: cells), s', w'. splits.
  - cbn [length seq foldM]. rewrite (bindOk _ _ _ _ _ EB). exact E.
  - rewrite HLn. unfold s1, s0. destruct bad; cbn [lp_lines map]; rewrite <- app_assoc; reflexivity.
  - econstructor; eauto. apply row_shows; auto. 1-2: rewrite <- HL; assumption.
Qed.

Lemma C97_minutes_fact : forall fuel c D rows (w : hpwh R) mp, plainConf c -> (rc_minutes c < 500000)%Z -> length rows = Z.to_nat (rc_minutes c) ->
  (forall i r, nth_error rows i = Some r -> schedAt c i r) -> cmdReady fuel D rows w -> isExternalMultipass w = Ok mp ->
  exists cols cells s w', simulate fuel c w = (Ok s, w') /\ lp_lines s = LHead cols :: map LRow cells /\
    NoDup cols /\ (forall x, In x cols <-> listed false mp (w_usesSoC w) (length (w_hs w)) x) /\ tableOf fuel cols 0 w rows cells w'.
Proof.
  intros fuel c D rows w mp HP HM HL HS HR HMp.
  destruct (loop_short fuel c D mp (w_usesSoC w) (length (w_hs w)) HP HM rows 0 w (mkloop zeroCum 0 [LHead (headCols false mp (w_usesSoC w) (length (w_hs w)))] []) HR HMp eq_refl eq_refl) as (cells & s' & w' & E & HLn & HT); auto.
  exists (headCols false mp (w_usesSoC w) (length (w_hs w))), cells, s', w'. splits; auto.
  - unfold simulate. rewrite bindGet. replace (isYear c) with false by (symmetry; unfold isYear; rewrite Z.gtb_ltb; apply Z.ltb_ge; lia).
    pose proof (heading_run 0 w mp HMp) as EH. change (csv_has CSVOPT_IPUNITS 0) with false in EH. unfold numHS in EH.
    rewrite (bindOk _ _ w (LHead (headCols false mp (w_usesSoC w) (length (w_hs w)))) w); [rewrite <- HL; exact E|].
    rewrite (bindOk _ _ _ _ _ (written_ok _ _ w EH)). reflexivity.
  - apply headCols_nodup.
  - intros x. apply headCols_listed.
Qed.

(** ** Days *)
(** sums over some minutes, in Wh, of what the [n] sources took and delivered *)
Definition eInOf (k : nat) (v : hpwh R) : R := match nth_error (w_hs v) k with Some h => h_eIn h | None => 0 end.
Definition eOutOf (k : nat) (v : hpwh R) : R := match nth_error (w_hs v) k with Some h => h_eOut h | None => 0 end.
Definition totals (n : nat) (vs : list (hpwh R)) : list (R * R) :=
  map (fun k => (1000 * Rsum (map (eInOf k) vs), 1000 * Rsum (map (eOutOf k) vs))) (seq 0 n).
(** the lines of the days from [d] on: the minutes of each day are summed; those of an unfinished day are not written *)
Inductive dayLines (n : nat) : nat -> list (hpwh R) -> list (line R) -> Prop :=
| dl_end d vs : (length vs < 1440)%nat -> dayLines n d vs []
| dl_day d vs rest ls : length vs = 1440%nat -> dayLines n (S d) rest ls -> dayLines n d (vs ++ rest) (LDay (Z.of_nat d) (totals n vs) :: ls).

Lemma dayLines_count n d vs ls : dayLines n d vs ls -> Z.of_nat (length ls) = (Z.of_nat (length vs) / 1440)%Z.
Proof.
  induction 1 as [d vs HL|d vs rest ls HL HD IH]; [rewrite Z.div_small by lia; reflexivity|].
  rewrite app_length, HL, Nat2Z.inj_add. cbn [length]. rewrite Nat2Z.inj_succ, IH. change (Z.of_nat 1440) with (1 * 1440)%Z. rewrite Z.div_add_l by lia. lia.
Qed.
Lemma steps_len fuel rows w ws : stepsFrom fuel rows w ws -> length ws = length rows.
Proof. induction 1; cbn; auto. Qed.
Lemma addCum_ok (hs : list (hsrc R)) : forall a b, length a = length hs ->
  addCum hs (a ++ b)%list = Ok (map (fun q => (fst (fst q) + h_eIn (snd q) * 1000, snd (fst q) + h_eOut (snd q) * 1000)) (combine a hs) ++ b)%list.
Proof.
  induction hs as [|h hs IH]; intros [|[x y] a] b HL; cbn in HL; try discriminate; [destruct b; reflexivity|].
  cbn [app addCum combine map]. rewrite IH by lia. cbn [obind fst snd]. num_simpl. reflexivity.
Qed.
Lemma addCum_ub (hs : list (hsrc R)) : forall a, (length a < length hs)%nat -> exists e, addCum hs a = UB e.
Proof.
  induction hs as [|h hs IH]; intros [|[x y] a] HL; cbn in HL; try lia; [eexists; reflexivity|].
  cbn [addCum]. destruct (IH a) as (e & ->); [lia|]. eexists. reflexivity.
Qed.
Lemma combine_seq (l : list (hsrc R)) : forall i (f : nat -> R * R) (g : R * R -> hsrc R -> R * R) (hd : hsrc R),
  map (fun q => g (fst q) (snd q)) (combine (map f (seq i (length l))) l) = map (fun k => g (f k) (nth (k - i) l hd)) (seq i (length l)).
Proof.
  induction l as [|h l IH]; intros i f g hd; cbn [length seq map combine]; [reflexivity|]. rewrite Nat.sub_diag. cbn [nth fst snd]. f_equal.
  rewrite (IH (S i) f g hd). apply map_ext_in. intros k HK. apply in_seq in HK. replace (k - i)%nat with (S (k - S i)) by lia. reflexivity.
Qed.
Lemma totals_step n vs (v : hpwh R) : length (w_hs v) = n ->
  map (fun q => (fst (fst q) + h_eIn (snd q) * 1000, snd (fst q) + h_eOut (snd q) * 1000)) (combine (totals n vs) (w_hs v)) = totals n (vs ++ [v]).
Proof.
  intros HN. unfold totals. rewrite <- HN. destruct (w_hs v) as [|hd l] eqn:EH; [reflexivity|]. rewrite <- EH.
  rewrite (combine_seq (w_hs v) 0 (fun k => (1000 * Rsum (map (eInOf k) vs), 1000 * Rsum (map (eOutOf k) vs))) (fun p h => (fst p + h_eIn h * 1000, snd p + h_eOut h * 1000)) hd).
  apply map_ext_in. intros k HK. apply in_seq in HK. cbn [fst snd]. rewrite !map_app. unfold Rsum. rewrite !fold_right_app. cbn [map fold_right].
  assert (EK : nth_error (w_hs v) k = Some (nth (k - 0) (w_hs v) hd)) by (rewrite Nat.sub_0_r; apply nth_error_nth'; lia).
  unfold eInOf at 2, eOutOf at 2. rewrite EK.
  assert (HX : forall l (x : R), fold_right Rplus x l = fold_right Rplus 0 l + x) by (induction l0; intros; cbn; [lra|rewrite IHl0; lra]).
  rewrite (HX _ (h_eIn _ + 0)), (HX _ (h_eOut _ + 0)). f_equal; ring.
Qed.
Lemma totals_zero n vs : map (fun _ => (0, 0)) (totals n vs) = totals n [].
Proof. unfold totals. rewrite map_map. apply map_ext. intros k. cbn. f_equal; ring. Qed.

Lemma loop_days fuel c D mp n : plainConf c -> (500000 <= rc_minutes c)%Z -> forall rows i (w : hpwh R) s d seg rest,
  cmdReady fuel D rows w -> isExternalMultipass w = Ok mp -> length (w_hs w) = n ->
  (forall k r, nth_error rows k = Some r -> schedAt c (i + k) r) ->
  lp_cum s = (totals n seg ++ rest)%list -> lp_sub s = Z.of_nat (length seg) -> (length seg < 1440)%nat -> i = (d * 1440 + length seg)%nat ->
  exists ws ls s' w', foldM (seq i (length rows)) (body fuel c) s w = (Ok s', w') /\ lp_lines s' = (lp_lines s ++ ls)%list /\
    stepsFrom fuel rows w ws /\ dayLines n d (seg ++ ws) ls.
Proof.
  intros HP HM. induction rows as [|r rows IH]; intros i w s d seg rest HR HMp HN HSc HCu HSu HSe HI.
  { exists [], [], s, w. cbn. rewrite !app_nil_r. splits; auto; constructor; auto. }
  pose proof (HSc 0%nat r eq_refl) as HS0. rewrite Nat.add_0_r in HS0.
  destruct (minute_run fuel c D i r rows w HP HS0 HR) as (v & bad & E1 & E2 & HR1 & HF & HC & HU & HW & HB).
  assert (HL : length (w_hs v) = n) by (rewrite (hframe_len _ _ HF); auto).
  assert (HMv : isExternalMultipass v = Ok mp) by (rewrite (mp_frame w v); auto).
  set (s0 := if bad : bool then mkloop (lp_cum s) (lp_sub s) (lp_lines s) (lp_bad s ++ [i])%list else s).
  assert (Q1 : lp_cum s0 = lp_cum s) by (unfold s0; destruct bad; reflexivity). assert (Q2 : lp_sub s0 = lp_sub s) by (unfold s0; destruct bad; reflexivity).
  assert (Q3 : lp_lines s0 = lp_lines s) by (unfold s0; destruct bad; reflexivity).
  assert (HTL : forall vs, length (totals n vs) = n) by (intros; unfold totals; rewrite map_length, seq_length; auto).
  assert (EA : addCum (w_hs v) (lp_cum s0) = Ok (totals n (seg ++ [v]) ++ rest)%list).
  { rewrite Q1, HCu, addCum_ok by (rewrite HTL; auto). rewrite totals_step by auto. reflexivity. }
  assert (EB : body fuel c i s w = (Ok (if (Z.of_nat (length seg) >=? 1439)%Z
      then mkloop (totals n [] ++ rest)%list 0 (lp_lines s ++ [LDay (Z.of_nat d) (totals n (seg ++ [v]))])%list (lp_bad s0)
      else mkloop (totals n (seg ++ [v]) ++ rest)%list (Z.of_nat (length seg) + 1) (lp_lines s) (lp_bad s0)), v)).
  { unfold body. rewrite (bindOk _ _ _ _ _ E1). fold s0. unfold output. rewrite bindGet.
    replace (isShort c) with false by (symmetry; unfold isShort; apply Z.ltb_ge; auto).
    rewrite (bind_lift _ _ _ _ EA), Q2, Q3, HSu. unfold numHS. rewrite HL.
    destruct (Z.of_nat (length seg) >=? 1439)%Z eqn:EG; [|reflexivity].
    rewrite Z.geb_leb in EG. apply Z.leb_le in EG.
    rewrite firstn_app, HTL, Nat.sub_diag, firstn_all2 by (rewrite HTL; auto). rewrite skipn_app, HTL, Nat.sub_diag, skipn_all2 by (rewrite HTL; auto).
    cbn [firstn skipn app]. rewrite app_nil_r. num_simpl. rewrite totals_zero.
    replace ((Z.of_nat i + 1) / 1440 - 1)%Z with (Z.of_nat d); [reflexivity|].
    replace (Z.of_nat i + 1)%Z with ((Z.of_nat d + 1) * 1440)%Z by lia. rewrite Z.div_mul by lia. lia. }
  destruct (Z.of_nat (length seg) >=? 1439)%Z eqn:EG; rewrite Z.geb_leb in EG; [apply Z.leb_le in EG|apply Z.leb_gt in EG].
  - edestruct (IH (S i) v (mkloop (totals n [] ++ rest)%list 0 (lp_lines s ++ [LDay (Z.of_nat d) (totals n (seg ++ [v]))])%list (lp_bad s0)) (S d) [] rest)
      as (ws & ls & s' & w' & E & HLn & HSt & HDl); [exact HR1|exact HMv|exact HL| |reflexivity|reflexivity|cbn; lia|cbn [length]; lia|].
    { intros k r' Hk. replace (S i + k)%nat with (i + S k)%nat by lia. apply HSc. exact Hk. }
    exists (v :: ws), (LDay (Z.of_nat d) (totals n (seg ++ [v])) :: ls), s', w'. splits.
    + cbn [length seq foldM]. rewrite (bindOk _ _ _ _ _ EB). exact E.
    + rewrite HLn. cbn [lp_lines]. rewrite <- app_assoc. reflexivity.
    + econstructor; eauto.
    + replace (seg ++ v :: ws)%list with ((seg ++ [v]) ++ ws)%list by (rewrite <- app_assoc; reflexivity). constructor; [rewrite app_length; cbn [length]; lia|exact HDl].
  - edestruct (IH (S i) v (mkloop (totals n (seg ++ [v]) ++ rest)%list (Z.of_nat (length seg) + 1) (lp_lines s) (lp_bad s0)) d (seg ++ [v])%list rest)
      as (ws & ls & s' & w' & E & HLn & HSt & HDl); [exact HR1|exact HMv|exact HL| |reflexivity|rewrite app_length; cbn [length lp_sub]; lia|rewrite app_length; cbn [length]; lia|rewrite app_length; cbn [length]; lia|].
    { intros k r' Hk. replace (S i + k)%nat with (i + S k)%nat by lia. apply HSc. exact Hk. }
    exists (v :: ws), ls, s', w'. splits.
    + cbn [length seq foldM]. rewrite (bindOk _ _ _ _ _ EB). exact E.
    + exact HLn.
    + econstructor; eauto.
    + replace (seg ++ v :: ws)%list with ((seg ++ [v]) ++ ws)%list by (rewrite <- app_assoc; reflexivity). exact HDl.
Qed.

Lemma C98_days_fact : forall fuel c D rows (w : hpwh R) mp, plainConf c -> (500000 <= rc_minutes c)%Z -> length rows = Z.to_nat (rc_minutes c) ->
  (forall i r, nth_error rows i = Some r -> schedAt c i r) -> cmdReady fuel D rows w -> isExternalMultipass w = Ok mp -> (length (w_hs w) <= 3)%nat ->
  exists hd ls ws s w', simulate fuel c w = (Ok s, w') /\ lp_lines s = hd :: ls /\ stepsFrom fuel rows w ws /\ dayLines (length (w_hs w)) 0 ws ls /\ Z.of_nat (length ls) = (rc_minutes c / 1440)%Z /\
    ((500000 < rc_minutes c)%Z -> hd = LDayHead (length (w_hs w))) /\ (rc_minutes c = 500000%Z -> exists cols, hd = LHead cols).
Proof.
  intros fuel c D rows w mp HP HM HL HS HR HMp HN.
  pose proof (heading_run 0 w mp HMp) as EH.
  set (hd := if isYear c then LDayHead (T:=R) (length (w_hs w)) else LHead (headCols (csv_has CSVOPT_IPUNITS 0) mp (w_usesSoC w) (numHS w))).
  destruct (loop_days fuel c D mp (length (w_hs w)) HP HM rows 0 w (mkloop zeroCum 0 [hd] []) 0 [] (repeat (0, 0) (3 - length (w_hs w))) HR HMp eq_refl) as (ws & ls & s' & w' & E & HLn & HSt & HDl); auto.
  { cbn [lp_cum]. unfold zeroCum, totals. num_simpl. destruct (length (w_hs w)) as [|[|[|[|?]]]]; [| | | |lia]; cbn; rewrite ?Rmult_0_r; reflexivity. }
  { cbn. lia. }
  exists hd, ls, ws, s', w'. splits; auto.
  - unfold simulate. rewrite bindGet. rewrite (bindOk _ _ w hd w); [rewrite <- HL; exact E|].
    unfold hd. destruct (isYear c); [reflexivity|]. rewrite (bindOk _ _ _ _ _ (written_ok _ _ w EH)). reflexivity.
  - rewrite (dayLines_count _ _ _ _ HDl). cbn [app]. rewrite (steps_len _ _ _ _ HSt), HL, Z2Nat.id by lia. reflexivity.
  - intros HX. unfold hd. replace (isYear c) with true; [reflexivity|]. symmetry. unfold isYear. rewrite Z.gtb_ltb. apply Z.ltb_lt. lia.
  - intros HX. unfold hd. replace (isYear c) with false; [eexists; reflexivity|]. symmetry. unfold isYear. rewrite Z.gtb_ltb. apply Z.ltb_ge. lia.
Qed.

Lemma C98_four_sources_fact : forall fuel c D rows (w : hpwh R) mp, plainConf c -> (500000 <= rc_minutes c)%Z -> length rows = Z.to_nat (rc_minutes c) ->
  (forall i r, nth_error rows i = Some r -> schedAt c i r) -> cmdReady fuel D rows w -> isExternalMultipass w = Ok mp -> (3 < length (w_hs w))%nat ->
  exists e w', simulate fuel c w = (UB e, w').
Proof.
  intros fuel c D rows w mp HP HM HL HS HR HMp HN.
  pose proof (heading_run 0 w mp HMp) as EH.
  destruct rows as [|r rows]; [cbn [length] in HL; lia|].
  destruct (minute_run fuel c D 0 r rows w HP (HS 0%nat r eq_refl) HR) as (v & bad & E1 & E2 & HR1 & HF & HC & HU & HW & HB).
  assert (HLv : length (w_hs v) = length (w_hs w)) by (apply hframe_len; auto).
  set (hd := if isYear c then LDayHead (T:=R) (length (w_hs w)) else LHead (headCols (csv_has CSVOPT_IPUNITS 0) mp (w_usesSoC w) (numHS w))).
  destruct (addCum_ub (w_hs v) zeroCum) as (e & EA); [cbn; lia|].
  exists e, v. unfold simulate. rewrite bindGet. rewrite (bindOk _ _ w hd w); [|unfold hd; destruct (isYear c); [reflexivity|]; rewrite (bindOk _ _ _ _ _ (written_ok _ _ w EH)); reflexivity].
  rewrite <- HL. cbn [length seq foldM].
  assert (EB : body fuel c 0 (mkloop zeroCum 0 [hd] []) w = (UB e, v)).
  { unfold body. rewrite (bindOk _ _ _ _ _ E1). unfold output. rewrite bindGet. replace (isShort c) with false by (symmetry; unfold isShort; apply Z.ltb_ge; auto).
    replace (lp_cum (if bad then mkloop (lp_cum (mkloop zeroCum 0 [hd] [])) (lp_sub (mkloop zeroCum 0 [hd] [])) (lp_lines (mkloop zeroCum 0 [hd] [])) (lp_bad (mkloop zeroCum 0 [hd] []) ++ [0%nat])%list else mkloop zeroCum 0 [hd] []))
      with (zeroCum (T:=R)) by (destruct bad; reflexivity).
    unfold bind at 1, lift. rewrite EA. reflexivity. }
  unfold bind. rewrite EB. reflexivity.
Qed.

(** ** Runs that cannot complete *)
Lemma minute_comp fuel c i (w w' : hpwh R) a : minute fuel c i w = (Ok a, w') -> (0 <= w_compIx w)%Z.
Proof.
  intros E. destruct (Z_lt_dec (w_compIx w) 0) as [HC|HC]; [exfalso|lia].
  unfold minute in E. apply bind_inv in E. destruct E as (amb & w1 & E1 & E).
  assert (H1 : w1 = w) by (destruct (rc_air c); [injection E1; auto|unfold lift, at_ in E1; destruct (nth_error _ _); [injection E1; auto|discriminate]]). subst w1. clear E1.
  rewrite bindGets in E. apply bind_inv in E. destruct E as (dr & w1 & E1 & E).
  assert (H1 : w1 = w) by (unfold lift, at_ in E1; destruct (nth_error _ _); [injection E1; auto|discriminate]). subst w1. clear E1.
  rewrite bindGet in E. apply bind_inv in E. destruct E as ([] & w1 & E1 & E).
  assert (H1 : w_compIx w1 = w_compIx w).
  { destruct (rc_setpoint c) as [|sp sps]; [injection E1 as <-; auto|]. destruct (w_setFixed w); [injection E1 as <-; auto|].
    apply bind_inv in E1. destruct E1 as (x & w2 & E2 & E1). assert (H2 : w2 = w) by (unfold lift, at_ in E2; destruct (nth_error _ _); [injection E2; auto|discriminate]). subst w2.
    unfold setSetpoint in E1. cbn [tempToC] in E1. rewrite (bind_lift _ x) in E1 by reflexivity. unfold setSetpointC in E1. rewrite bindGet in E1.
    apply bind_inv in E1. destruct E1 as ([[] m] & w4 & E3 & E4); [|discriminate]. assert (H4 : w4 = w) by (unfold lift in E3; destruct (setpointPossible x w); [injection E3; auto|discriminate|discriminate|discriminate]). subst w4.
    injection E4 as <-. destruct w; reflexivity. }
  clear E1. apply bind_inv in E. destruct E as ([] & w2 & E1 & E).
  assert (H2 : w_compIx w2 = w_compIx w).
  { destruct (rc_useSoC c); [|injection E1 as <-; auto]. apply bind_inv in E1. destruct E1 as (x & w3 & E2 & E1).
    assert (H3 : w3 = w1) by (unfold lift, at_ in E2; destruct (nth_error _ _); [injection E2; auto|discriminate]). subst w3.
    unfold setTargetSoCFraction in E1. rewrite bindGet in E1. destruct (negb (w_usesSoC w1)); [discriminate|]. destruct (nltb x _); [discriminate|]. injection E1 as <-. rewrite <- H1. destruct w1; reflexivity. }
  clear E1 H1 w1. apply bind_inv in E. destruct E as (inl & w1 & E1 & E).
  assert (H1 : w1 = w2) by (unfold lift, at_ in E1; destruct (nth_error _ _); [injection E1; auto|discriminate]). subst w1. clear E1.
  apply bind_inv in E. destruct E as (g & w1 & E1 & E).
  assert (H1 : w1 = w2) by (unfold lift, at_ in E1; destruct (nth_error _ _); [injection E1; auto|discriminate]). subst w1. clear E1.
  rewrite bindGet in E. apply bind_inv in E. destruct E as (g' & w1 & E1 & E).
  assert (H1 : w1 = w2) by (unfold lift in E1; destruct (mixDown _ _ _ _); [injection E1; auto|discriminate|discriminate|discriminate]). subst w1. clear E1.
  apply bind_inv in E. destruct E as (ext & w1 & E1 & E).
  assert (H1 : w1 = w2) by (unfold lift, at_ in E1; destruct (nth_error _ _); [injection E1; auto|discriminate]). subst w1. clear E1.
  cbv zeta in E. apply bind_inv in E. destruct E as ([] & w1 & E1 & E). unfold runOneStepInlet in E1. rewrite (bindOk _ _ w2 tt (setInletT inl w2)) in E1 by reflexivity.
  pose proof (step_cfg _ _ _ _ E1) as HF. unfold cfg in HF. assert (H1 : w_compIx w1 = w_compIx (setInletT inl w2)) by (injection HF; auto).
  replace (w_compIx (setInletT inl w2)) with (w_compIx w2) in H1 by (destruct w2; reflexivity). clear HF E1.
  rewrite bindGet in E. destruct (negb _); [discriminate|]. apply bind_inv in E. destruct E as ([] & w3 & _ & E).
  apply bind_inv in E. destruct E as (mp & w4 & E1 & E). unfold lift, isExternalMultipass, hasCompressor in E1.
  replace (0 <=? w_compIx w1)%Z with false in E1 by (symmetry; apply Z.leb_gt; lia). discriminate.
Qed.

Lemma C97_no_compressor_fact : forall fuel c (w w' : hpwh R) s, (0 < rc_minutes c)%Z -> simulate fuel c w = (Ok s, w') -> (0 <= w_compIx w)%Z.
Proof.
  intros fuel c w w' s HM E. unfold simulate in E. rewrite bindGet in E. apply bind_inv in E. destruct E as (l0 & w1 & E1 & E).
  assert (H1 : w1 = w).
  { destruct (isYear c); [injection E1; auto|]. apply bind_inv in E1. destruct E1 as (l & w2 & E2 & E1). injection E1 as _ <-. unfold written in E2. destruct (csvHeading 0 w []) as [[| | |] ?]; [injection E2; auto|discriminate|discriminate|discriminate]. }
  subst w1. destruct (Z.to_nat (rc_minutes c)) as [|n] eqn:EN; [lia|]. cbn [seq foldM] in E. apply bind_inv in E. destruct E as (s1 & w1 & E2 & _).
  unfold body in E2. apply bind_inv in E2. destruct E2 as (q & w2 & E2 & _). eapply minute_comp; eauto.
Qed.
Lemma C97_no_soc_schedule_fact : forall fuel c (w w' : hpwh R) s, (0 < rc_minutes c)%Z -> rc_useSoC c = true -> simulate fuel c w = (Ok s, w') -> (Z.to_nat (rc_minutes c) <= length (rc_soc c))%nat.
Proof.
  intros fuel c w w' s HM HU E. unfold simulate in E. rewrite bindGet in E. apply bind_inv in E. destruct E as (l0 & w1 & _ & E).
  destruct (le_dec (Z.to_nat (rc_minutes c)) (length (rc_soc c))) as [|HL]; auto. exfalso. assert (HK : (length (rc_soc c) < Z.to_nat (rc_minutes c))%nat) by lia. clear HL.
  assert (HF : forall i v x v', minute fuel c i v = (Ok x, v') -> (i < length (rc_soc c))%nat).
  { intros i v x v' EM. unfold minute in EM. apply bind_inv in EM. destruct EM as (? & ? & _ & EM). rewrite bindGets in EM. apply bind_inv in EM. destruct EM as (? & ? & _ & EM).
    rewrite bindGet in EM. apply bind_inv in EM. destruct EM as (? & ? & _ & EM). rewrite HU in EM. apply bind_inv in EM. destruct EM as (? & ? & EM & _).
    apply bind_inv in EM. destruct EM as (? & ? & EM & _). unfold lift, at_ in EM. destruct (nth_error (rc_soc c) i) eqn:EN; [|discriminate]. apply nth_error_Some. congruence. }
  assert (HG : forall n i st v st' v', foldM (seq i n) (body fuel c) st v = (Ok st', v') -> (i + n <= length (rc_soc c) \/ n = 0)%nat).
  { induction n as [|n IH]; intros i st v st' v' EF; [auto|]. cbn [seq foldM] in EF. apply bind_inv in EF. destruct EF as (s1 & v1 & E2 & EF).
    unfold body in E2. apply bind_inv in E2. destruct E2 as (q & w2 & E2 & _). apply HF in E2. destruct (IH _ _ _ _ _ EF); lia. }
  destruct (HG _ _ _ _ _ _ E); lia.
Qed.

(** ** C99: settings *)
Lemma C99_command_fact : forall fuel itp large air meas n f0 f1 f2 f3 f4 s0 s1 s2 s3 s4 D rows (w : hpwh R), air <= 0 -> (0 < n < 500000)%Z ->
  readSchedule f0 (Z.to_nat n) = Ok (true, s0) -> readSchedule f1 (Z.to_nat n) = Ok (true, s1) -> readSchedule f2 (Z.to_nat n) = Ok (true, s2) ->
  readSchedule f3 (Z.to_nat n) = Ok (true, s3) -> readSchedule f4 (Z.to_nat n) = Ok (true, s4) ->
  length rows = Z.to_nat n -> (forall i r, nth_error rows i = Some r -> schedAt (mkconf n s0 s1 s2 s3 s4 [] [] false None large) i r) ->
  cmdReady fuel D rows w ->
  exists cols cells s w1 w', runCmd fuel itp large air meas [ILength n] f0 f1 f2 f3 f4 None None w = (Ok s, w') /\ lp_lines s = LHead cols :: map LRow cells /\
    NoDup cols /\ w_tank w1 = w_tank w /\ w_hs w1 = w_hs w /\ w_setpoint w1 = w_setpoint w /\ tableOf fuel cols 0 w1 rows cells w'.
Proof.
  intros fuel itp large air meas n f0 f1 f2 f3 f4 s0 s1 s2 s3 s4 D rows w HA HN R0 R1 R2 R3 R4 HL HS HR.
  set (w1 := set_w_doDepress false (set_w_maxDep 4 w)).
  assert (HR1 : cmdReady fuel D rows w1).
  { destruct HR as [A0 A1 A2 A3 A4 AE A5 A6 A7]. assert (Q : forall q, In q rows -> unitReadyX True (r_ext q) D w1) by (intros q HQ; destruct (A4 q HQ) as (_ & [B1 B2 B3 B4 B5] & _); constructor; auto).
    assert (Q' : forall q, In q rows -> unitOK (r_ext q) D w1) by (intros q HQ; destruct (A4 q HQ) as ([B1 B2 B3 B4 B5] & _); constructor; auto).
    constructor; auto.
    - destruct A3 as [A3|(lo & hi & D1 & [U1 U2 U3 U4 U5 U6 U7 U8 U9 U10 U11 U12 U13] & D3 & D4)]; [left; auto|right]. exists lo, hi. split; [exact D1|]. split; [constructor; auto|]. split; [reflexivity|exact D4].
    - intros q HQ. destruct (A4 q HQ) as (_ & _ & B3 & B4). splits; auto.
    - eapply (extReady_frame fuel D _ _ w); [| | | | | |exact AE]; try reflexivity.
      + apply Forall2_refl'. intros h. apply hframe_refl.
      + intros lo ([U1 U2 U3 U4 U5 U6 U7 U8 U9 U10 U11 U12 U13] & D3 & D4). split; [constructor; auto|]. split; [reflexivity|exact D4]. }
  assert (HC : (w_compIx w1 < Z.of_nat (length (w_hs w1)))%Z).
  { destruct rows as [|r rows]; [cbn [length] in HL; lia|]. destruct (cr_rows _ _ _ _ HR1 r (or_introl eq_refl)) as (_ & HD & _). apply (rd_comp HD). }
  destruct (mp_of w1 (cr_comp _ _ _ _ HR1) HC) as (hc & _ & EM).
  edestruct (C97_minutes_fact fuel (mkconf n s0 s1 s2 s3 s4 [] [] false None large) D rows w1) as (cols & cells & s & w' & E & HLn & HNd & _ & HT); [| |exact HL|exact HS|exact HR1|exact EM|].
  { split; [reflexivity|]. split; [reflexivity|]. split; [reflexivity|]. right. cbn [rc_minutes]. lia. }
  { cbn [rc_minutes]. lia. }
  exists cols, cells, s, w1, w'. splits; auto. rewrite <- E. unfold runCmd. cbv zeta. cbn [fold_left addInfo settings0 se_minutes se_mix se_cond se_inletH se_size se_tot se_soc].
  rewrite (bindOk _ _ w tt (set_w_maxDep 4 w)) by reflexivity.
  num_simpl. replace (Rltb 0 air) with false by (symmetry; apply Rltb_false; lra).
  rewrite (bindOk _ _ _ tt w1) by reflexivity.
  replace (n =? 0)%Z with false by (symmetry; apply Z.eqb_neq; lia). replace (n <? 0)%Z with false by (symmetry; apply Z.ltb_ge; lia).
  assert (HNeed : forall f l, readSchedule f (Z.to_nat n) = Ok (true, l) -> needSchedule f (Z.to_nat n) w1 = (Ok l, w1)) by (intros f l EF; unfold needSchedule; rewrite EF; reflexivity).
  rewrite (bindOk _ _ _ _ _ (HNeed _ _ R0)), (bindOk _ _ _ _ _ (HNeed _ _ R1)), (bindOk _ _ _ _ _ (HNeed _ _ R2)), (bindOk _ _ _ _ _ (HNeed _ _ R3)), (bindOk _ _ _ _ _ (HNeed _ _ R4)).
  do 2 (rewrite (bindOk _ _ w1 (@nil R) w1) by reflexivity). rewrite !bindRet.
  assert (EI : initialState itp meas (mkset 0 n true true 0 0 0 false None) [] w1 = (Ok tt, w1)).
  { unfold initialState. cbn [se_setpoint]. num_simpl. replace (Rltb 0 0) with false by (symmetry; apply Rltb_false; lra). reflexivity. }
  rewrite (bindOk _ _ _ _ _ EI). replace (Rltb 0 0) with false by (symmetry; apply Rltb_false; lra). rewrite !bindRet. reflexivity.
Qed.

Lemma C99_measured_fact : forall file (w : hpwh R), (exists e, setTankFromMeasured file w = (Err e, w)) /\
  forall fuel itp large air infos f0 f1 f2 f3 f4 f5 f6 s w',
    0 < se_setpoint (fold_left addInfo infos settings0) -> se_init (fold_left addInfo infos settings0) = None ->
    runCmd fuel itp large air (Some file) infos f0 f1 f2 f3 f4 f5 f6 w <> (Ok s, w').
Proof.
  intros file w. assert (HF : forall v : hpwh R, exists e, setTankFromMeasured file v = (Err e, v)).
  { intros v. destruct file as [ls|]; [|eexists; reflexivity]. unfold setTankFromMeasured.
    assert (HG : forall l : list measLine, let m := forM l (fun l0 => forM (seq 0 (ml_fields l0)) (fun _ : nat => if ml_match l0 then throw "stoi"%string else ret tt)) v in
       m = (Ok tt, v) \/ exists e, m = (Err e, v)).
    { assert (HK : forall (b : bool) (l : list nat), forM l (fun _ : nat => if b then throw "stoi"%string else ret tt) v = (Ok tt, v) \/ exists e, forM l (fun _ : nat => if b then throw "stoi"%string else ret tt) v = (Err e, v)).
      { intros b l. destruct b; [destruct l; [left; reflexivity|right; eexists; reflexivity]|left]. induction l as [|k l IH]; [reflexivity|exact IH]. }
      induction l as [|x l IH]; [left; reflexivity|]. cbv zeta in *. cbn [forM]. unfold bind. destruct (HK (ml_match x) (seq 0 (ml_fields x))) as [->|(e & ->)]; [exact IH|right; eexists; reflexivity]. }
    unfold bind. destruct (HG ls) as [->|(e & ->)]; [|eexists; reflexivity]. unfold onTank, setNodeTs, throw. cbn. eexists. f_equal. destruct v; reflexivity. }
  split; [apply HF|]. intros fuel itp large air infos f0 f1 f2 f3 f4 f5 f6 s w' HS HI E. unfold runCmd in E. cbv zeta in E. set (se := fold_left addInfo infos settings0) in *.
  apply bind_inv in E. destruct E as (? & ? & _ & E). apply bind_inv in E. destruct E as (? & ? & _ & E).
  destruct (se_minutes se =? 0)%Z; [discriminate|]. destruct (se_minutes se <? 0)%Z; [discriminate|].
  do 5 (apply bind_inv in E; destruct E as (? & ? & _ & E)). apply bind_inv in E. destruct E as (sps & ? & _ & E). apply bind_inv in E. destruct E as (? & ? & _ & E).
  do 2 (apply bind_inv in E; destruct E as (? & ? & _ & E)). apply bind_inv in E. destruct E as ([] & v2 & E1 & _).
  unfold initialState in E1. num_simpl. rewrite HI in E1. replace (Rltb 0 (se_setpoint se)) with true in E1 by (symmetry; apply Rltb_true; auto).
  apply bind_inv in E1. destruct E1 as ([] & v3 & _ & E1). destruct (HF v3) as (e & E3). rewrite E3 in E1. discriminate.
Qed.

(** Without a positive setpoint in the settings, initial temperatures and the file of measured ones are ignored. *)
Definition notInitial (x : info R) : bool := match x with IInitial _ => false | _ => true end.
Lemma C99_start_ignored_fact : forall fuel itp large air meas infos f0 f1 f2 f3 f4 f5 f6 (w : hpwh R), se_setpoint (fold_left addInfo infos settings0) <= 0 ->
  runCmd fuel itp large air meas infos f0 f1 f2 f3 f4 f5 f6 w = runCmd fuel itp large air None (filter notInitial infos) f0 f1 f2 f3 f4 f5 f6 w.
Proof.
  intros fuel itp large air meas infos f0 f1 f2 f3 f4 f5 f6 w HS.
  set (noInit := fun s : settings => mkset (se_setpoint s) (se_minutes s) (se_mix s) (se_cond s) (se_inletH s) (se_size s) (se_tot s) (se_soc s) (@None (list R))).
  assert (HE : forall l s, fold_left addInfo (filter notInitial l) (noInit s) = noInit (fold_left addInfo l s)).
  { induction l as [|x l IH]; intros s; [reflexivity|]. cbn [fold_left]. destruct s as [a b m k h z t q i]. destruct x; cbn [filter notInitial fold_left]; rewrite <- IH; reflexivity. }
  specialize (HE infos settings0). change (noInit settings0) with (settings0 (T:=R)) in HE. unfold runCmd. cbv zeta. rewrite HE.
  set (se := fold_left addInfo infos settings0) in *. clearbody se. clear HE. destruct se as [a b m k h z t q i]. unfold noInit.
  cbn [se_setpoint se_minutes se_mix se_cond se_inletH se_size se_tot se_soc se_init] in *. clear noInit.
  unfold initialState. cbn [se_setpoint]. num_simpl. replace (Rltb 0 a) with false by (symmetry; apply Rltb_false; lra). reflexivity.
Qed.

Lemma C99_air_fact : forall fuel c i a (w : hpwh R), rc_air c = Some a ->
  minute fuel c i w = minute fuel (mkconf (rc_minutes c) (rc_inlet c) (rc_draw c) (repeat ((a - 32) * 5 / 9) (S i)) (rc_ext c) (rc_dr c) (rc_setpoint c) (rc_soc c) (rc_useSoC c) None (rc_large c)) i w.
Proof.
  intros fuel c i a w HA. unfold minute. cbn [rc_minutes rc_inlet rc_draw rc_amb rc_ext rc_dr rc_setpoint rc_soc rc_useSoC rc_air rc_large]. rewrite HA.
  rewrite bindRet. assert (EA : at_ (repeat ((a - 32) * 5 / 9) (S i)) i = Ok (F_TO_C a)).
  { apply at_some. rewrite (nth_error_nth' _ 0) by (rewrite repeat_length; lia). f_equal. rewrite (nth_indep _ 0 ((a - 32) * 5 / 9)) by (rewrite repeat_length; lia). rewrite nth_repeat. unfold F_TO_C, offsetF, FperC. num_simpl. unfold dec. num_simpl. field. }
  rewrite (bind_lift _ _ _ _ EA). reflexivity.
Qed.

(** ** Units that can be run *)
Lemma gen_cmdReady jt jb jc vol EF resUse (w w' : hpwh R) fuel rows : initGeneric jt jb jc vol EF resUse w = (Ok tt, w') -> 1 <= vol -> (144 < fuel)%nat ->
  (forall r, In r rows -> 0 <= r_draw r /\ r_draw r * 12 / vol <= INR fuel /\ 65 / 9 <= r_ext r <= 440 / 9 /\ 0 <= r_amb r <= 60 /\ 0 <= r_inletT r <= 60) ->
  cmdReady fuel inWater rows w'.
Proof.
  intros E HV F1 F2. destruct (gen_inv _ _ _ _ _ _ _ _ E) as (HV0 & HE). destruct (gen_ok jt jb jc vol EF resUse w HV0 HE) as (v & HF & E'). rewrite E' in E. inversion E; subst w'. clear E E'.
  assert (Hf : genericFudge EF <> 0) by (rewrite fudge_form; intros HX; lra).
  destruct (gen_acceptable _ _ _ _ _ _ _ HF) as (_ & HCI).
  pose proof (fresh_derived _ _ _ _ HF) as HD. pose proof (fun air HA => gen_ready air _ _ _ _ _ _ _ Hf HV0 HA HF) as HK.
  assert (HS : w_tank (calcDerivedValues v) = calcSizeConstants (w_tank (calcDerivedValues v))) by (rewrite (fresh_sized _ _ _ _ HF), size_idem; reflexivity).
  destruct (HK 20 ltac:(lra)) as (_ & _ & HM). generalize dependent (calcDerivedValues v). intros w' HCI HD HK HS HM. generalize dependent (map (deriveHS 12) (genSources jt jb jc resUse (scaledMap (genericFudge EF)))). intros hs HD.
  rewrite (fu_hs _ _ _ _ HD) in HM.
  assert (HC : calmUnit 0 60 w') by (eapply fresh_calm; eauto; [split; [apply UA_pos|apply UA_small; auto]|lra]).
  assert (HN : length (t_Ts (w_tank w')) = 12%nat) by (rewrite (fu_Ts _ _ _ _ HD); reflexivity).
  destruct (C37_size_constants_fact (w_tank w')) as (_ & _ & _ & _ & S1 & _); [rewrite (fu_vol _ _ _ _ HD); lra|rewrite (fu_Ts _ _ _ _ HD); discriminate|]. rewrite <- HS, HN, (fu_vol _ _ _ _ HD) in S1.
  replace (INR 12) with 12 in S1 by (cbn; lra).
  destruct (fu_step _ _ _ _ HD) as (T1 & T2 & T3). destruct (fu_dep _ _ _ _ HD) as (D1 & _). destruct (fu_draw _ _ _ _ HD) as (_ & M1).
  constructor.
  - rewrite HCI. lia.
  - exact D1.
  - exact T1.
  - right. exists 0, 60. unfold calmRun. splits; auto. intros r HI. destruct (F2 r HI) as (_ & _ & _ & ? & ?); auto.
  - intros r HI. destruct (F2 r HI) as (G1 & G2 & G3 & _). destruct (HK _ G3) as (K1 & K2 & _). splits; auto; [apply unitReady_weaken; auto|].
    replace (t_nodeVol (w_tank w')) with (vol / 12) by lra. replace (r_draw r / (vol / 12)) with (r_draw r * 12 / vol) by (field; lra). auto.
  - destruct (HK 20 ltac:(lra)) as (K2 & _). eapply extReady_none. exact K2.
  - rewrite M1. lra.
  - intros _. eapply conduction_stable; eauto.
  - rewrite HN. lia.
Qed.

Lemma C99_generic_fact : forall jt jb jc vol EF resUse (w w' : hpwh R), initGeneric jt jb jc vol EF resUse w = (Ok tt, w') -> 1 <= vol ->
  forall fuel itp large air meas n f0 f1 f2 f3 f4 s0 s1 s2 s3 s4 rows, air <= 0 -> (0 < n < 500000)%Z -> (144 < fuel)%nat ->
  readSchedule f0 (Z.to_nat n) = Ok (true, s0) -> readSchedule f1 (Z.to_nat n) = Ok (true, s1) -> readSchedule f2 (Z.to_nat n) = Ok (true, s2) ->
  readSchedule f3 (Z.to_nat n) = Ok (true, s3) -> readSchedule f4 (Z.to_nat n) = Ok (true, s4) ->
  length rows = Z.to_nat n -> (forall i r, nth_error rows i = Some r -> schedAt (mkconf n s0 s1 s2 s3 s4 [] [] false None large) i r) ->
  (forall r, In r rows -> 0 <= r_draw r /\ r_draw r * 12 / vol <= INR fuel /\ 65 / 9 <= r_ext r <= 440 / 9 /\ 0 <= r_amb r <= 60 /\ 0 <= r_inletT r <= 60) ->
  exists cols cells s w1 w2, runCmd fuel itp large air meas [ILength n] f0 f1 f2 f3 f4 None None w' = (Ok s, w2) /\ lp_lines s = LHead cols :: map LRow cells /\
    w_tank w1 = w_tank w' /\ w_hs w1 = w_hs w' /\ tableOf fuel cols 0 w1 rows cells w2.
Proof.
  intros jt jb jc vol EF resUse w w' E HV fuel itp large air meas n f0 f1 f2 f3 f4 s0 s1 s2 s3 s4 rows HA HN HF R0 R1 R2 R3 R4 HL HS HR.
  destruct (C99_command_fact fuel itp large air meas n f0 f1 f2 f3 f4 s0 s1 s2 s3 s4 inWater rows w') as (cols & cells & s & w1 & w2 & E2 & L2 & _ & T1 & T2 & _ & HT); auto.
  { eapply gen_cmdReady; eauto. }
  exists cols, cells, s, w1, w2. splits; auto.
Qed.

Lemma exUnit_cmdReady rows : (forall r, In r rows -> -100 < r_ext r /\ 0 <= r_draw r <= 8) -> cmdReady 100 (fun _ => True) rows (exUnit (T:=R) [20; 30; 45; 50]).
Proof.
  intros HR. constructor.
  - cbn. lia.
  - reflexivity.
  - cbn. num_simpl. reflexivity.
  - left. auto.
  - intros r Hr. destruct (HR r Hr) as [HA HB]. splits; try lra; [apply exUnit_ok; reflexivity|apply unitReady_weaken, exUnit_ready; auto|].
    cbn [w_tank exUnit exTankG t_nodeVol length]. unfold nofN. num_simpl. cbn. lra.
  - eapply extReady_none. apply (exUnit_ready 20). lra.
  - cbn. num_simpl. lra.
  - intros _. cbn [w_tank exUnit exTankG]. unfold condTau. cbn. num_simpl. unfold dec, KWATER, DENSITYWATER, CPWATER. num_simpl. unfold dec. num_simpl. lra.
  - cbn. lia.
Qed.
Lemma exUnit_mp : exists mp, isExternalMultipass (exUnit (T:=R) [20; 30; 45; 50]) = Ok mp.
Proof. eexists. reflexivity. Qed.
(** constant schedules of [n] minutes *)
Definition exConf (n : Z) : runConf R := let k := Z.to_nat n in mkconf n (repeat 10 k) (repeat 1 k) (repeat 20 k) (repeat 15 k) (repeat 0 k) [] [] false None false.
Definition exRow1 : rowIn (T:=R) := mkrow 10 (1 * gallon) 20 15 (ntrunc (Num:=RNum) 0).
Lemma repeat_at {A} (x : A) n i y : nth_error (repeat x n) i = Some y -> (i < n)%nat /\ y = x.
Proof. intros E. split; [|eapply repeat_spec; eapply nth_error_In; eauto]. assert (nth_error (repeat x n) i <> None) by congruence. apply nth_error_Some in H. rewrite repeat_length in H. auto. Qed.
Lemma repeat_nth {A} (x : A) n i : (i < n)%nat -> nth_error (repeat x n) i = Some x.
Proof. intros H. rewrite (nth_error_nth' _ x) by (rewrite repeat_length; auto). rewrite nth_repeat. reflexivity. Qed.
Lemma exConf_at n i r : nth_error (repeat exRow1 (Z.to_nat n)) i = Some r -> schedAt (exConf n) i r.
Proof.
  intros E. apply repeat_at in E. destruct E as [HI ->]. unfold schedAt, exConf. cbn [rc_inlet rc_draw rc_amb rc_ext rc_dr].
  splits; try (apply repeat_nth; auto); eexists; (split; [apply repeat_nth; auto|reflexivity]).
Qed.
Lemma exConf_ready n : cmdReady 100 (fun _ => True) (repeat exRow1 (Z.to_nat n)) (exUnit (T:=R) [20; 30; 45; 50]).
Proof.
  apply exUnit_cmdReady. intros r HR. apply repeat_spec in HR. subst r. cbn [exRow1 r_ext r_draw]. unfold gallon, L_per_gal, dec. num_simpl. lra.
Qed.
Lemma C97_example_fact : exists cells cols s w', simulate 100 (exConf 1440) (exUnit (T:=R) [20; 30; 45; 50]) = (Ok s, w') /\ lp_lines s = LHead cols :: map LRow cells /\
  tableOf 100 cols 0 (exUnit (T:=R) [20; 30; 45; 50]) (repeat exRow1 (Z.to_nat 1440)) cells w'.
Proof.
  destruct exUnit_mp as (mp & EM).
  destruct (C97_minutes_fact 100 (exConf 1440) (fun _ => True) (repeat exRow1 (Z.to_nat 1440)) (exUnit (T:=R) [20; 30; 45; 50]) mp) as (cols & cells & s & w' & E & L & _ & _ & T);
    [split; [reflexivity|]; split; [reflexivity|]; split; [reflexivity|]; left; reflexivity|unfold exConf; cbn [rc_minutes]; lia|apply repeat_length|apply exConf_at|apply exConf_ready|exact EM|].
  exists cells, cols, s, w'. auto.
Qed.
Lemma C98_example_fact : exists hd ls s w', simulate 100 (exConf 525600) (exUnit (T:=R) [20; 30; 45; 50]) = (Ok s, w') /\ lp_lines s = hd :: ls /\ length ls = 365%nat.
Proof.
  destruct exUnit_mp as (mp & EM).
  destruct (C98_days_fact 100 (exConf 525600) (fun _ => True) (repeat exRow1 (Z.to_nat 525600)) (exUnit (T:=R) [20; 30; 45; 50]) mp) as (hd & ls & ws & s & w' & E & L & _ & _ & HC & _);
    [split; [reflexivity|]; split; [reflexivity|]; split; [reflexivity|]; left; reflexivity|unfold exConf; cbn [rc_minutes]; lia|apply repeat_length|apply exConf_at|apply exConf_ready|exact EM|cbn; lia|].
  exists hd, ls, s, w'. splits; auto. unfold exConf in HC. cbn [rc_minutes] in HC. change (525600 / 1440)%Z with 365%Z in HC. lia.
Qed.
Lemma C99_example_fact : forall jt jb jc itp (w : hpwh R), exists w' s w2, initGeneric jt jb jc 190 2 10 w = (Ok tt, w') /\
  (let f v := Some (mksched (Some v) None []) in runCmd 145 itp false (-1000) None [ILength 1440] (f 10) (f 1) (f 20) (f 15) (f 0) None None w' = (Ok s, w2)) /\ length (lp_lines s) = 1441%nat.
Proof.
  intros jt jb jc itp w. destruct (proj1 (proj1 (C94_accepts_fact jt jb jc 190 2 10 w))) as (w' & E); [lra|].
  destruct (C99_generic_fact jt jb jc 190 2 10 w w' E ltac:(lra) 145%nat itp false (-1000) None 1440%Z (Some (mksched (Some 10) None [])) (Some (mksched (Some 1) None [])) (Some (mksched (Some 20) None [])) (Some (mksched (Some 15) None [])) (Some (mksched (Some 0) None []))
     (repeat 10 (Z.to_nat 1440)) (repeat 1 (Z.to_nat 1440)) (repeat 20 (Z.to_nat 1440)) (repeat 15 (Z.to_nat 1440)) (repeat 0 (Z.to_nat 1440)) (repeat exRow1 (Z.to_nat 1440)))
    as (cols & cells & s & w1 & w2 & E2 & L & _ & _ & T); try reflexivity; try lra; try lia.
  - apply exConf_at.
  - intros r HI. apply repeat_spec in HI. subst r. cbn [exRow1 r_draw r_ext r_amb r_inletT]. assert (HG : gallon = 378541 / 100000) by (unfold gallon, L_per_gal, dec; num_simpl; reflexivity).
    rewrite HG. rewrite INR_IZR_INZ. change (Z.of_nat 145) with 145%Z. lra.
  - exists w', s, w2. splits; auto. rewrite L. cbn [length]. rewrite map_length. f_equal.
    assert (HT : forall i v rows cl v', tableOf 145 cols i v rows cl v' -> length cl = length rows) by (induction 1; cbn; auto).
    rewrite (HT _ _ _ _ _ T), repeat_length. reflexivity.
Qed.
