(** Proofs of the theorems stated in PropsSetters.v: Properties of setters, unit conversions, geometry and capacity queries *)

From Coq Require Import ZArith String List Bool Reals Lra Lia Permutation Floats.
From Verif Require Import Num FNum Base Units Utils Types TankM Logic HeatSrc Step Setters Spec SpecState SpecDist.
From Verif Require Import RList FrameProofs SimFrame MixProofs TankProofs DrawProofs DistProofs TankFacts StepEnergy ControlProofs SeqProofs ControlFacts Example.
Import ListNotations.
Local Open Scope R_scope.
(** ** C31 *)
(** the value in Celsius that a temperature argument stands for, if its units are accepted *)
Definition celsius (x : R) (u : units) : option R :=
  match u with U_C => Some x | U_F => Some ((x - 32) * 5 / 9) | _ => None end.
Lemma tempToC_celsius x u : tempToC x u = match celsius x u with Some c => Ok c | None => badUnits end.
Proof. destruct u; cbn [tempToC celsius]; auto. f_equal. unfold F_TO_C, FperC, offsetF. num_simpl. field. Qed.
Lemma tempFromC_celsius x u c : celsius x u = Some c -> tempFromC c u = Ok x.
Proof. destruct u; cbn [tempFromC celsius]; intros E; inversion E; auto. f_equal. unfold C_TO_F, FperC, offsetF. num_simpl. field. Qed.
Lemma setSetpointC_cases v (w : hpwh R) : (exists mx, setpointPossible v w = Ok (true, mx) /\ setSetpointC v w = (Ok tt, set_w_setpoint v w)) \/
  ((forall mx, setpointPossible v w <> Ok (true, mx)) /\ (forall r, fst (setSetpointC v w) <> Ok r) /\ snd (setSetpointC v w) = w).
Proof.
  unfold setSetpointC, bind, get, lift. destruct (setpointPossible v w) as [[[|] mx]| | |] eqn:E.
  - left. eauto.
  - right. splits; auto; discriminate.
  - right. splits; auto; discriminate.
  - right. splits; auto; discriminate.
  - right. splits; auto; discriminate.
Qed.
Lemma C31_all_or_nothing_fact : forall new u (w : hpwh R),
  (exists c, celsius new u = Some c /\ setSetpoint new u w = (Ok tt, set_w_setpoint c w)) \/
  ((forall r, fst (setSetpoint new u w) <> Ok r) /\ snd (setSetpoint new u w) = w).
Proof.
  intros new u w. unfold setSetpoint, bind at 1, lift at 1. rewrite tempToC_celsius. destruct (celsius new u) as [c|].
  - destruct (setSetpointC_cases c w) as [(mx & _ & E)|(_ & H1 & H2)]; [left; eauto|right; auto].
  - right. split; auto. discriminate.
Qed.
Lemma C31_when_fact : forall new u (w : hpwh R),
  (exists w', setSetpoint new u w = (Ok tt, w')) <-> (exists mx, isNewSetpointPossible new u w = Ok (true, mx)).
Proof.
  intros new u w. unfold setSetpoint, bind at 1, lift at 1, isNewSetpointPossible. rewrite tempToC_celsius.
  destruct (celsius new u) as [c|] eqn:EC.
  - cbn [obind]. assert (HF : forall mx : R, exists mx', tempFromC mx u = Ok mx') by (intros mx; destruct u; inversion EC; cbn [tempFromC]; eauto).
    destruct (setSetpointC_cases c w) as [(mx & E1 & E2)|(N & H1 & _)].
    + rewrite E1, E2. cbn [obind]. destruct (HF mx) as (mx' & ->). cbn [obind]. split; eauto.
    + split; [intros (w' & E); exfalso; apply (H1 tt); rewrite E; auto|]. intros (mx & E).
      destruct (setpointPossible c w) as [[b mx0]| | |]; cbn [obind] in E; try discriminate.
      destruct (HF mx0) as (mx' & Em). rewrite Em in E. cbn [obind] in E. inversion E; subst b. destruct (N mx0); auto.
  - cbn [obind]. split; [intros (w' & E); discriminate|intros (mx & E); discriminate].
Qed.
Lemma C31_read_back_fact : forall new u (w w' : hpwh R), setSetpoint new u w = (Ok tt, w') -> getSetpoint u w' = Ok new.
Proof.
  intros new u w w' E. destruct (C31_all_or_nothing_fact new u w) as [(c & EC & E2)|(H1 & _)].
  - rewrite E in E2. inversion E2; subst w'. unfold getSetpoint. wsimpl. apply tempFromC_celsius; auto.
  - exfalso. apply (H1 tt). rewrite E. auto.
Qed.
Lemma C31_example_fact : exists w', setSetpoint 122 U_F (exUnit (T:=R) [20; 20; 20; 20]) = (Ok tt, w') /\ w_setpoint w' = 50.
Proof.
  destruct (C31_all_or_nothing_fact 122 U_F (exUnit (T:=R) [20; 20; 20; 20])) as [(c & EC & E)|(H1 & _)].
  - eexists. split; [exact E|]. wsimpl. inversion EC. lra.
  - exfalso. assert (HW : exists w', setSetpoint 122 U_F (exUnit (T:=R) [20; 20; 20; 20]) = (Ok tt, w')).
    { apply C31_when_fact. unfold isNewSetpointPossible. cbn [tempToC obind]. unfold setpointPossible. cbn. change (Pos.to_nat 2) with 2%nat. cbn [nth_error exSources obind]. eexists.
      repeat f_equal. apply negb_true_iff. apply Rltb_false. unfold F_TO_C, FperC, offsetF, tolT. num_simpl. unfold dec. num_simpl. lra. }
    destruct HW as (w' & E). apply (H1 tt). rewrite E. auto.
Qed.

(** ** C32 *)
Definition usable (w : hpwh R) : Prop := (0 <= w_compIx w < Z.of_nat (length (w_hs w)))%Z \/ (w_compIx w = -1)%Z.
Lemma C32_maximum_is_accepted_fact : forall new u (w : hpwh R) mx x, w_setFixed w = false ->
  (-1 <= w_lowIx w)%Z -> ((0 <= w_compIx w)%Z \/ (0 <= w_lowIx w)%Z) ->
  isNewSetpointPossible new u w = Ok (false, mx) -> x <= mx -> isNewSetpointPossible x u w = Ok (true, mx).
Proof.
  intros new u w mx x HF HL HX. unfold isNewSetpointPossible. rewrite !tempToC_celsius.
  assert (HM : forall (m c c0 : R), u = U_C \/ u = U_F -> celsius x u = Some c -> tempFromC m u = Ok mx -> x <= mx -> c <= m).
  { intros m c _ [-> | ->]; cbn [celsius tempFromC]; intros E1 E2; inversion E1; inversion E2; [lra|].
    unfold C_TO_F, FperC, offsetF. num_simpl. lra. }
  assert (HC : forall c, celsius new u = Some c -> (u = U_C \/ u = U_F) /\ exists c', celsius x u = Some c').
  { intros c E. destruct u; inversion E; cbn; eauto. }
  destruct (celsius new u) as [c|] eqn:EC; [|discriminate]. destruct (HC _ eq_refl) as (HU & c' & EC'). rewrite EC'. cbn [obind].
  assert (HT : 0 <= (tolT : R)) by (unfold tolT, dec; num_simpl; lra).
  unfold setpointPossible. rewrite HF. destruct (hasCompressor w) eqn:EH.
  - destruct (nth_error (w_hs w) (Z.to_nat (w_compIx w))) as [h|]; cbn [obind]; [|discriminate].
    destruct (Z.leb_spec 0 (w_lowIx w)).
    + cbn [obind]. destruct (tempFromC (nofZ 100 : R) u) as [m| | |] eqn:EM; cbn [obind]; try discriminate. intros E Hx. inversion E; subst m. num_simpl.
      repeat f_equal. apply negb_true_iff, Rltb_false. pose proof (HM 100 c' c HU EC' EM Hx). lra.
    + replace (w_lowIx w) with (-1)%Z by lia. rewrite Z.eqb_refl. cbn [andb negb obind]. rewrite !andb_true_r.
      destruct (tempFromC (nsub (h_maxSet h) (h_shxHot h)) u) as [m| | |] eqn:EM; cbn [obind]; try discriminate.
      intros E Hx. inversion E; subst m. num_simpl. repeat f_equal. apply negb_true_iff, Rltb_false.
      pose proof (HM _ c' c HU EC' EM Hx). lra.
  - cbn [obind]. destruct HX as [HX|HX]; [unfold hasCompressor in EH; apply Z.leb_gt in EH; lia|].
    replace (0 <=? w_lowIx w)%Z with true by (symmetry; apply Z.leb_le; lia). cbn [obind].
    destruct (tempFromC (nofZ 100 : R) u) as [m| | |] eqn:EM; cbn [obind]; try discriminate. intros E Hx. inversion E; subst m. num_simpl.
    repeat f_equal. apply negb_true_iff, Rltb_false. pose proof (HM 100 c' c HU EC' EM Hx). lra.
Qed.
Lemma C32_accepted_range_fact : forall new (w : hpwh R), w_setFixed w = false -> (-1 <= w_lowIx w)%Z -> (-1 <= w_compIx w < Z.of_nat (length (w_hs w)))%Z ->
  ((0 <= w_lowIx w)%Z -> isNewSetpointPossible new U_C w = Ok (if Rle_dec new (100 + 1 / 1000000000) then true else false, 100)) /\
  (w_lowIx w = (-1)%Z -> forall h, nth_error (w_hs w) (Z.to_nat (w_compIx w)) = Some h -> (0 <= w_compIx w)%Z ->
     isNewSetpointPossible new U_C w = Ok (if Rle_dec new (h_maxSet h - h_shxHot h + 1 / 1000000000) then true else false, h_maxSet h - h_shxHot h)) /\
  (w_lowIx w = (-1)%Z -> w_compIx w = (-1)%Z -> exists mx, isNewSetpointPossible new U_C w = Ok (w_storage w, mx)).
Proof.
  intros new w HF HL HC. unfold isNewSetpointPossible. cbn [tempToC obind]. unfold setpointPossible. rewrite HF.
  assert (HT : (tolT : R) = 1 / 1000000000) by (unfold tolT, dec; num_simpl; lra).
  splits.
  - intros H0. replace (0 <=? w_lowIx w)%Z with true by (symmetry; apply Z.leb_le; lia).
    assert (HG : Ok (negb (nltb (nadd (nofZ 100) tolT) new), (nofZ 100 : R)) = Ok (if Rle_dec new (100 + 1 / 1000000000) then true else false, 100)).
    { num_simpl. rewrite HT. repeat f_equal. destruct (Rle_dec _ _); [apply negb_true_iff, Rltb_false; lra|apply negb_false_iff, Rltb_true; lra]. }
    unfold hasCompressor. destruct (Z.leb_spec 0 (w_compIx w)).
    + destruct (nth_error (w_hs w) (Z.to_nat (w_compIx w))) eqn:E; [|apply nth_error_None in E; lia]. cbn [obind tempFromC] in *. exact HG.
    + cbn [obind tempFromC] in *. exact HG.
  - intros H0 h Eh Hc. unfold hasCompressor. replace (0 <=? w_compIx w)%Z with true by (symmetry; apply Z.leb_le; lia). rewrite Eh, H0. cbn [obind Z.leb Z.eqb Z.compare Pos.compare Pos.compare_cont Pos.eqb andb negb tempFromC].
    num_simpl. rewrite HT, !andb_true_r. repeat f_equal. destruct (Rle_dec _ _); [apply negb_true_iff, Rltb_false; lra|apply negb_false_iff, Rltb_true; lra].
  - intros H0 H1. unfold hasCompressor. rewrite H0, H1. cbn [obind Z.leb Z.eqb Z.compare andb negb tempFromC Pos.eqb]. eexists. reflexivity.
Qed.
Lemma C32_no_source_refuted_fact : exists (w : hpwh R) mx, w_setFixed w = false /\ isNewSetpointPossible 50 U_C w = Ok (false, mx) /\ isNewSetpointPossible mx U_C w = Ok (false, mx).
Proof.
  exists (set_w_storage false (set_w_compIx (-1) (set_w_lowIx (-1) (set_w_vipIx (-1) (set_w_hs [] (exUnit (T:=R) [20; 20; 20; 20])))))). eexists.
  split; [reflexivity|]. split; reflexivity.
Qed.
Lemma C32_example_fact : let w := set_w_lowIx (-1) (exUnit (T:=R) [20; 20; 20; 20]) in
  w_setFixed w = false /\ w_compIx w = 2%Z /\ exists h, nth_error (w_hs w) 2 = Some h /\ h_maxSet h = 60.
Proof. cbv zeta. split; [reflexivity|]. split; [reflexivity|]. eexists. split; reflexivity. Qed.

(** ** C33 *)
(** a fixed setpoint stays fixed and keeps its value *)
Definition pf (w w' : hpwh R) : Prop := w_setFixed w' = w_setFixed w /\ (w_setFixed w = true -> w_setpoint w' = w_setpoint w).
Lemma pf_refl w : pf w w.
Proof. split; auto. Qed.
Lemma pf_trans a b c : pf a b -> pf b c -> pf a c.
Proof. intros [A B] [C D]. split; [congruence|]. intros E. rewrite D, B; auto. congruence. Qed.
Lemma pf_intro (w w' : hpwh R) : w_setFixed w' = w_setFixed w -> w_setpoint w' = w_setpoint w -> pf w w'.
Proof. split; auto. Qed.
Ltac pst Rl Rr Rt :=
  lazymatch goal with
  | |- pres _ (ret _) => apply (pres_ret Rl Rr)
  | |- pres _ (throw _) => apply (pres_throw Rl Rr)
  | |- pres _ (undef _) => apply (pres_undef Rl Rr)
  | |- pres _ nofuel => apply (pres_nofuel Rl Rr)
  | |- pres _ get => apply (pres_get Rl Rr)
  | |- pres _ (lift _) => apply (pres_lift Rl Rr)
  | |- pres _ (getHS _) => apply (getHS_pres Rl Rr)
  | |- pres _ (askHS _ _) => apply (askHS_pres Rl Rr)
  | |- pres _ (when _ _) => apply (pres_when Rl Rr)
  | |- pres _ (bind _ _) => apply (pres_bind Rl Rt); [|intro]
  | |- pres _ (if ?c then _ else _) => destruct c
  | |- pres _ (match ?c with _ => _ end) => destruct c
  end.
Ltac pp := repeat first [ pst pf pf_refl pf_trans | lazymatch goal with
  | |- pres _ (modHS _ _) => apply (pres_modify pf); intros []; apply pf_intro; reflexivity
  | |- pres _ (modify _) => apply (pres_modify pf); intros []; apply pf_intro; reflexivity
  end ].
Lemma onTank_pf {A} (m : M (tank R) A) : pres pf (onTank m).
Proof. intros w. unfold onTank. destruct (m (w_tank w)) as [r t]. apply pf_intro; destruct w; reflexivity. Qed.
Lemma oframe_pf {A} (m : M (hpwh R) A) : pres oframe m -> pres pf m.
Proof. apply pres_weaken. intros a b (_ & E). rewrite E. apply pf_intro; destruct a; reflexivity. Qed.
Lemma updateSoC_pf : pres pf (updateSoC (T:=R)).
Proof. unfold updateSoC. pp. Qed.
Lemma setSetpointC_pf v : pres pf (setSetpointC (T:=R) v).
Proof.
  intros w. destruct (setSetpointC_cases v w) as [(mx & E1 & E2)|(_ & _ & E)].
  - rewrite E2. cbn [snd]. split; [destruct w; reflexivity|]. intros HF. unfold setpointPossible in E1. rewrite HF in E1. inversion E1 as [[E3 E4]].
    num_simpl. unfold Reqb' in E3. destruct (Req_EM_T v (w_setpoint w)) as [->|]; [|discriminate]. destruct w; reflexivity.
  - rewrite E. apply pf_refl.
Qed.
Lemma kframe_pf {A} (m : M (hpwh R) A) : pres (kframe true) m -> pres pf m.
Proof. apply pres_weaken. intros a b (_ & _ & A3 & A4). apply pf_intro; auto. Qed.
Lemma addHeatParent_pf fuel i amb m : pres pf (addHeatParent (T:=R) fuel i amb m).
Proof.
  unfold addHeatParent. cbv zeta. pp; first [apply setSetpointC_pf | apply kframe_pf; first [apply addHeatRes_kframe | apply addHeatCond_kframe]].
Qed.
Lemma control_pf fuel dr amb : pres pf (control (T:=R) fuel dr amb).
Proof.
  apply control_lift; [apply pf_refl|apply pf_trans| |intros; apply addHeatParent_pf].
  intros a b (_ & E). rewrite E. apply pf_intro; destruct a; reflexivity.
Qed.
Lemma stepAmbient_pf x : pres pf (stepAmbient (T:=R) x).
Proof. unfold stepAmbient. cbv zeta. pp. Qed.
Lemma stepReset_pf (w : hpwh R) : pf w (stepReset w).
Proof. apply pf_intro; destruct w; reflexivity. Qed.
Lemma runOneStep_pf fuel x : pres pf (runOneStep (T:=R) fuel x).
Proof.
  unfold runOneStep. apply (pres_bind pf pf_trans); [apply (pres_get pf pf_refl)|intros w0]. destruct (_ && _)%bool; [apply (pres_throw pf pf_refl)|].
  apply (pres_bind pf pf_trans); [apply (pres_modify pf); apply stepReset_pf|intros _].
  apply (pres_bind pf pf_trans); [apply stepAmbient_pf|intros [ta ha]].
  apply (pres_bind pf pf_trans); [apply (pres_get pf pf_refl)|intros w1].
  apply (pres_bind pf pf_trans); [apply onTank_pf|intros _].
  apply (pres_bind pf pf_trans); [apply updateSoC_pf|intros _].
  apply (pres_bind pf pf_trans); [apply control_pf|intros _].
  apply (pres_bind pf pf_trans); [apply (pres_modify pf); intros w; destruct (allOff w); apply pf_intro; destruct w; reflexivity|intros _].
  apply (pres_bind pf pf_trans); [apply kframe_pf; apply stepExtra_kframe|intros _].
  apply (pres_bind pf pf_trans); [apply (pres_modify pf); intros w; unfold stepDepress; destruct (w_doDepress w); apply pf_intro; destruct w; reflexivity|intros _].
  apply (pres_bind pf pf_trans); [apply (pres_modify pf); intros w; apply pf_intro; destruct w; reflexivity|intros _].
  apply (pres_modify pf). intros w. unfold stepTimer. destruct (_ && _)%bool; [|destruct (_ && _)%bool]; apply pf_intro; destruct w; reflexivity.
Qed.
Lemma setSetpoint_pf v u : pres pf (setSetpoint (T:=R) v u).
Proof. unfold setSetpoint. pp. apply setSetpointC_pf. Qed.
Lemma capacity_pf a b c u v : pres pf (getCompressorCapacity (T:=R) a b c u v).
Proof. unfold getCompressorCapacity, capPerf. pp; apply setSetpointC_pf. Qed.
Lemma runN_pf fuel rows : pres pf (runNSteps (T:=R) fuel rows).
Proof.
  unfold runNSteps. pp. apply (pres_foldM pf pf_refl pf_trans). intros r s. unfold runOneStepInlet. pp. apply runOneStep_pf.
Qed.
(** what a user may do in any order *)
Inductive userOp := OpSetpoint (new : R) (u : units) | OpStep (inlet : R) (x : stepIn (T:=R)) | OpRun (rows : list (rowIn (T:=R)))
  | OpCapacity (air inT outT : R) (pu tu : units) | OpSetCapacity (new air inT outT : R) (pu tu : units).
Definition perform (fuel : nat) (op : userOp) (w : hpwh R) : hpwh R :=
  match op with
  | OpSetpoint new u => snd (setSetpoint new u w)
  | OpStep inlet x => snd (runOneStepInlet fuel inlet x w)
  | OpRun rows => snd (runNSteps fuel rows w)
  | OpCapacity air inT outT pu tu => snd (getCompressorCapacity air inT outT pu tu w)
  | OpSetCapacity new air inT outT pu tu => snd (setCompressorOutputCapacity new air inT outT pu tu w)
  end.
Lemma C33_fixed_setpoint_fact : forall fuel ops (w : hpwh R), w_setFixed w = true ->
  w_setFixed (fold_left (fun v op => perform fuel op v) ops w) = true /\
  w_setpoint (fold_left (fun v op => perform fuel op v) ops w) = w_setpoint w.
Proof.
  intros fuel ops w HF. assert (HP : pf w (fold_left (fun v op => perform fuel op v) ops w)).
  { clear HF. revert w. induction ops as [|op ops IH]; intros w; cbn [fold_left]; [apply pf_refl|]. eapply pf_trans; [|apply IH].
    destruct op; cbn [perform]; [apply setSetpoint_pf| |apply runN_pf|apply capacity_pf|].
    - refine ((_ : pres pf (runOneStepInlet fuel inlet x)) w). unfold runOneStepInlet. pp. apply runOneStep_pf.
    - refine ((_ : pres pf (setCompressorOutputCapacity new air inT outT pu tu)) w). unfold setCompressorOutputCapacity, setScaleCapacityCOP. pp. apply capacity_pf. }
  destruct HP as (A & B). split; auto. congruence.
Qed.
Lemma C33_only_same_value_fact : forall new u (w w' : hpwh R), w_setFixed w = true -> setSetpoint new u w = (Ok tt, w') ->
  celsius new u = Some (w_setpoint w) /\ w' = w.
Proof.
  intros new u w w' HF E. pose proof (setSetpoint_pf new u w) as [_ HP]. rewrite E in HP. specialize (HP HF).
  destruct (C31_all_or_nothing_fact new u w) as [(c & EC & E2)|(H1 & _)]; [|exfalso; apply (H1 tt); rewrite E; auto].
  rewrite E in E2. inversion E2; subst w'. cbn [snd] in HP. rewrite EC. destruct w; cbn in *; subst. auto.
Qed.
Lemma C33_example_fact : w_setFixed (set_w_setFixed true (exUnit (T:=R) [20; 20; 20; 20])) = true /\
  w_setpoint (perform 5 (OpSetpoint 40 U_C) (exUnit (T:=R) [20; 20; 20; 20])) = 40.
Proof.
  split; [reflexivity|]. cbn [perform]. unfold setSetpoint, bind at 1, lift at 1. cbn [tempToC]. unfold setSetpointC, bind, get, lift, setpointPossible.
  cbn. change (Pos.to_nat 2) with 2%nat. cbn [nth_error exSources obind]. cbn. replace (Rltb _ 40) with false; [reflexivity|].
  symmetry. apply Rltb_false. lra.
Qed.

(** ** C34 *)
Definition accepts (us : list units) (u : units) : Prop := In u us.
Ltac badu u HH := destruct u; try (exfalso; apply HH; cbn; tauto).
Lemma C34_rejected_without_effect_fact : forall (w : hpwh R) x xs u force which,
  (~ In u [U_C; U_F] -> (exists e, setSetpoint x u w = (Err e, w)) /\ (exists e, setTankLayerTemperatures xs u w = (Err e, w))) /\
  (~ In u [U_L; U_GAL] -> (exists e, setTankSize x u force w = (Err e, w)) /\ (exists e, setTankSize_adjustUA x u force w = (Err e, w))) /\
  (~ In u [U_kJperHrC; U_BTUperHrF] -> (exists e, setUA x u w = (Err e, w)) /\ (exists e, setFittingsUA x u w = (Err e, w))) /\
  (~ In u [U_KW; U_BTUperHr] -> exists e, setResistanceCapacity x which u w = (Err e, w)).
Proof.
  intros w x xs u force which. splits; intros HH; try split.
  - badu u HH; eexists; reflexivity.
  - badu u HH; eexists; reflexivity.
  - badu u HH; eexists; reflexivity.
  - badu u HH; eexists; reflexivity.
  - badu u HH; eexists; reflexivity.
  - badu u HH; eexists; reflexivity.
  - unfold setResistanceCapacity, bind, get, throw. destruct (negb _); [eauto|]. destruct (Nat.eqb _ 0); [eauto|]. destruct (_ || _)%bool; [eauto|].
    destruct (nltb x (nofZ 0)); [eauto|]. badu u HH; eexists; reflexivity.
Qed.
Lemma C34_depression_stored_before_error_fact : forall (w : hpwh R) x u, ~ In u [U_C; U_F] ->
  exists e, setMaxTempDepression x u w = (Err e, set_w_maxDep x w).
Proof. intros w x u HH. badu u HH; eexists; reflexivity. Qed.
Lemma C34_depression_refuted_fact : exists (w w' : hpwh R) x u e, setMaxTempDepression x u w = (Err e, w') /\ w_maxDep w' <> w_maxDep w.
Proof.
  exists (set_w_maxDep 2 (exUnit (T:=R) [20; 20; 20; 20])). eexists _, 7, U_KW, _. split; [reflexivity|]. wsimpl. lra.
Qed.
Lemma C34_accepted_fact : forall (w : hpwh R) x,
  setUA x U_kJperHrC w = (Ok tt, set_w_tank (set_t_UA x (w_tank w)) w) /\
  setUA x U_BTUperHrF w = (Ok tt, set_w_tank (set_t_UA (x * (9 / 5) / (9478 / 10000)) (w_tank w)) w) /\
  setFittingsUA x U_kJperHrC w = (Ok tt, set_w_tank (set_t_fitUA x (w_tank w)) w) /\
  setFittingsUA x U_BTUperHrF w = (Ok tt, set_w_tank (set_t_fitUA (x * (9 / 5) / (9478 / 10000)) (w_tank w)) w) /\
  setMaxTempDepression x U_C w = (Ok tt, set_w_maxDep x w).
Proof.
  intros w x. assert (HU : UAf_TO_UAc x = x * (9 / 5) / (9478 / 10000)) by (unfold UAf_TO_UAc, dec; num_simpl; field).
  splits; try reflexivity; unfold setUA, setFittingsUA; cbn [uaToSI]; rewrite HU; reflexivity.
Qed.
Lemma C34_example_fact : ~ In U_KW [U_C; U_F] /\ ~ In U_C [U_L; U_GAL].
Proof. split; intros HH; cbn in HH; intuition discriminate. Qed.

(** ** C35 *)
Lemma C35_inverse_pairs_fact : forall x : R,
  F_TO_C (C_TO_F x) = x /\ C_TO_F (F_TO_C x) = x /\ K_TO_C (C_TO_K x) = x /\ C_TO_K (K_TO_C x) = x /\
  K_TO_F (F_TO_K x) = x /\ F_TO_K (K_TO_F x) = x /\ dF_TO_dC (dC_TO_dF x) = x /\ dC_TO_dF (dF_TO_dC x) = x /\
  KWH_TO_BTU (BTU_TO_KWH x) = x /\ BTU_TO_KWH (KWH_TO_BTU x) = x /\ KWH_TO_KJ (KJ_TO_KWH x) = x /\ KJ_TO_KWH (KWH_TO_KJ x) = x /\
  BTU_TO_KJ (KWH_TO_BTU x) = KWH_TO_KJ x /\
  GAL_TO_L (L_TO_GAL x) = x /\ L_TO_GAL (GAL_TO_L x) = x /\ FT_TO_M (M_TO_FT x) = x /\ M_TO_FT (FT_TO_M x) = x /\
  FT2_TO_M2 (M2_TO_FT2 x) = x /\ M2_TO_FT2 (FT2_TO_M2 x) = x /\ GPM_TO_LPS (LPS_TO_GPM x) = x /\ LPS_TO_GPM (GPM_TO_LPS x) = x /\
  KW_TO_W (W_TO_KW x) = x /\ W_TO_KW (KW_TO_W x) = x /\ W_TO_BTUperH x = KWH_TO_BTU (W_TO_KW x).
Proof.
  intros x. unfold F_TO_K, K_TO_F, F_TO_C, C_TO_F, K_TO_C, C_TO_K, dF_TO_dC, dC_TO_dF, KWH_TO_BTU, BTU_TO_KWH, KWH_TO_KJ, KJ_TO_KWH, BTU_TO_KJ, GAL_TO_L, L_TO_GAL,
    FT2_TO_M2, M2_TO_FT2, FT_TO_M, M_TO_FT, GPM_TO_LPS, LPS_TO_GPM, KW_TO_W, W_TO_KW, W_TO_BTUperH, FperC, offsetF, absolute_zeroT, BTUperKWH, sec_per_hr, sec_per_min,
    min_per_hr, L_per_gal, ft_per_m, dec. num_simpl. unfold K_TO_C, C_TO_K, C_TO_F, F_TO_C, FperC, offsetF, absolute_zeroT, dec. num_simpl. splits; field.
Qed.
Lemma C35_fixed_points_fact : (F_TO_C 212 : R) = 100 /\ (F_TO_C 32 : R) = 0 /\ (F_TO_C (-40) : R) = -40 /\ (K_TO_C 0 : R) = - (27315 / 100) /\
  (KWH_TO_KJ 1 : R) = 3600 /\ (dF_TO_dC 9 : R) = 5 /\ (GAL_TO_L 1 : R) = 378541 / 100000.
Proof.
  unfold F_TO_C, K_TO_C, KWH_TO_KJ, dF_TO_dC, GAL_TO_L, FperC, offsetF, absolute_zeroT, sec_per_hr, sec_per_min, min_per_hr, L_per_gal, dec. num_simpl. splits; lra.
Qed.
Lemma C35_order_preserving_fact : forall x y : R, x < y ->
  F_TO_C x < F_TO_C y /\ C_TO_F x < C_TO_F y /\ K_TO_C x < K_TO_C y /\ C_TO_K x < C_TO_K y /\ dF_TO_dC x < dF_TO_dC y /\ dC_TO_dF x < dC_TO_dF y /\
  KWH_TO_BTU x < KWH_TO_BTU y /\ BTU_TO_KWH x < BTU_TO_KWH y /\ KWH_TO_KJ x < KWH_TO_KJ y /\ KJ_TO_KWH x < KJ_TO_KWH y /\
  GAL_TO_L x < GAL_TO_L y /\ L_TO_GAL x < L_TO_GAL y /\ FT_TO_M x < FT_TO_M y /\ M_TO_FT x < M_TO_FT y /\
  FT2_TO_M2 x < FT2_TO_M2 y /\ M2_TO_FT2 x < M2_TO_FT2 y /\ GPM_TO_LPS x < GPM_TO_LPS y /\ LPS_TO_GPM x < LPS_TO_GPM y /\ UAf_TO_UAc x < UAf_TO_UAc y.
Proof.
  intros x y HH. unfold F_TO_C, C_TO_F, K_TO_C, C_TO_K, dF_TO_dC, dC_TO_dF, KWH_TO_BTU, BTU_TO_KWH, KWH_TO_KJ, KJ_TO_KWH, GAL_TO_L, L_TO_GAL,
    FT2_TO_M2, M2_TO_FT2, FT_TO_M, M_TO_FT, GPM_TO_LPS, LPS_TO_GPM, UAf_TO_UAc, FperC, offsetF, absolute_zeroT, BTUperKWH, sec_per_hr, sec_per_min,
    min_per_hr, L_per_gal, ft_per_m, dec. num_simpl. unfold FT_TO_M, M_TO_FT, ft_per_m, dec. num_simpl. splits; lra.
Qed.
Lemma C35_differences_fact : forall x y : R, F_TO_C x - F_TO_C y = dF_TO_dC (x - y) /\ C_TO_F x - C_TO_F y = dC_TO_dF (x - y) /\ K_TO_C x - K_TO_C y = x - y.
Proof. intros x y. unfold F_TO_C, C_TO_F, dF_TO_dC, dC_TO_dF, K_TO_C, FperC, offsetF. num_simpl. splits; field. Qed.
Lemma C35_set_and_get_fact : forall (w w' : hpwh R) x u,
  (setUA x u w = (Ok tt, w') -> getUA u w' = Ok x) /\
  (setFittingsUA x u w = (Ok tt, w') -> getFittingsUA u w' = Ok x) /\
  (forall force, setTankSize x u force w = (Ok tt, w') -> getTankSize u w' = Ok x).
Proof.
  intros w w' x u. unfold setUA, setFittingsUA, setTankSize, getUA, getFittingsUA, getTankSize.
  assert (HU : forall v, uaToSI x u = Ok v -> uaFromSI v u = Ok x).
  { destruct u; cbn [uaToSI uaFromSI]; intros v E; inversion E; auto. f_equal. unfold UAf_TO_UAc, dec. num_simpl. field. }
  assert (HV : forall v, volToL x u = Ok v -> volFromL v u = Ok x).
  { destruct u; cbn [volToL volFromL]; intros v E; inversion E; auto. f_equal. unfold L_TO_GAL, GAL_TO_L, L_per_gal, dec. num_simpl. field. }
  splits.
  - intros E. apply bind_inv in E. destruct E as (v & w1 & E1 & E2). apply lift_inv in E1. destruct E1 as (-> & E1).
    apply onTank_inv in E2. destruct E2 as (t & E2 & ->). wsimpl. inversion E2. cbn [t_UA set_t_UA]. auto.
  - intros E. apply bind_inv in E. destruct E as (v & w1 & E1 & E2). apply lift_inv in E1. destruct E1 as (-> & E1).
    apply onTank_inv in E2. destruct E2 as (t & E2 & ->). wsimpl. inversion E2. cbn [t_fitUA set_t_fitUA]. auto.
  - intros force E. apply bind_inv in E. destruct E as (v & w1 & E1 & E2). apply lift_inv in E1. destruct E1 as (-> & E1).
    apply onTank_inv in E2. destruct E2 as (t & E2 & ->). wsimpl. apply bind_inv in E2. destruct E2 as ([] & t1 & E2 & E3).
    unfold modify in E3. inversion E3; subst t. unfold setVolume, bind, get in E2. destruct (_ && _)%bool; [discriminate|].
    destruct (nleb v (nofZ 0)); [discriminate|]. inversion E2; subst t1. apply HV. exact E1.
Qed.
Lemma C35_example_fact : exists w' : hpwh R, setUA 5 U_BTUperHrF (exUnit (T:=R) [20; 20; 20; 20]) = (Ok tt, w') /\ getUA U_BTUperHrF w' = Ok 5.
Proof. eexists. split; [reflexivity|]. eapply C35_set_and_get_fact. reflexivity. Qed.

(** ** C36 *)
Lemma C36_converted_as_temperature_fact : forall (w : hpwh R) d,
  setMaxTempDepression d U_F w = (Ok tt, set_w_maxDep ((d - 32) * 5 / 9) w) /\
  (0 <= d < 32 -> w_maxDep (snd (setMaxTempDepression d U_F w)) < 0) /\
  w_maxDep (snd (setMaxTempDepression d U_F w)) <> d * 5 / 9.
Proof.
  intros w d. assert (E : setMaxTempDepression d U_F w = (Ok tt, set_w_maxDep ((d - 32) * 5 / 9) w)).
  { unfold setMaxTempDepression, bind, modify. cbn [F_TO_C]. f_equal. replace (F_TO_C d) with ((d - 32) * 5 / 9); [destruct w; reflexivity|].
    unfold F_TO_C, FperC, offsetF. num_simpl. field. }
  rewrite E. cbn [snd]. wsimpl. split; [reflexivity|]. split; [intros; lra|intros E9; lra].
Qed.
Lemma C36_running_compressor_warms_fact : forall fuel d (x : stepIn (T:=R)) (w w' : hpwh R),
  0 <= d < 32 -> w_doDepress w = true -> w_locT w = i_amb x ->
  runOneStep fuel x (snd (setMaxTempDepression d U_F w)) = (Ok tt, w') ->
  existsb (fun h => h_on h && negb (h_locked h) && h_depresses h)%bool (w_hs w') = true ->
  i_amb x < w_locT w' <= i_amb x + (32 - d) * 5 / 9.
Proof.
  intros fuel d x w w' Hd HD HL E HX. destruct (C36_converted_as_temperature_fact w d) as (E1 & _). rewrite E1 in E. cbn [snd] in E.
  pose proof (C54_depression_step_fact _ _ _ _ (HD : w_doDepress (set_w_maxDep ((d - 32) * 5 / 9) w) = true) E) as HH. cbv zeta in HH.
  destruct HH as (Q & _ & _ & M). unfold depGoal in Q. rewrite HX, M in Q.
  change (w_locT (set_w_maxDep ((d - 32) * 5 / 9) w)) with (w_locT w) in Q. change (w_maxDep (set_w_maxDep ((d - 32) * 5 / 9) w)) with ((d - 32) * 5 / 9) in Q.
  rewrite HL in Q. destruct (Req_EM_T _ _) in Q; lra.
Qed.
Lemma C36_celsius_cools_fact : forall fuel d (x : stepIn (T:=R)) (w w' : hpwh R),
  0 < d -> w_doDepress w = true -> w_locT w = i_amb x ->
  runOneStep fuel x (snd (setMaxTempDepression d U_C w)) = (Ok tt, w') ->
  existsb (fun h => h_on h && negb (h_locked h) && h_depresses h)%bool (w_hs w') = true ->
  i_amb x - d <= w_locT w' < i_amb x.
Proof.
  intros fuel d x w w' Hd HD HL E HX. change (snd (setMaxTempDepression d U_C w)) with (set_w_maxDep d w) in E.
  pose proof (C54_depression_step_fact _ _ _ _ (HD : w_doDepress (set_w_maxDep d w) = true) E) as HH. cbv zeta in HH.
  destruct HH as (Q & _ & _ & M). unfold depGoal in Q. rewrite HX, M in Q.
  change (w_locT (set_w_maxDep d w)) with (w_locT w) in Q. change (w_maxDep (set_w_maxDep d w)) with d in Q.
  rewrite HL in Q. destruct (Req_EM_T _ _) in Q; lra.
Qed.
Lemma C36_example_fact : exists w',
  runOneStep (T:=float) 100 (mkin (fofZ 5) (fofZ 20) (fofZ 20) 0 (fofZ 0) (fofZ 0) None) (snd (setMaxTempDepression (fofZ 4) U_F
    (set_w_haveInletT true (set_w_inletT (fofZ 10) (exDep float FNum (map fofZ [20; 30; 45; 50]%Z)))))) = (Ok tt, w') /\
  existsb (fun h => h_on h && negb (h_locked h) && h_depresses h)%bool (w_hs w') = true /\ PrimFloat.ltb (fofZ 20) (w_locT w') = true.
Proof. eexists. split; [vm_compute; reflexivity|]. split; vm_compute; reflexivity. Qed.

(** ** C37 *)
Lemma cube_root x : 0 < x -> 0 < Rpow x (1 / 3) /\ Rpow x (1 / 3) * Rpow x (1 / 3) * Rpow x (1 / 3) = x.
Proof.
  intros Hx. unfold Rpow. destruct (Req_EM_T x 0); [lra|]. split; [apply exp_pos|]. rewrite <- !Rpower_plus.
  replace (1 / 3 + 1 / 3 + 1 / 3) with 1 by field. apply Rpower_1, Hx.
Qed.
Lemma cube_root_lt x y : 0 < x < y -> Rpow x (1 / 3) < Rpow y (1 / 3).
Proof. intros HH. unfold Rpow. destruct (Req_EM_T x 0); [lra|]. destruct (Req_EM_T y 0); [lra|]. apply Rlt_Rpower_l; lra. Qed.
(** one cylinder: radius r and height 4.75 r in feet, volume in litres, with the literal 3.14159 *)
Definition cylinder (vol r : R) : Prop := 0 < r /\ 314159 / 100000 * (r * r) * (475 / 100 * r) * (2831685 / 100000) = vol.
Lemma cylinder_exists vol : 0 < vol -> exists r, cylinder vol r /\ r = Rpow (L_TO_FT3 vol / PI_lit / ASPECTRATIO) (1 / 3).
Proof.
  intros HV. assert (HX : 0 < L_TO_FT3 vol / PI_lit / ASPECTRATIO) by (unfold L_TO_FT3, PI_lit, ASPECTRATIO, dec; num_simpl; lra).
  destruct (cube_root _ HX) as (A & B). eexists. split; [|reflexivity]. split; auto.
  set (r := Rpow _ _) in *. replace (314159 / 100000 * (r * r) * (475 / 100 * r) * (2831685 / 100000)) with
    (314159 / 100000 * (475 / 100) * (2831685 / 100000) * (r * r * r)) by field. rewrite B.
  unfold L_TO_FT3, PI_lit, ASPECTRATIO, dec. num_simpl. field.
Qed.
Lemma C37_one_cylinder_fact : forall vol : R, 0 < vol -> exists r, cylinder vol r /\
  tankRadius_m vol = r / (32808 / 10000) /\
  surfaceArea_m2 vol = (2 * (314159 / 100000 * (r * r)) + 2 * (314159 / 100000) * r * (475 / 100 * r)) / (32808 / 10000) / (32808 / 10000).
Proof.
  intros vol HV. destruct (cylinder_exists vol HV) as (r & HC & E). exists r. split; auto. unfold tankRadius_m, surfaceArea_m2. num_simpl.
  replace (Rleb 0 vol) with true by (symmetry; apply Rleb_true; lra). rewrite <- E.
  unfold FT_TO_M, FT2_TO_M2, FT_TO_M, ft_per_m, PI_lit, ASPECTRATIO, dec. num_simpl. split; field.
Qed.
Lemma C37_monotone_fact : forall v1 v2 : R, 0 < v1 < v2 ->
  tankRadius_m v1 < tankRadius_m v2 /\ surfaceArea_m2 v1 < surfaceArea_m2 v2 /\ 0 < tankRadius_m v1 /\ 0 < surfaceArea_m2 v1.
Proof.
  intros v1 v2 HV. unfold tankRadius_m, surfaceArea_m2. num_simpl.
  replace (Rleb 0 v1) with true by (symmetry; apply Rleb_true; lra). replace (Rleb 0 v2) with true by (symmetry; apply Rleb_true; lra).
  assert (HX : 0 < L_TO_FT3 v1 / PI_lit / ASPECTRATIO < L_TO_FT3 v2 / PI_lit / ASPECTRATIO).
  { unfold L_TO_FT3, PI_lit, ASPECTRATIO, dec; num_simpl. split; lra. }
  num_simpl. pose proof (cube_root_lt _ _ HX) as HL. destruct (cube_root (L_TO_FT3 v1 / PI_lit / ASPECTRATIO)) as (HP & _); [lra|].
  set (r1 := Rpow (L_TO_FT3 v1 / PI_lit / ASPECTRATIO) (1 / 3)) in *. set (r2 := Rpow (L_TO_FT3 v2 / PI_lit / ASPECTRATIO) (1 / 3)) in *. clearbody r1 r2.
  unfold FT_TO_M, FT2_TO_M2, FT_TO_M, ft_per_m, PI_lit, ASPECTRATIO, dec. num_simpl.
  assert (r1 * r1 < r2 * r2) by nra. assert (0 < r1 * r1) by nra. splits; lra.
Qed.
Lemma C37_cylinder_unique_fact : forall vol r1 r2, cylinder vol r1 -> cylinder vol r2 -> r1 = r2.
Proof.
  intros vol r1 r2 (A1 & B1) (A2 & B2). assert (HH : r1 * r1 * r1 = r2 * r2 * r2).
  { assert (HQ : forall r, 314159 / 100000 * (r * r) * (475 / 100 * r) * (2831685 / 100000) = 314159 / 100000 * (475 / 100) * (2831685 / 100000) * (r * r * r)) by (intros; field).
    rewrite HQ in B1, B2. lra. }
  assert (HM : forall a b, 0 < a < b -> a * a * a < b * b * b).
  { intros a b Hab. assert (a * a < b * b) by nra. assert (0 < a * a) by nra. assert (a * a * a < b * b * a) by (apply Rmult_lt_compat_r; lra).
    assert (b * b * a < b * b * b) by (apply Rmult_lt_compat_l; nra). lra. }
  destruct (Rtotal_order r1 r2) as [HL|[HL|HL]]; auto; exfalso; [pose proof (HM r1 r2)|pose proof (HM r2 r1)]; lra.
Qed.
Lemma C37_size_constants_fact : forall t : tank R, 0 < t_volume t -> t_Ts t <> [] ->
  let t' := calcSizeConstants t in
  2 * t_fracTop t' + t_fracSide t' = 1 /\ 0 < t_fracTop t' /\ 0 < t_fracSide t' /\
  t_fracTop t' * (2 * (1 + 475 / 100)) = 1 /\
  INR (length (t_Ts t)) * t_nodeVol t' = t_volume t /\
  INR (length (t_Ts t)) * t_nodeHeight t' = 475 / 100 * tankRadius_m (t_volume t) /\
  t_nodeCp t' = CPWATER * DENSITYWATER * t_nodeVol t'.
Proof.
  intros t HV HN. cbv zeta. destruct (C37_monotone_fact (t_volume t) (t_volume t + 1)) as (_ & _ & HR & _); [lra|].
  assert (HL : 0 < INR (length (t_Ts t))) by (apply lt_0_INR; destruct (t_Ts t); [congruence|cbn; lia]).
  unfold calcSizeConstants, numNodes. wsimpl. rewrite nofN_R. generalize dependent (tankRadius_m (t_volume t)). intros r Hr.
  unfold ASPECTRATIO, dec. num_simpl. splits; try reflexivity; try (field; lra).
  - apply Rdiv_lt_0_compat; lra.
  - apply Rdiv_lt_0_compat; lra.
Qed.
Lemma C37_radius_in_feet_fact : forall (w : hpwh R),
  getTankRadius U_M w = tankRadius_m (t_volume (w_tank w)) /\
  getTankRadius U_FT w = M_TO_FT (tankRadius_m (t_volume (w_tank w))) / (32808 / 10000 * (32808 / 10000)).
Proof.
  intros w. split; [reflexivity|]. unfold getTankRadius, getRadius_static, FT_TO_M, M_TO_FT, ft_per_m, dec. num_simpl. field.
Qed.
Lemma C37_radius_in_feet_refuted_fact : exists w : hpwh R, 0 < t_volume (w_tank w) /\ getTankRadius U_FT w <> M_TO_FT (getTankRadius U_M w).
Proof.
  exists (exUnit (T:=R) [20; 20; 20; 20]). assert (HV : t_volume (w_tank (exUnit (T:=R) [20; 20; 20; 20])) = 200) by reflexivity.
  split; [rewrite HV; lra|]. destruct (C37_radius_in_feet_fact (exUnit (T:=R) [20; 20; 20; 20])) as (-> & ->). rewrite HV.
  destruct (C37_monotone_fact 200 201) as (_ & _ & HR & _); [lra|]. unfold M_TO_FT, ft_per_m, dec. num_simpl. lra.
Qed.
Lemma C37_example_fact : cylinder (314159 / 100000 * (475 / 100) * (2831685 / 100000)) 1.
Proof. split; lra. Qed.

(** ** C38 *)
Definition litres (v : R) (u : units) : option R := match u with U_L => Some v | U_GAL => Some (v * (378541 / 100000)) | _ => None end.
Lemma volToL_litres v u : volToL v u = match litres v u with Some l => Ok l | None => badUnits end.
Proof. destruct u; reflexivity. Qed.
Lemma C38_keeps_U_fact : forall (w w' : hpwh R) v u force, 0 < t_volume (w_tank w) -> setTankSize_adjustUA v u force w = (Ok tt, w') ->
  litres v u = Some (t_volume (w_tank w')) /\ 0 < t_volume (w_tank w') /\
  t_UA (w_tank w') / surfaceArea_m2 (t_volume (w_tank w')) = t_UA (w_tank w) / surfaceArea_m2 (t_volume (w_tank w)) /\
  t_Ts (w_tank w') = t_Ts (w_tank w) /\ t_fitUA (w_tank w') = t_fitUA (w_tank w) /\ w' = set_w_tank (w_tank w') w.
Proof.
  intros w w' v u force HV E. unfold setTankSize_adjustUA in E. apply bind_inv in E. destruct E as (l & w1 & E1 & E2).
  apply lift_inv in E1. destruct E1 as (-> & E1). rewrite volToL_litres in E1. destruct (litres v u) as [l'|]; [inversion E1; subst l'|discriminate].
  apply onTank_inv in E2. destruct E2 as (t & E2 & ->). wsimpl. unfold setVolumeAndAdjustUA in E2. cbv zeta in E2.
  apply bind_inv in E2. destruct E2 as (t0 & t0' & E2 & E3). unfold get in E2. inversion E2; subst t0 t0'. clear E2.
  apply bind_inv in E3. destruct E3 as ([] & t1 & E2 & E3). unfold setVolume, bind, get, throw in E2. destruct (_ && _)%bool; [discriminate|].
  destruct (nleb l (nofZ 0)) eqn:EL0; [discriminate|]. assert (EL : 0 < l) by (apply Rleb_false; exact EL0). unfold modify in E2. inversion E2; subst t1. clear E2.
  unfold bind, modify in E3. inversion E3; subst t. clear E3.
  destruct (C37_monotone_fact (t_volume (w_tank w)) (t_volume (w_tank w) + 1)) as (_ & _ & _ & HA); [lra|].
  destruct (C37_monotone_fact l (l + 1)) as (_ & _ & _ & HB); [lra|].
  unfold calcSizeConstants. wsimpl. splits; auto. change (t_UA (w_tank w) * (surfaceArea_m2 l / surfaceArea_m2 (t_volume (w_tank w))) / surfaceArea_m2 l = t_UA (w_tank w) / surfaceArea_m2 (t_volume (w_tank w))). field. lra.
Qed.
Lemma C38_rejected_unchanged_fact : forall (w : hpwh R) v u force,
  (exists e, setTankSize_adjustUA v u force w = (Err e, w)) <->
  (litres v u = None \/ (t_fixed (w_tank w) = true /\ force = false) \/ exists l, litres v u = Some l /\ l <= 0).
Proof.
  intros w v u force. unfold setTankSize_adjustUA, bind at 1, lift. rewrite volToL_litres. destruct (litres v u) as [l|].
  2:{ split; [auto|]. intros _. eexists. reflexivity. }
  unfold onTank, setVolumeAndAdjustUA, setVolume, bind, get, throw, modify. num_simpl.
  destruct (t_fixed (w_tank w)) eqn:EF; destruct force; cbn [andb negb]; try destruct (Rleb l 0) eqn:EL.
  all: try apply Rleb_true in EL; try apply Rleb_false in EL.
  all: split; [intros (e & E); try discriminate E | intros [HX|[(H1 & H2)|(l' & H1 & H2)]]; try discriminate; try (inversion H1; subst l'; lra)].
  all: try (eexists; destruct w; reflexivity). all: try (right; left; auto; fail). all: right; right; eexists; split; eauto.
Qed.
Lemma C38_plain_resize_keeps_UA_fact : forall (w w' : hpwh R) v u force, setTankSize v u force w = (Ok tt, w') ->
  litres v u = Some (t_volume (w_tank w')) /\ t_UA (w_tank w') = t_UA (w_tank w) /\ t_Ts (w_tank w') = t_Ts (w_tank w) /\ w' = set_w_tank (w_tank w') w.
Proof.
  intros w w' v u force E. unfold setTankSize in E. apply bind_inv in E. destruct E as (l & w1 & E1 & E2).
  apply lift_inv in E1. destruct E1 as (-> & E1). rewrite volToL_litres in E1. destruct (litres v u) as [l'|]; [inversion E1; subst l'|discriminate].
  apply onTank_inv in E2. destruct E2 as (t & E2 & ->). wsimpl.
  apply bind_inv in E2. destruct E2 as ([] & t1 & E2 & E3). unfold setVolume, bind, get, throw in E2. destruct (_ && _)%bool; [discriminate|].
  destruct (nleb l (nofZ 0)); [discriminate|]. unfold modify in E2, E3. inversion E2; subst t1. inversion E3; subst t.
  unfold calcSizeConstants. wsimpl. splits; auto.
Qed.
Lemma C38_example_fact : exists w' : hpwh R, setTankSize_adjustUA 100 U_GAL true (exUnit (T:=R) [20; 20; 20; 20]) = (Ok tt, w').
Proof.
  unfold setTankSize_adjustUA, bind at 1, lift. rewrite volToL_litres. cbn [litres]. unfold onTank, setVolumeAndAdjustUA, setVolume, bind, get, throw, modify.
  cbn [t_fixed w_tank exUnit negb andb]. rewrite Bool.andb_false_r. num_simpl. replace (Rleb _ 0) with false; [eexists; reflexivity|].
  symmetry. apply Rleb_false. lra.
Qed.
