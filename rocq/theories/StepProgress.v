(** Proofs that steps of a well-configured unit succeed: no exception, no undefined behaviour and no
    endless loop. *)

From Coq Require Import ZArith String List Bool Reals Lra Lia.
From Verif Require Import Num Base Units Types Utils TankM Logic HeatSrc Step Spec SpecState SpecDist SpecEnergy SpecStep SpecExt RList.
From Verif Require Import FrameProofs SimFrame MixProofs DrawProofs TankProofs StandbyProofs HeatProofs ControlProofs SeqProofs DistProofs AvgProofs EnergyProofs ExtProofs StepEnergy WholeStep TankFacts.
From Verif Require Import Progress ExtProgress SPProgress.
Import ListNotations.
Local Open Scope R_scope.

(** ** External condensers *)
Definition calmNow (w : W) (lo : R) : Prop := within lo (w_setpoint w) (t_Ts (w_tank w)) /\ Forall (fun h => ~ multiPass h) (w_hs w).
Lemma extReady_frame fuel D (Q Q' : R -> Prop) (w w' : W) : Forall2 hframe (w_hs w) (w_hs w') -> length (t_Ts (w_tank w')) = length (t_Ts (w_tank w)) ->
  t_nodeVol (w_tank w') = t_nodeVol (w_tank w) -> w_setpoint w' = w_setpoint w -> w_minStep w' = w_minStep w ->
  (forall lo, Q lo -> Q' lo) -> extReady fuel D Q w -> extReady fuel D Q' w'.
Proof.
  intros HF HL HV HS HM HQ HE h' Hin Ht Hc. destruct (In_nth_error _ _ Hin) as [k Hk]. clear Hin.
  assert (exists h, nth_error (w_hs w) k = Some h /\ hframe h h') as (h & Hh & Hf).
  { clear - HF Hk. revert k Hk. induction HF as [|x y l l' Hxy HF IH]; intros [|k] Hk; cbn [nth_error] in *; try discriminate; [inversion Hk; subst; eauto|auto]. }
  unfold hframe in Hf.
  assert (F1 : h_type h' = h_type h) by (rewrite Hf; reflexivity). assert (F2 : h_config h' = h_config h) by (rewrite Hf; reflexivity).
  assert (F3 : h_multipass h' = h_multipass h) by (rewrite Hf; reflexivity). assert (F4 : h_extOut h' = h_extOut h) by (rewrite Hf; reflexivity).
  assert (F5 : h_extIn h' = h_extIn h) by (rewrite Hf; reflexivity). assert (F6 : h_mpFlow h' = h_mpFlow h) by (rewrite Hf; reflexivity).
  assert (F7 : h_shutOff h' = h_shutOff h) by (rewrite Hf; reflexivity). clear Hf.
  cbv zeta. unfold wholeHeight. rewrite HL, HV, HS, HM, F3, F4, F5, F6, F7. rewrite F1 in Ht. rewrite F2 in Hc.
  specialize (HE h (nth_error_In (w_hs w) k Hh) Ht Hc). cbv zeta in HE. unfold wholeHeight in HE. destruct (h_multipass h); auto.
  destruct HE as (E1 & E2 & E3 & lo & E4 & E5 & E6). split; [exact E1|]. split; [exact E2|]. split; [exact E3|]. exists lo. auto.
Qed.

Lemma gt_fract_nonneg (w : W) ls : Forall stopsHot ls -> (0 < length (t_Ts (w_tank w)))%nat -> forall x f, 0 <= x -> fractLoop w ls x = Ok f -> 0 <= f.
Proof.
  intros HF Hn. induction HF as [|l ls HL HF IH]; intros x f Hx; cbn [fractLoop]; [intros E; inversion E; subst; auto|].
  destruct l as [nm d dp a c y s|]; [|destruct HL]. destruct HL as [-> HG]. set (lg := TempLogic nm d dp a CGreater y s).
  destruct (temp_value w nm d dp a CGreater y s Hn HG) as (f0 & l0 & avg & EV & Hfl & EF). specialize (EF lg). cbv zeta in EF.
  change (l_fract w lg) with (temp_fract w lg d). rewrite EF. cbn [obind]. clear EF. apply IH. num_simpl. change (l_cmp lg) with CGreater. cbn [compare]. num_simpl.
  set (cv := l_comparison w lg + TOL_MINVALUE). set (nd := _ - node (t_Ts (w_tank w)) f0).
  set (q := INR _ / 12 * _).
  assert (0 <= q); [|rcase; lra]. unfold q.
  apply Rmult_le_pos; [pose proof (pos_INR (length (t_Ts (w_tank w)))); lra|].
  destruct (Rltb cv avg) eqn:E1; bcase; [lra|]. destruct (Rltb 0 nd) eqn:E2; bcase; [|lra].
  apply Rmult_le_pos; [lra|left; apply Rinv_0_lt_compat; lra].
Qed.
Lemma stopsHot_fract (w : W) h f : Forall stopsHot (h_shutOff h) -> fractToMeet w h = Ok f -> 0 <= f.
Proof.
  intros HF E. destruct (t_Ts (w_tank w)) as [|x r] eqn:ET.
  - unfold fractToMeet in E. destruct HF as [|l ls HL HF]; cbn [fractLoop] in E; [inversion E; num_simpl; lra|].
    destruct l as [nm d dp a c y s|]; [|destruct HL]. cbn [l_fract] in E. unfold temp_fract in E. rewrite ET in E. discriminate.
  - eapply gt_fract_nonneg; [exact HF| | |exact E]; [rewrite ET; cbn; lia|num_simpl; lra].
Qed.

(** ** Heating *)
Definition good (X : Prop) (fuel : nat) (air : R) (D : R -> Prop) (w : W) : Prop :=
  heatInv air D w /\ can X air D w /\ extReady fuel D (calmNow w) w /\ (length (t_Ts (w_tank w)) * length (t_Ts (w_tank w)) < fuel)%nat.

Lemma addHeatParent_succ {X : Prop} air D fuel i m (w : W) : good X fuel air D w -> (i < length (w_hs w))%nat -> (length (t_Ts (w_tank w)) < fuel)%nat -> 0 < m <= w_minStep w ->
  succ (addHeatParent fuel i air m) w.
Proof.
  intros ([I1 I2 I3 I4 IR I5] & [HC Hn0] & HE & Hff) Hi Hf [Hm Hms]. unfold addHeatParent. destruct (nth_lt _ _ Hi) as [h Hn].
  apply succ_bind; [apply succ_getHS; auto|]. intros h0 w0 E0. apply getHS_inv in E0. destruct E0 as [-> E0]. rewrite Hn in E0. inversion E0; subst h0. clear E0.
  pose proof (ready_nth _ _ _ _ _ HC Hn) as HR.
  assert (HO : srcOK (length (t_Ts (w_tank w))) air D h) by (rewrite Forall_forall in I4; apply I4; eapply nth_error_In; eauto).
  assert (HDist : (h_type h = TCompressor -> h_config h <> External) -> exists d, calcHeatDist fuel w h = Ok d /\ shares (length (t_Ts (w_tank w))) d)
    by (intros; eapply dist_ok; eauto).
  destruct (h_type h) eqn:Et.
  - apply succ_bind; [apply succ_get|]. intros w0 w1 E. apply get_inv in E. destruct E as [-> ->]. cbv zeta.
    pose proof (sy_low HR Et) as HL. num_simpl.
    replace (Rleb air (h_mlAir h)) with false by (symmetry; apply Rleb_false; lra). cbn [andb].
    apply succ_bind; [apply succ_when; discriminate|]. intros [] w1 E1. cbn [when] in E1. apply ret_inv in E1. destruct E1 as [-> _].
    apply succ_bind.
    + unfold addHeatCond. apply succ_bind; [apply succ_getHS; auto|]. intros h0 w0 E0. apply getHS_inv in E0. destruct E0 as [-> E0]. rewrite Hn in E0. inversion E0; subst h0. clear E0.
      assert (HI : h_config h <> External -> succ (addHeatIntegrated fuel i air m) w).
      { intros HX. destruct HDist as (d & Ed & Hd); auto. eapply addHeatIntegrated_succ; eauto; [apply (sy_dist HR)|apply (sy_perf HR Et)|].
        intros c. apply reach_avg; auto. apply (sy_dist HR). }
      destruct (h_config h) eqn:Ec; try (apply HI; discriminate). clear HI HDist.
      specialize (HE h (nth_error_In (w_hs w) i Hn) Et Ec). cbv zeta in HE.
      assert (HX : extCan fuel i air h w) by (constructor; auto; [apply (sy_off HR)|apply (rd_soc HC)]).
      apply succ_bind; [|intros [r [e1 e2]] w1 _; apply succ_modHS].
      destruct (h_multipass h) eqn:EM.
      * destruct HE as (E1 & E2 & E3). pose proof (so_flow _ _ _ _ HO Ec EM) as HF.
        eapply addHeatExternalMP_succ; eauto; [apply (sy_perf HR Et)|lra| |].
        -- destruct IR as [IR|[IR _]]; auto. exfalso. rewrite Forall_forall in IR. apply (IR h (nth_error_In _ _ Hn)). split; auto.
        -- eapply Rle_trans; [|exact E3]. apply Rmult_le_compat_r; [left; apply Rinv_0_lt_compat; apply (wf_nodeVol_pos _ I1)|]. apply Rmult_le_compat_l; lra.
      * destruct HE as ((E1 & E2) & E3 & E4 & lo & E5 & (E6 & _) & E7).
        eapply (addHeatExternal_succ fuel i air lo D h); auto; [apply (sy_perf HR Et)| |apply (sy_max HR Et)|lra]. constructor; auto.
    + intros. apply succ_when. intros HX. bcase. lra.
  - destruct HDist as (d & Ed & Hd); [discriminate|]. eapply addHeatRes_succ; eauto. apply (sy_power HR Et).
Qed.

(** ** Control *)
Lemma oframe_hframe (w w' : W) : oframe w w' -> Forall2 hframe (w_hs w) (w_hs w').
Proof. intros HO. assert (HC : cframe noP w w') by (apply oframe_cframe; auto). destruct HC as (HF & _). eapply Forall2_impl'; [|exact HF]. cbn. tauto. Qed.
Lemma multi_hframe (hs hs' : list (hsrc R)) : Forall2 hframe hs hs' -> Forall (fun h => ~ multiPass h) hs -> Forall (fun h => ~ multiPass h) hs'.
Proof.
  intros HF. apply (Forall2_Forall hframe _ _ _ _ HF). intros h h' Hf HN HX. apply HN. unfold hframe in Hf. destruct HX as (X1 & X2 & X3). rewrite Hf in X1, X2, X3. split; [exact X1|split; [exact X2|exact X3]].
Qed.
Lemma good_oframe {X : Prop} {fuel} air D (w w' : W) : oframe w w' -> good X fuel air D w -> good X fuel air D w'.
Proof.
  intros HO (A & B & C & F). pose proof (oframe_hframe _ _ HO) as HF.
  split; [apply (heated_oframe air D w w' HO A)|]. split; [eapply can_oframe; eauto|]. destruct HO as [_ HO].
  assert (T : w_tank w' = w_tank w) by (rewrite HO; reflexivity). assert (S : w_setpoint w' = w_setpoint w) by (rewrite HO; reflexivity).
  assert (Q : w_minStep w' = w_minStep w) by (rewrite HO; reflexivity). clear HO.
  split; [|rewrite T; auto]. apply (extReady_frame fuel D (calmNow w) (calmNow w') w w'); rewrite ?T; auto.
  intros lo [L1 L2]. split; [rewrite T, S; auto|eapply multi_hframe; eauto].
Qed.
Lemma good_pres {X : Prop} {fuel} air D {A} (m : M W A) w a w' : pres oframe m -> m w = (Ok a, w') -> good X fuel air D w -> good X fuel air D w'.
Proof. intros HP E. apply good_oframe. eapply pres_Ok; eauto. Qed.
Lemma oframe_len (w w' : W) : oframe w w' -> length (w_hs w') = length (w_hs w) /\ w_tank w' = w_tank w /\
  w_compIx w' = w_compIx w /\ w_lowIx w' = w_lowIx w /\ w_vipIx w' = w_vipIx w /\ w_minStep w' = w_minStep w.
Proof. intros [HF ->]. pose proof (Forall2_length _ _ _ HF). splits; auto. Qed.
Lemma pres_len {A} (m : M W A) w a w' : pres oframe m -> m w = (Ok a, w') -> length (w_hs w') = length (w_hs w).
Proof. intros HP E. apply oframe_len. eapply pres_Ok; eauto. Qed.

Lemma cframe_len (w w' : W) : cframe noP w w' -> length (w_hs w') = length (w_hs w).
Proof. intros (HF & _). symmetry. eapply Forall2_length; eauto. Qed.

(** heating does not touch the setpoint *)
Lemma addHeatParent_sp {X : Prop} {fuel} air D i m (w w' : W) : 0 <= m <= w_minStep w -> good X fuel air D w -> addHeatParent fuel i air m w = (Ok tt, w') ->
  w_setpoint w' = w_setpoint w.
Proof.
  intros Hm (HI & [B _] & _) E. unfold addHeatParent in E.
  apply bind_inv in E. destruct E as (h & w1 & E0 & E). apply getHS_inv in E0. destruct E0 as [-> Hn].
  pose proof (ready_nth _ _ _ _ _ B Hn) as HR. destruct (h_type h) eqn:Ht.
  - apply bind_inv in E. destruct E as (w0 & w1 & E0 & E). apply get_inv in E0. destruct E0 as [-> ->].
    cbv zeta in E. pose proof (sy_low HR Ht) as HL. num_simpl.
    replace (Rleb air (h_mlAir h)) with false in E by (symmetry; apply Rleb_false; lra). cbn [andb] in E.
    apply bind_inv in E. destruct E as ([] & w1 & E1 & E). cbn [when] in E1. apply ret_inv in E1. destruct E1 as [-> _].
    apply bind_inv in E. destruct E as ([] & w2 & E2 & E).
    destruct (addHeatCond_heated air D fuel i h m w w2 Hn Ht Hm E2 HI) as (_ & _ & J3 & _).
    apply when_inv in E. destruct E as [[HT _]|[_ ->]]; [|auto]. exfalso. bcase. lra.
  - pose proof HI as [I1 I2 I3 I4 IR I5].
    assert (HO : srcOK (length (t_Ts (w_tank w))) air D h) by (rewrite Forall_forall in I4; apply I4; eapply nth_error_In; eauto).
    destruct (addHeatRes_spec fuel i m w w' h I1 I3 Hn Ht (so_power _ _ _ _ HO Ht) ltac:(lra) (so_dist _ _ _ _ HO (or_introl Ht)) E) as (rt & Ts' & -> & _). reflexivity.
Qed.
Lemma good_heated {X : Prop} {fuel} air D (w w' : W) : cframe noP w w' -> heatInv air D w' -> heatRel w w' -> w_setpoint w' = w_setpoint w ->
  good X fuel air D w -> good X fuel air D w'.
Proof.
  intros HF A' HR HS (A & [B C] & F & G). pose proof (hr_len _ _ HR) as HL.
  split; auto. split; [split; [eapply unitReady_cframe; eauto; lra|lia]|]. split; [|rewrite HL; auto].
  assert (HFF : Forall2 hframe (w_hs w) (w_hs w')) by (destruct HF as (HF & _); eapply Forall2_impl'; [|exact HF]; cbn; tauto).
  apply (extReady_frame fuel D (calmNow w) (calmNow w') w w'); auto; [rewrite (hr_tank _ _ HR); reflexivity|apply (hr_min _ _ HR)|].
  intros lo [L1 L2]. split; [|apply (hr_multi _ _ HR); auto]. rewrite HS. intros x Hx. split.
  - apply (hr_lo _ _ HR lo); auto. intros y Hy. apply (L1 y Hy).
  - apply (hr_hi _ _ HR L2 (w_setpoint w)); auto; [lra|]. intros y Hy. apply (L1 y Hy).
Qed.
Lemma addHeatParent_good {X : Prop} air D fuel i m (w w' : W) : 0 <= m <= w_minStep w -> good X fuel air D w -> addHeatParent fuel i air m w = (Ok tt, w') ->
  good X fuel air D w' /\ length (w_hs w') = length (w_hs w) /\ length (t_Ts (w_tank w')) = length (t_Ts (w_tank w)) /\ w_minStep w' = w_minStep w /\
  exists h, nth_error (w_hs w') i = Some h /\ 0 <= h_runtime h <= m.
Proof.
  intros Hm HG E. destruct (addHeatParent_heated _ _ _ _ _ _ _ Hm E (proj1 HG)) as (A' & HR & HX).
  assert (HF : cframe noP w w') by (eapply pres_Ok; [apply addHeatParent_cframe|exact E]).
  pose proof (hr_len _ _ HR) as HL. splits; auto.
  - eapply good_heated; eauto. eapply addHeatParent_sp; eauto.
  - apply cframe_len; auto.
  - apply (hr_min _ _ HR).
Qed.

Lemma topOff_succ {X : Prop} air D dr (w : W) : can X air D w -> succ (topOff dr) w.
Proof.
  intros HC. unfold topOff. apply succ_bind; [apply succ_get|]. intros w0 w1 E. apply get_inv in E. destruct E as [-> ->].
  destruct (_ && _)%bool; [|apply succ_ret].
  apply succ_bind.
  - apply succ_when. intros HH. eapply engageIx_succ; eauto. split; [apply Z.leb_le; auto|apply (rd_comp (proj1 HC))].
  - intros [] w1 E1. apply succ_when. intros HH.
    assert (HO : oframe w w1) by (apply when_inv in E1; destruct E1 as [[_ E1]|[_ ->]]; [eapply pres_Ok; [apply engageIx_oframe|exact E1]|apply oframe_refl]).
    eapply engageIx_succ; [eapply can_oframe; eauto|]. destruct (oframe_len _ _ HO) as (-> & _).
    split; [apply Z.leb_le; auto|apply (rd_low (proj1 HC))].
Qed.

Lemma checkOff_succ {X : Prop} air D i dr (w : W) : can X air D w -> (i < length (w_hs w))%nat -> succ (checkOff i dr) w.
Proof.
  intros HC Hi. unfold checkOff. apply succ_bind; [apply succ_getHS; auto|]. intros h w0 E0. apply getHS_inv in E0. destruct E0 as [-> Hn].
  destruct (h_on h); [|apply succ_ret]. apply succ_bind; [eapply ask_shutsOff; eauto|]. intros off w1 E1. apply askHS_inv in E1. destruct E1 as [-> _].
  destruct off; [|apply succ_ret]. apply succ_bind; [apply succ_modHS|]. intros [] w1 E1.
  assert (HO : oframe w w1) by (eapply pres_Ok; [apply disengage_oframe|exact E1]).
  assert (HC1 := can_oframe _ _ _ _ HO HC). destruct (oframe_len _ _ HO) as (L & _).
  destruct (h_backup h) as [b|] eqn:Eb; [|apply succ_ret].
  assert (Hb : (b < length (w_hs w1))%nat) by (rewrite L; apply (sy_backup (ready_nth _ _ _ _ _ (proj1 HC) Hn)); auto).
  apply succ_bind; [eapply ask_shutsOff; eauto|]. intros bo w2 E2. apply askHS_inv in E2. destruct E2 as [-> _].
  destruct bo; [apply succ_ret|]. eapply engageHS_succ; eauto.
Qed.

Lemma chooseOne_succ {X : Prop} air D dr i (w : W) : can X air D w -> (i < length (w_hs w))%nat -> succ (chooseOne dr i) w.
Proof.
  intros HC Hi. unfold chooseOne. apply succ_bind; [apply succ_get|]. intros w0 w1 E. apply get_inv in E. destruct E as [-> ->].
  destruct (w_heating w).
  - apply succ_bind; [eapply checkOff_succ; eauto|]. intros [] w1 E1.
    assert (HO : oframe w w1) by (eapply pres_Ok; [apply checkOff_oframe|exact E1]).
    assert (HC1 := can_oframe _ _ _ _ HO HC). destruct (oframe_len _ _ HO) as (L & _).
    apply succ_bind; [apply succ_getHS; lia|]. intros h w2 E2. apply getHS_inv in E2. destruct E2 as [-> Hn].
    destruct (h_vip h); [|apply succ_ret]. apply succ_bind; [eapply ask_shouldHeat; eauto; lia|]. intros need w2 E2. apply askHS_inv in E2. destruct E2 as [-> _].
    destruct need; [|apply succ_ret]. destruct (shouldDRLockOut _ _).
    + apply succ_bind; [apply succ_get|]. intros w2 w3 E. apply get_inv in E. destruct E as [-> ->].
      destruct (hasCompressor w1) eqn:Ec; [|apply succ_ret]. apply succ_bind; [|intros; apply succ_ret].
      eapply engageIx_succ; eauto. split; [apply Z.leb_le; auto|apply (rd_comp (proj1 HC1))].
    + apply succ_bind; [apply succ_modify|]. intros [] w2 E2.
      assert (HO2 : oframe w1 w2) by (eapply pres_Ok; [apply turnAllOff_oframe|exact E2]).
      apply succ_bind; [|intros; apply succ_ret]. eapply engageHS_succ; [eapply can_oframe; eauto|].
      destruct (oframe_len _ _ HO2) as (-> & _). lia.
  - apply succ_bind; [eapply ask_shouldHeat; eauto|]. intros need w1 E1. apply askHS_inv in E1. destruct E1 as [-> _].
    apply succ_bind; [|intros; apply succ_ret]. apply succ_when. intros _. eapply engageHS_succ; eauto.
Qed.

Lemma chooseLoop_succ {X : Prop} air D dr (w : W) : can X air D w -> succ (chooseLoop dr) w.
Proof.
  intros HC. unfold chooseLoop. apply succ_bind; [apply succ_get|]. intros w0 w1 E. apply get_inv in E. destruct E as [-> ->].
  assert (HB : Forall (fun i => i < length (w_hs w))%nat (seq 0 (numHS w))).
  { apply Forall_forall. intros i Hi. apply in_seq in Hi. unfold numHS in Hi. lia. }
  revert HB. generalize (seq 0 (numHS w)). intros l. revert w HC. induction l as [|i l IH]; intros w HC HB; cbn [forM_break]; [apply succ_ret|].
  apply succ_bind; [eapply chooseOne_succ; eauto; apply (Forall_inv HB)|]. intros stop w1 E1. destruct stop; [apply succ_ret|].
  assert (HO : oframe w w1) by (eapply pres_Ok; [apply chooseOne_oframe|exact E1]).
  apply IH; [eapply can_oframe; eauto|]. destruct (oframe_len _ _ HO) as (-> & _). apply (Forall_inv_tail HB).
Qed.

Lemma toLock_succ {X : Prop} air D i a (w : W) : can X air D w -> (i < length (w_hs w))%nat -> succ (toLockOrUnlock i a) w.
Proof.
  intros HC Hi. unfold toLockOrUnlock. apply succ_bind.
  { apply succ_askHS; auto. intros h Hn. unfold shouldLockOut. destruct (h_locked h); eauto.
    rewrite (maxedOut_no w _ _ _ _ (ready_nth _ _ _ _ _ (proj1 HC) Hn)). cbn. eauto. }
  intros lock w0 E0. apply askHS_inv in E0. destruct E0 as [-> _].
  apply succ_bind; [apply succ_when; intros; apply succ_modHS|]. intros [] w1 E1.
  assert (HO : oframe w w1).
  { apply when_inv in E1. destruct E1 as [[_ E1]|[_ ->]]; [|apply oframe_refl]. eapply pres_Ok; [|exact E1]. apply modHS_oframe. intros. apply set_locked_oframe. }
  assert (HC1 := can_oframe _ _ _ _ HO HC). destruct (oframe_len _ _ HO) as (L & _).
  apply succ_bind.
  { apply succ_askHS; [lia|]. intros h Hn. unfold shouldUnlock. destruct (negb (h_locked h)); eauto.
    rewrite (maxedOut_no w1 _ _ _ _ (ready_nth _ _ _ _ _ (proj1 HC1) Hn)). cbn. eauto. }
  intros unl w2 E2. apply askHS_inv in E2. destruct E2 as [-> _].
  apply succ_bind; [apply succ_when; intros; apply succ_modHS|]. intros [] w2 E2.
  assert (HO2 : oframe w1 w2).
  { apply when_inv in E2. destruct E2 as [[_ E2]|[_ ->]]; [|apply oframe_refl]. eapply pres_Ok; [|exact E2]. apply modHS_oframe. intros. apply set_locked_oframe. }
  destruct (oframe_len _ _ HO2) as (L2 & _).
  apply succ_bind; [apply succ_getHS; lia|]. intros. apply succ_ret.
Qed.

Lemma lockOne_succ {X : Prop} air D dr a i (w : W) : can X air D w -> (i < length (w_hs w))%nat -> succ (lockOne dr a i) w.
Proof.
  intros HC Hi. unfold lockOne. apply succ_bind; [apply succ_getHS; auto|]. intros h w0 E0. apply getHS_inv in E0. destruct E0 as [-> Hn].
  apply succ_bind.
  { destruct (shouldDRLockOut _ _); [apply succ_modHS|]. destruct (h_type h); [|apply succ_modHS].
    apply succ_bind; [eapply toLock_succ; eauto|]. intros. apply succ_ret. }
  intros [] w1 E1.
  assert (L : length (w_hs w1) = length (w_hs w)).
  { destruct (shouldDRLockOut _ _); [|destruct (h_type h)].
    - eapply pres_len; [apply modHS_oframe; intros; apply set_locked_oframe|exact E1].
    - apply bind_inv in E1. destruct E1 as (b & w2 & E1 & E2). apply ret_inv in E2. destruct E2 as [-> _]. eapply pres_len; [apply toLock_oframe|exact E1].
    - eapply pres_len; [apply modHS_oframe; intros; apply set_locked_oframe|exact E1]. }
  apply succ_bind; [apply succ_getHS; lia|]. intros h1 w2 E2. destruct (h_backup h1); [apply succ_ret|]. apply succ_when. intros. apply succ_modHS.
Qed.

Lemma heatTarget_succ {X : Prop} air D dr a i (w : W) : can X air D w -> (i < length (w_hs w))%nat -> succ (heatTarget dr a i) w.
Proof.
  intros HC Hi. unfold heatTarget. apply succ_bind; [apply succ_getHS; auto|]. intros h w0 E0. apply getHS_inv in E0. destruct E0 as [-> Hn].
  destruct (h_backup h) as [b|] eqn:Eb; [|apply succ_ret]. destruct (h_locked h); [|apply succ_ret].
  assert (Hb : (b < length (w_hs w))%nat) by (apply (sy_backup (ready_nth _ _ _ _ _ (proj1 HC) Hn)); auto).
  apply succ_bind; [apply succ_getHS; auto|]. intros hb w0 E0. apply getHS_inv in E0. destruct E0 as [-> Hnb]. cbv zeta.
  assert (HRL : succ (resLock i) w /\ pres oframe (resLock (T:=R) i)).
  { unfold resLock. split.
    - apply succ_bind; [apply succ_getHS; auto|]. intros. apply succ_ret.
    - apply (pres_bind oframe oframe_trans); [apply (getHS_pres _ oframe_refl)|]. intros. apply (pres_ret oframe oframe_refl). }
  destruct HRL as [HR1 HR2].
  apply succ_bind.
  { destruct (h_type hb); [eapply toLock_succ; eauto|]. destruct (h_type h); [apply succ_ret|auto]. }
  intros l2 w1 E1.
  assert (HO : oframe w w1).
  { destruct (h_type hb); [eapply pres_Ok; [apply toLock_oframe|exact E1]|]. destruct (h_type h); [apply ret_inv in E1; destruct E1 as [-> _]; apply oframe_refl|eapply pres_Ok; [exact HR2|exact E1]]. }
  assert (HC1 := can_oframe _ _ _ _ HO HC). destruct (oframe_len _ _ HO) as (L & _).
  destruct (_ || _)%bool; [apply succ_ret|].
  apply succ_bind; [apply succ_get|]. intros w2 w3 E. apply get_inv in E. destruct E as [-> ->].
  apply succ_bind.
  { destruct (Z.leb 0 (w_vipIx w1)) eqn:EV; [|apply succ_ret]. apply succ_bind; [|intros; apply succ_ret]. apply succ_getHS.
    pose proof (rd_vip (proj1 HC1)). apply Z.leb_le in EV. lia. }
  intros v w2 _. destruct (h_type hb); [apply succ_ret|]. destruct v; apply succ_ret.
Qed.
Lemma heatTarget_lt {X : Prop} air D dr a i (w w' : W) k : can X air D w -> (i < length (w_hs w))%nat -> heatTarget dr a i w = (Ok (Some k), w') -> (k < length (w_hs w))%nat.
Proof.
  intros HC Hi E. unfold heatTarget in E. apply bind_inv in E. destruct E as (h & w0 & E0 & E). apply getHS_inv in E0. destruct E0 as [-> Hn].
  destruct (h_backup h) as [b|] eqn:Eb; [|apply ret_inv in E; destruct E as [_ E]; inversion E; subst; auto].
  destruct (h_locked h); [|apply ret_inv in E; destruct E as [_ E]; inversion E; subst; auto].
  assert (Hb : (b < length (w_hs w))%nat) by (apply (sy_backup (ready_nth _ _ _ _ _ (proj1 HC) Hn)); auto).
  apply bind_inv in E. destruct E as (hb & w0 & E0 & E). cbv zeta in E.
  apply bind_inv in E. destruct E as (l2 & w1 & E1 & E). destruct (_ || _)%bool; [apply ret_inv in E; destruct E as [_ E]; discriminate|].
  apply bind_inv in E. destruct E as (wx & w2 & E2 & E). apply bind_inv in E. destruct E as (v & w3 & E3 & E).
  destruct (h_type hb); [|destruct v]; apply ret_inv in E; destruct E as [_ E]; inversion E; subst; auto.
Qed.

Lemma afterEarly_succ {X : Prop} air D fuel dr a m i (w : W) : can X air D w -> (i < length (w_hs w))%nat -> succ (afterEarly fuel dr a m i) w.
Proof.
  intros HC Hi. unfold afterEarly. apply succ_bind; [apply succ_modHS|]. intros [] w1 E1.
  assert (HO : oframe w w1) by (eapply pres_Ok; [apply disengage_oframe|exact E1]).
  assert (HC1 := can_oframe _ _ _ _ HO HC). destruct (oframe_len _ _ HO) as (L & _).
  apply succ_bind; [apply succ_getHS; lia|]. intros h w2 E2. apply getHS_inv in E2. destruct E2 as [-> Hn].
  pose proof (ready_nth _ _ _ _ _ (proj1 HC1) Hn) as HR.
  apply succ_bind.
  { destruct (h_followed h) as [f|] eqn:Ef; [|apply succ_ret]. apply succ_bind; [|intros; apply succ_ret].
    eapply ask_shutsOff; eauto. apply (sy_followed HR); auto. }
  intros fl w2 E2. destruct (h_followed h) as [f|] eqn:Ef.
  - apply bind_inv in E2. destruct E2 as (off & w3 & E3 & E2). apply askHS_inv in E3. destruct E3 as [-> _].
    apply ret_inv in E2. destruct E2 as [-> E2]. destruct off; subst fl.
    + apply succ_bind; [eapply ask_maxedOut; eauto; lia|]. intros mo w2 E3. apply askHS_inv in E3. destruct E3 as (-> & h0 & E3 & E4).
      rewrite Hn in E3. inversion E3; subst h0. rewrite (maxedOut_no w1 _ _ _ _ HR) in E4. inversion E4; subst mo.
      destruct (h_backup h); apply succ_ret.
    + eapply engageHS_succ; eauto. apply (sy_followed HR); auto.
  - apply ret_inv in E2. destruct E2 as [-> E2]. subst fl.
    apply succ_bind; [eapply ask_maxedOut; eauto; lia|]. intros mo w2 E3. apply askHS_inv in E3. destruct E3 as (-> & h0 & E3 & E4).
    rewrite Hn in E3. inversion E3; subst h0. rewrite (maxedOut_no w1 _ _ _ _ HR) in E4. inversion E4; subst mo.
    destruct (h_backup h); apply succ_ret.
Qed.

Lemma afterEarly_same {X : Prop} air D fuel dr m i (w w' : W) : can X air D w -> afterEarly fuel dr air m i w = (Ok tt, w') -> oframe w w'.
Proof.
  intros HC E. unfold afterEarly in E.
  apply bind_inv in E. destruct E as ([] & w1 & E1 & E).
  assert (HF1 : oframe w w1) by (eapply pres_Ok; [apply disengage_oframe|exact E1]). pose proof (can_oframe _ _ _ _ HF1 HC) as HC1.
  apply bind_inv in E. destruct E as (h & w2 & E0 & E). apply getHS_inv in E0. destruct E0 as [-> Hn].
  apply bind_inv in E. destruct E as (fl & w2 & E2 & E).
  assert (w2 = w1).
  { destruct (h_followed h); [|apply ret_inv in E2; tauto].
    apply bind_inv in E2. destruct E2 as (off & w3 & E3 & E2). apply askHS_inv in E3. destruct E3 as [-> _]. apply ret_inv in E2. tauto. }
  subst w2. destruct fl as [f|].
  - assert (HF2 : oframe w1 w') by (eapply pres_Ok; [apply engageHS_oframe|exact E]). eapply oframe_trans; eauto.
  - apply bind_inv in E. destruct E as (mo & w2 & E3 & E). apply askHS_inv in E3. destruct E3 as (-> & h0 & E3 & E4).
    rewrite Hn in E3. inversion E3; subst h0. rewrite (maxedOut_no w1 _ _ _ _ (ready_nth _ _ _ _ _ (proj1 HC1) Hn)) in E4. inversion E4; subst mo.
    destruct (h_backup h) as [b|]; apply ret_inv in E; destruct E as [-> _]; auto.
Qed.
Lemma heatOne_good {X : Prop} air D fuel dr i m m' (w w' : W) : 0 <= m <= w_minStep w -> good X fuel air D w -> heatOne fuel dr air i m w = (Ok m', w') ->
  good X fuel air D w' /\ w_setpoint w' = w_setpoint w.
Proof.
  intros Hm HG E. unfold heatOne in E.
  assert (HS : forall a b : W, oframe a b -> w_setpoint b = w_setpoint a /\ w_minStep b = w_minStep a) by (intros a b [_ ->]; split; reflexivity).
  apply bind_inv in E. destruct E as ([] & w1 & E1 & E).
  assert (HF1 : oframe w w1) by (eapply pres_Ok; [apply lockOne_oframe|exact E1]). pose proof (good_oframe _ _ _ _ HF1 HG) as G1. apply HS in HF1. destruct HF1 as [S1 M1].
  apply bind_inv in E. destruct E as (h & w2 & E0 & E). apply getHS_inv in E0. destruct E0 as [-> Hn].
  destruct (h_on h); [|apply ret_inv in E; destruct E as [-> _]; auto].
  apply bind_inv in E. destruct E as (tg & w2 & E2 & E).
  assert (HF2 : oframe w1 w2) by (eapply pres_Ok; [apply heatTarget_oframe|exact E2]). pose proof (good_oframe _ _ _ _ HF2 G1) as G2. apply HS in HF2. destruct HF2 as [S2 M2].
  destruct tg as [k|]; [|apply ret_inv in E; destruct E as [-> _]; split; auto; congruence].
  apply bind_inv in E. destruct E as ([] & w3 & E3 & E).
  assert (Hm2 : 0 <= m <= w_minStep w2) by (rewrite M2, M1; auto).
  pose proof (addHeatParent_sp air D k m w2 w3 Hm2 G2 E3) as S3. destruct (addHeatParent_good air D fuel k m w2 w3 Hm2 G2 E3) as (G3 & _).
  apply bind_inv in E. destruct E as (hk & w4 & E4 & E). apply getHS_inv in E4. destruct E4 as [-> Hn4].
  destruct (nltb _ _); [|apply ret_inv in E; destruct E as [-> _]; split; auto; congruence].
  cbv zeta in E. apply bind_inv in E. destruct E as ([] & w4 & E4 & E). apply ret_inv in E. destruct E as [-> _].
  pose proof (afterEarly_same _ _ _ _ _ _ _ _ (proj1 (proj2 G3)) E4) as HF. split; [eapply good_oframe; eauto|]. apply HS in HF. destruct HF. congruence.
Qed.

(** the loop over the sources: time left stays positive *)
Lemma heatOne_succ {X : Prop} air D fuel dr i m (w : W) : good X fuel air D w -> (i < length (w_hs w))%nat -> (length (t_Ts (w_tank w)) < fuel)%nat -> 0 < m <= w_minStep w ->
  exists m' w', heatOne fuel dr air i m w = (Ok m', w') /\ good X fuel air D w' /\ length (w_hs w') = length (w_hs w) /\
    length (t_Ts (w_tank w')) = length (t_Ts (w_tank w)) /\ 0 < m' <= w_minStep w'.
Proof.
  intros HG Hi Hf Hm.
  assert (HS : succ (heatOne fuel dr air i m) w).
  { unfold heatOne. apply succ_bind; [eapply lockOne_succ; eauto; apply (proj1 (proj2 HG))|]. intros [] w1 E1.
    assert (HO : oframe w w1) by (eapply pres_Ok; [apply lockOne_oframe|exact E1]).
    assert (HG1 := good_oframe _ _ _ _ HO HG). destruct (oframe_len _ _ HO) as (L & LT & _ & _ & _ & LM).
    apply succ_bind; [apply succ_getHS; lia|]. intros h w2 E2. apply getHS_inv in E2. destruct E2 as [-> Hn].
    destruct (h_on h); [|apply succ_ret]. apply succ_bind; [eapply heatTarget_succ; eauto; [apply (proj1 (proj2 HG1))|lia]|]. intros tg w2 E2.
    assert (HO2 : oframe w1 w2) by (eapply pres_Ok; [apply heatTarget_oframe|exact E2]).
    assert (HG2 := good_oframe _ _ _ _ HO2 HG1). destruct (oframe_len _ _ HO2) as (L2 & LT2 & _ & _ & _ & LM2).
    destruct tg as [k|]; [|apply succ_ret].
    assert (Hk : (k < length (w_hs w1))%nat) by (eapply heatTarget_lt; [apply (proj1 (proj2 HG1))| |exact E2]; lia).
    apply succ_bind; [eapply addHeatParent_succ; eauto; [lia|rewrite LT2, LT; auto|rewrite LM2, LM; lra]|]. intros [] w3 E3.
    destruct (addHeatParent_good (X:=X) air D fuel k m w2 w3) as (HG3 & L3 & _ & _ & hk & Hk1 & Hk2); auto; [rewrite LM2, LM; lra|].
    apply succ_bind; [apply succ_getHS; lia|]. intros hk' w4 E4. apply getHS_inv in E4. destruct E4 as [-> _].
    destruct (nltb _ _); [|apply succ_ret]. cbv zeta. apply succ_bind; [|intros; apply succ_ret]. eapply afterEarly_succ; [apply (proj1 (proj2 HG3))|lia]. }
  destruct HS as (m' & w' & E). exists m', w'. split; auto.
  destruct (heatOne_good (X:=X) air D fuel dr i m m' w w') as (HG' & _); auto; [lra|].
  destruct HG as (HI & _).
  destruct (heatOne_heated air D fuel dr i m m' w w') as (HI' & HR & Hm'); auto; [lra|].
  assert (HF : cframe noP w w') by (eapply pres_Ok; [apply heatOne_cframe|exact E]).
  assert (0 < m').
  { clear HF HI' HR HG'. unfold heatOne in E. apply bind_inv in E. destruct E as ([] & w1 & _ & E). apply bind_inv in E. destruct E as (h & w2 & _ & E).
    destruct (h_on h); [|apply ret_inv in E; destruct E as [_ E]; lra]. apply bind_inv in E. destruct E as (tg & w3 & _ & E).
    destruct tg as [k|]; [|apply ret_inv in E; destruct E as [_ E]; lra]. apply bind_inv in E. destruct E as ([] & w4 & _ & E).
    apply bind_inv in E. destruct E as (hk & w5 & _ & E). num_simpl. destruct (Rltb (h_runtime hk) m) eqn:EL; [|apply ret_inv in E; destruct E as [_ E]; lra].
    bcase. cbv zeta in E. apply bind_inv in E. destruct E as ([] & w6 & _ & E). apply ret_inv in E. destruct E as [_ E]. lra. }
  pose proof (hr_len _ _ HR) as HL. pose proof (hr_min _ _ HR) as HM. splits; auto; try lra.
  apply cframe_len; auto.
Qed.

Lemma heatSources_succ {X : Prop} air D fuel dr (w : W) : good X fuel air D w -> (length (t_Ts (w_tank w)) < fuel)%nat -> 0 < w_minStep w -> succ (heatSources fuel dr air) w.
Proof.
  intros HG Hf Hm. unfold heatSources. apply succ_bind; [apply succ_get|]. intros w0 w1 E. apply get_inv in E. destruct E as [-> ->].
  apply succ_bind; [|intros; apply succ_ret].
  assert (HB : Forall (fun i => i < length (w_hs w))%nat (seq 0 (numHS w))).
  { apply Forall_forall. intros i Hi. apply in_seq in Hi. unfold numHS in Hi. lia. }
  assert (HA : forall l (w : W) m, good X fuel air D w -> (length (t_Ts (w_tank w)) < fuel)%nat -> Forall (fun i => i < length (w_hs w))%nat l ->
    0 < m <= w_minStep w -> succ (foldM l (heatOne fuel dr air) m) w).
  { clear. induction l as [|i l IH]; intros w m HG Hf HB Hm; cbn [foldM]; [apply succ_ret|].
    destruct (heatOne_succ (X:=X) air D fuel dr i m w) as (m' & w' & E & HG' & L & LT & Hm'); auto; [apply (Forall_inv HB)|].
    apply succ_bind; [exists m', w'; exact E|]. intros m2 w2 E2. rewrite E in E2. inversion E2; subst m2 w2.
    apply IH; auto; [lia|]. rewrite L. apply (Forall_inv_tail HB). }
  apply HA; auto. lra.
Qed.

Lemma control_succ {X : Prop} air D fuel dr (w : W) : good X fuel air D w -> (length (t_Ts (w_tank w)) < fuel)%nat -> 0 < w_minStep w -> succ (control fuel dr air) w.
Proof.
  intros HG Hf Hm. unfold control. destruct (_ && _)%bool; [apply succ_modify|].
  apply succ_bind; [eapply topOff_succ; apply (proj1 (proj2 HG))|]. intros [] w1 E1.
  assert (HO : oframe w w1) by (eapply pres_Ok; [apply topOff_oframe|exact E1]).
  assert (HG1 := good_oframe _ _ _ _ HO HG). destruct (oframe_len _ _ HO) as (L & LT & _ & _ & _ & LM).
  apply succ_bind; [eapply chooseLoop_succ; apply (proj1 (proj2 HG1))|]. intros [] w2 E2.
  assert (HO2 : oframe w1 w2) by (eapply pres_Ok; [apply chooseLoop_oframe|exact E2]).
  assert (HG2 := good_oframe _ _ _ _ HO2 HG1). destruct (oframe_len _ _ HO2) as (L2 & LT2 & _ & _ & _ & LM2).
  eapply heatSources_succ; eauto; [rewrite LT2, LT|rewrite LM2, LM]; auto.
Qed.

Lemma control_sp {X : Prop} air D fuel dr (w w' : W) : good X fuel air D w -> 0 <= w_minStep w -> control fuel dr air w = (Ok tt, w') -> w_setpoint w' = w_setpoint w.
Proof.
  intros HG Hm E. unfold control in E. destruct (_ && _)%bool; [apply modify_inv in E; rewrite E; reflexivity|].
  assert (HS : forall a b : W, oframe a b -> w_setpoint b = w_setpoint a /\ w_minStep b = w_minStep a) by (intros a b [_ ->]; split; reflexivity).
  apply bind_inv in E. destruct E as ([] & w1 & E1 & E).
  assert (HO : oframe w w1) by (eapply pres_Ok; [apply topOff_oframe|exact E1]). pose proof (good_oframe _ _ _ _ HO HG) as G1. apply HS in HO. destruct HO as [S1 M1].
  apply bind_inv in E. destruct E as ([] & w2 & E2 & E).
  assert (HO2 : oframe w1 w2) by (eapply pres_Ok; [apply chooseLoop_oframe|exact E2]). pose proof (good_oframe _ _ _ _ HO2 G1) as G2. apply HS in HO2. destruct HO2 as [S2 M2].
  unfold heatSources in E. apply bind_inv in E. destruct E as (w0 & w3 & E0 & E). apply get_inv in E0. destruct E0 as [-> ->].
  apply bind_inv in E. destruct E as (mm & w3 & E3 & E). apply ret_inv in E. destruct E as [-> _]. rewrite <- S1, <- S2. clear S1 S2 E1 E2 HG G1.
  assert (Hm2 : exists m0, m0 = w_minStep w2 /\ 0 <= m0 <= w_minStep w2) by (exists (w_minStep w2); lra). destruct Hm2 as (m0 & Em & Hm2). rewrite <- Em in E3. clear Em. revert m0 Hm2 E3. generalize (seq 0 (numHS w2)). clear M1 M2 Hm HS. revert w2 G2.
  intros v G l. revert v G. induction l as [|i l IH]; intros v G m Hm E; cbn [foldM] in E; [apply ret_inv in E; destruct E as [-> _]; reflexivity|].
  apply bind_inv in E. destruct E as (m1 & v1 & E1 & E).
  destruct (heatOne_good air D fuel dr i m m1 v v1 Hm G E1) as [G1 S1].
  destruct (heatOne_heated air D fuel dr i m m1 v v1 Hm E1 (proj1 G)) as (_ & R1 & Hm1).
  rewrite (IH v1 G1 m1); auto. rewrite (hr_min _ _ R1). lra.
Qed.

(** ** A whole step *)
Lemma drawPhase_succ fuel draw inT v2 inT2 t : wf_tank t -> (0 < draw -> v2 <= draw) -> t_mixBelowFrac t <= 1 ->
  (length (t_Ts t) * length (t_Ts t) < fuel)%nat -> draw / t_nodeVol t <= INR fuel ->
  exists t', drawPhase fuel draw inT v2 inT2 t = (Ok tt, t').
Proof.
  intros Hwf Hv Hmf Hf Hd. destruct (Rle_dec draw 0) as [H0|H0].
  { unfold drawPhase. num_simpl. replace (Rltb 0 draw) with false by (symmetry; apply Rltb_false; auto). unfold ret. eauto. }
  specialize (Hv ltac:(lra)). destruct (t_hasHX t) eqn:Hx; [|apply C07_draw_terminates_fact; auto].
  unfold drawPhase. num_simpl. replace (Rltb 0 draw) with true by (symmetry; apply Rltb_true; lra).
  replace (Rltb draw v2) with false by (symmetry; apply Rltb_false; auto).
  unfold bind at 1, get at 1. cbv beta iota zeta. rewrite Hx.
  destruct (hxDraw _ _ _ _ _) as [Ts outT] eqn:EH. unfold bind at 1, modify at 1. cbv beta iota. unfold bind, get. cbv beta iota.
  assert (HL : length Ts = length (t_Ts t)).
  { pose proof (hxDraw_len (CPWATER * DENSITYWATER * draw) (t_nodeCp t) (t_nodeHxEff t) (t_Ts t) inT) as HL. rewrite EH in HL. exact HL. }
  destruct (t_mixesOnDraw _); [|unfold ret; eauto].
  unfold numNodes. wsimpl. rewrite HL, nofN_R. set (k := length (t_Ts t)).
  destruct (Z.ltb _ _) eqn:Eb; [|unfold modify; eauto]. exfalso. apply Z.ltb_lt in Eb.
  assert (INR k * t_mixBelowFrac t <= INR k) by (pose proof (pos_INR k); nra).
  assert (Ht : IZR (Rtrunc (INR k * t_mixBelowFrac t)) <= INR k).
  { unfold Rtrunc. rcase.
    - assert (IZR (Rceil (INR k * t_mixBelowFrac t)) < 1).
      { pose proof (Rceil_spec (INR k * t_mixBelowFrac t)). lra. }
      assert (IZR (Rceil (INR k * t_mixBelowFrac t)) <= 0).
      { apply IZR_le. apply lt_IZR in H1. lia. }
      pose proof (pos_INR k). lra.
    - pose proof (Rfloor_spec (INR k * t_mixBelowFrac t)). lra. }
  rewrite INR_IZR_INZ in Ht. apply le_IZR in Ht. rewrite <- INR_IZR_INZ in Ht. lia.
Qed.

Lemma updateSoC_succ {X : Prop} air D (w : W) : unitReadyX X air D w -> succ updateSoC w.
Proof.
  intros HR. unfold updateSoC. apply succ_bind; [apply succ_get|]. intros w0 w1 E. apply get_inv in E. destruct E as [-> ->].
  destruct (w_usesSoC w) eqn:EU; [|apply succ_ret].
  destruct (rd_soc HR EU) as (h & H0 & Hn & d & a & b & c & e & f & g & i & r & HT).
  apply succ_bind; [|intros; apply succ_modify].
  eapply succ_lift. unfold calcSoC. replace (Z.ltb (w_compIx w) 0) with false by (symmetry; apply Z.ltb_ge; auto).
  rewrite Hn, HT. reflexivity.
Qed.

Definition succT {S A} (m : M S A) (s : S) (P : S -> Prop) : Prop := exists a s', m s = (Ok a, s') /\ P s'.
Lemma succT_bind {S A B} (m : M S A) (f : A -> M S B) s (P : S -> Prop) :
  succ m s -> (forall a s', m s = (Ok a, s') -> succT (f a) s' P) -> succT (bind m f) s P.
Proof. intros (a & s' & E) HF. destruct (HF a s' E) as (b & s2 & E2 & HP). exists b, s2. unfold bind. rewrite E. auto. Qed.

Lemma step_succ_ext {X : Prop} fuel x D (w : W) : unitOK (sourceAir w x) D w -> covered D x w -> unitReadyX X (sourceAir w x) D w ->
  extReady fuel D (fun lo => calm lo (w_setpoint w) x w) w ->
  0 < w_minStep w -> (w_doDepress w = true -> w_minStep w = 1) ->
  (0 < i_draw x -> i_vol2 x <= i_draw x) -> t_mixBelowFrac (w_tank w) <= 1 ->
  (t_doCond (w_tank w) = true -> condTau (w_tank w) (w_secStep w) <= 1) ->
  extraList x = [] ->
  (length (t_Ts (w_tank w)) * length (t_Ts (w_tank w)) < fuel)%nat -> i_draw x / t_nodeVol (w_tank w) <= INR fuel ->
  exists w', runOneStep fuel x w = (Ok tt, w') /\ w_setpoint w' = w_setpoint w.
Proof.
  intros HUn HCv HR HEx Hm Hdep Hv Hmf Htau Hex Hf Hd.
  pose proof HUn as [U1 U2 U3 U4 U5].
  enough (succT (runOneStep fuel x) w (fun w' => w_setpoint w' = w_setpoint w)) as (u & w' & E & HS) by (destruct u; eauto).
  assert (Hn := wf_n _ U1).
  unfold runOneStep. apply succT_bind; [apply succ_get|]. intros w0 w1 E. apply get_inv in E. destruct E as [-> ->].
  replace (w_doDepress w && nneqb (w_minStep w) (nofZ 1))%bool with false.
  2:{ destruct (w_doDepress w); auto. cbn [andb]. rewrite (Hdep eq_refl). unfold nneqb. num_simpl. unfold Reqb'. destruct (Req_EM_T 1 1); [reflexivity|congruence]. }
  apply succT_bind; [apply succ_modify|]. intros [] wr Er. apply modify_inv in Er.
  assert (R1 : w_hs wr = map resetHS (w_hs w)) by (rewrite Er; reflexivity).
  assert (R2 : w_tank wr = resetTank w) by (rewrite Er; reflexivity).
  assert (R3 : w_minStep wr = w_minStep w) by (rewrite Er; reflexivity).
  assert (R4 : w_doDepress wr = w_doDepress w) by (rewrite Er; reflexivity).
  assert (R5 : w_locT wr = w_locT w) by (rewrite Er; reflexivity).
  assert (R6 : w_secStep wr = w_secStep w) by (rewrite Er; reflexivity).
  assert (HRr : unitReadyX X (sourceAir w x) D wr).
  { apply (unitReady_frame _ _ w); auto; try (rewrite Er; reflexivity).
    - rewrite R1. apply Forall2_map_l. intros h. unfold hframe, resetHS. destruct h; reflexivity.
    - rewrite Er. apply Rle_refl. }
  rename Er into Ewr. clear HR.
  apply succT_bind.
  { unfold stepAmbient. apply succ_bind; [apply succ_get|]. intros w0 w1 E. destruct (w_doDepress w0); [|apply succ_ret].
    apply succ_bind; [apply succ_when; intros; apply succ_modify|]. intros. apply succ_bind; [apply succ_get|]. intros. apply succ_ret. }
  intros [ta ha] wa Ea. apply stepAmbient_inv in Ea. destruct Ea as (l & Ea & El & Eta & Eha).
  assert (Hha : ha = sourceAir w x).
  { rewrite Eha, El, R4, R5. unfold sourceAir, locationAir. num_simpl. unfold Reqb'. destruct (w_doDepress w); auto. destruct (Req_EM_T _ _); reflexivity. }
  assert (A1 : w_hs wa = map resetHS (w_hs w)) by (rewrite Ea, <- R1; reflexivity).
  assert (A2 : w_tank wa = resetTank w) by (rewrite Ea, <- R2; reflexivity).
  assert (A3 : w_minStep wa = w_minStep w) by (rewrite Ea, <- R3; reflexivity).
  assert (A6 : w_secStep wa = w_secStep w) by (rewrite Ea, <- R6; reflexivity).
  assert (HRa : unitReadyX X (sourceAir w x) D wa).
  { apply (unitReady_frame _ _ wr); auto; try (rewrite Ea; reflexivity).
    - rewrite A1, R1. apply Forall2_refl'. intros h. unfold hframe. destruct h; reflexivity.
    - rewrite Ea. apply Rle_refl. }
  assert (Hta : ta = tankAir w x).
  { rewrite Eta, El, R4, R5. unfold tankAir, locationAir. num_simpl. unfold Reqb'. destruct (w_doDepress w); auto. destruct (Req_EM_T _ _); reflexivity. }
  assert (A7 : w_hrStep wa = w_hrStep w) by (rewrite Ea, Ewr; reflexivity).
  assert (A8 : w_inletT wa = w_inletT w) by (rewrite Ea, Ewr; reflexivity).
  assert (A9 : w_setpoint wa = w_setpoint w) by (rewrite Ea, Ewr; reflexivity).
  clear Ea El Eta Eha HRr Ewr. rewrite Hha. clear ha Hha. set (air := sourceAir w x) in *. clearbody air.
  apply succT_bind; [apply succ_get|]. intros w0 w1 E. apply get_inv in E. destruct E as [-> ->].
  assert (HWr : wf_tank (resetTank w)) by (destruct U1 as [B C D0 F]; constructor; auto).
  assert (HU : exists t', updateNodes fuel (w_hrStep wa) (w_secStep wa) (i_draw x) (w_inletT wa) ta (i_vol2 x) (i_inT2 x) (resetTank w) = (Ok tt, t')).
  { unfold updateNodes. destruct (drawPhase_succ fuel (i_draw x) (w_inletT wa) (i_vol2 x) (i_inT2 x) (resetTank w)) as [t1 E1]; auto.
    destruct (drawPhase_heat _ _ _ _ _ _ _ HWr U2 E1) as (B1 & _).
    assert (Hwf1 := sameTank_wf _ _ B1 HWr). destruct B1 as [L1 F1].
    destruct (C09_standby_succeeds_fact fuel (w_hrStep wa) (w_secStep wa) ta t1) as [t2 E2]; auto.
    - rewrite L1. exact Hf.
    - rewrite A6, F1. exact Htau.
    - exists t2. unfold bind. rewrite E1. exact E2. }
  destruct HU as [t1 HU].
  apply succT_bind. { exists tt, (set_w_tank t1 wa). unfold onTank. rewrite A2, HU. reflexivity. }
  intros [] wb Eb. apply onTank_inv in Eb. destruct Eb as (t1' & Eb & Ewb). rewrite A2, HU in Eb. inversion Eb; subst t1'. clear Eb.
  assert (U2r : ports_ok (resetTank w)) by exact U2. assert (U3r : t_doMix (resetTank w) = true) by exact U3.
  destruct (updateNodes_heat _ _ _ _ _ _ _ _ _ _ HWr U2r U3r HU) as (T1 & T2 & T3 & _).
  rewrite A6, A7, A8, Hta in HU. pose proof (fun lo hi => nodes_within fuel x w t1 lo hi U1 U2 U3) as HNW.
  assert (HNW' : forall lo hi, calm lo hi x w -> within lo hi (t_Ts t1)) by (intros; eapply HNW; eauto). clear HU HNW.
  assert (B1 : w_hs wb = map resetHS (w_hs w)) by (rewrite Ewb, <- A1; reflexivity).
  assert (B2 : w_tank wb = t1) by (rewrite Ewb; reflexivity).
  assert (B3 : w_minStep wb = w_minStep w) by (rewrite Ewb, <- A3; reflexivity).
  assert (B9 : w_setpoint wb = w_setpoint w) by (rewrite Ewb, <- A9; reflexivity).
  assert (HRb : unitReadyX X air D wb).
  { apply (unitReady_frame _ _ wa); auto; try (rewrite Ewb; reflexivity).
    - rewrite A1, B1. apply Forall2_refl'. intros h. unfold hframe. destruct h; reflexivity.
    - rewrite Ewb. apply Rle_refl. }
  clear Ewb HRa.
  apply succT_bind; [eapply updateSoC_succ; eauto|]. intros [] wc Ec. apply updateSoC_inv in Ec.
  assert (C1 : w_hs wc = map resetHS (w_hs w)) by (rewrite Ec, <- B1; reflexivity).
  assert (C2 : w_tank wc = t1) by (rewrite Ec, <- B2; reflexivity).
  assert (C3 : w_minStep wc = w_minStep w) by (rewrite Ec, <- B3; reflexivity).
  assert (C9 : w_setpoint wc = w_setpoint w) by (rewrite Ec, <- B9; reflexivity).
  assert (HRc : unitReadyX X air D wc).
  { apply (unitReady_frame _ _ wb); auto; try (rewrite Ec; reflexivity).
    - rewrite C1, B1. apply Forall2_refl'. intros h. unfold hframe. destruct h; reflexivity.
    - rewrite Ec. apply Rle_refl. }
  clear Ec HRb.
  change (t_Ts (resetTank w)) with (t_Ts (w_tank w)) in *.
  assert (HG : good X fuel air D wc).
  { split; [|split; [split; auto; rewrite C2; lia|split; [|rewrite C2, T1; auto]]].
    2:{ apply (extReady_frame fuel D (fun lo => calm lo (w_setpoint w) x w) (calmNow wc) w wc); auto.
        - rewrite C1. apply Forall2_map_l. intros h. unfold hframe, resetHS. destruct h; reflexivity.
        - rewrite C2, T1. reflexivity.
        - rewrite C2, T2. reflexivity.
        - intros lo HCa. split; [rewrite C2, C9; auto|]. rewrite C1. apply (multi_hframe (w_hs w)).
          + apply Forall2_map_l. intros h. unfold hframe, resetHS. destruct h; reflexivity.
          + apply (cu_multi _ _ _ (ca_unit _ _ _ _ HCa)). }
    constructor; rewrite ?C1, ?C2, ?C3.
    - rewrite T2. destruct HWr as [B C D0 F]. constructor; cbn [set_t_stby set_t_outletT set_t_Ts t_Ts t_volume t_nodeVol t_nodeCp]; rewrite ?T1; auto.
    - rewrite T2. exact U3.
    - exact T3.
    - rewrite T1. apply Forall_forall. intros h Hh. apply in_map_iff in Hh. destruct Hh as (h0 & <- & Hh0).
      apply srcOK_reset. rewrite Forall_forall in U4. auto.
    - destruct HCv as [HA|(lo & hi & HD & HCa)].
      + left. destruct (lo_hi_within (t_Ts (w_tank wc))) as [lo Hl]. exists lo. split; auto.
      + right. split.
        * rewrite C1. pose proof (cu_multi _ _ _ (ca_unit _ _ _ _ HCa)) as Hmp. apply Forall_forall. intros h Hh. apply in_map_iff in Hh. destruct Hh as (h0 & <- & Hh0).
          rewrite Forall_forall in Hmp. intros HX. apply (Hmp h0 Hh0). exact HX.
        * exists lo, hi. rewrite C9, C2. splits; auto. apply (cu_sp _ _ _ (ca_unit _ _ _ _ HCa)).
    - apply Forall_forall. intros h Hh. apply in_map_iff in Hh. destruct Hh as (h0 & <- & Hh0). cbn. lra. }
  apply succT_bind; [apply (control_succ (X:=X) _ D); auto; [rewrite C2, T1; nia|lra]|]. intros [] wd Ed.
  apply (control_sp (X:=X) _ D) in Ed; auto; [|lra]. rewrite C9 in Ed. clear HG HRc.
  apply succT_bind; [apply succ_modify|]. intros [] we Ee. apply modify_inv in Ee.
  assert (We : w_setpoint we = w_setpoint w) by (rewrite Ee, <- Ed; unfold afterControl; destruct (allOff wd); reflexivity). clear Ee Ed.
  assert (HX : stepExtra fuel x we = (Ok tt, we)).
  { unfold stepExtra. unfold extraList in Hex. destruct (i_extra x) as [[|e r]|]; try discriminate; reflexivity. }
  apply succT_bind; [exists tt, we; exact HX|]. intros [] wf Ef. rewrite HX in Ef. inversion Ef; subst wf.
  apply succT_bind; [apply succ_modify|]. intros [] wg Eg. apply modify_inv in Eg.
  assert (Wg : w_setpoint wg = w_setpoint w) by (rewrite Eg, <- We; unfold stepDepress; destruct (w_doDepress we); reflexivity). clear Eg.
  apply succT_bind; [apply succ_modify|]. intros [] wh Eh. apply modify_inv in Eh.
  assert (Wh : w_setpoint wh = w_setpoint w) by (rewrite Eh, <- Wg; reflexivity). clear Eh.
  exists tt. eexists. split; [reflexivity|]. rewrite <- Wh. unfold stepTimer. destruct (_ && _)%bool; [|destruct (_ && _)%bool]; reflexivity.
Qed.

Lemma extReady_none fuel air D (Q : R -> Prop) (w : W) : unitReady air D w -> extReady fuel D Q w.
Proof.
  intros [HS _ _ _ _] h Hin Ht Hc. rewrite Forall_forall in HS. destruct (sy_config (HS h Hin) Ht Hc).
Qed.
Lemma unitReady_weaken {X : Prop} air D (w : W) : unitReady air D w -> unitReadyX X air D w.
Proof.
  intros [A1 A2 A3 A4 A5]. constructor; auto. eapply Forall_impl; [|exact A1].
  intros h [B1 B2 B3 B4 B5 B6 B7 B8 B9 B10 B11 B12 B13]. constructor; auto; try (intros HT HC; exfalso; eauto; fail).
Qed.
Lemma step_succ fuel x D (w : W) : unitOK (sourceAir w x) D w -> covered D x w -> unitReady (sourceAir w x) D w ->
  0 < w_minStep w -> (w_doDepress w = true -> w_minStep w = 1) ->
  (0 < i_draw x -> i_vol2 x <= i_draw x) -> t_mixBelowFrac (w_tank w) <= 1 ->
  (t_doCond (w_tank w) = true -> condTau (w_tank w) (w_secStep w) <= 1) ->
  extraList x = [] ->
  (length (t_Ts (w_tank w)) * length (t_Ts (w_tank w)) < fuel)%nat -> i_draw x / t_nodeVol (w_tank w) <= INR fuel ->
  exists w', runOneStep fuel x w = (Ok tt, w').
Proof. intros HU HC HR. intros. destruct (step_succ_ext (X:=False) fuel x D w) as (w' & E & _); eauto. eapply extReady_none; eauto. Qed.

(** ** Runs of several steps *)
Definition cfg (w : W) := (w_haveInletT w, w_usesSoC w, w_compIx w, w_lowIx w, w_vipIx w, w_secStep w).
Lemma step_cfg fuel x (w w' : W) : runOneStep fuel x w = (Ok tt, w') -> cfg w' = cfg w.
Proof.
  intros E. apply runOneStep_inv in E. destruct E as (w1 & w2 & w3 & air & HP & HC & HE & Hw').
  assert (C1 : cfg w1 = cfg w) by (destruct HP as (l & t & sc & -> & _); reflexivity). clear HP.
  assert (C2 : cfg w2 = cfg w1).
  { pose proof (control_cframe fuel (i_dr x) air w1) as HF. rewrite HC in HF. cbn [snd] in HF. destruct HF as (_ & _ & HF). rewrite HF. destruct w1; reflexivity. }
  assert (C3 : cfg (afterControl w2) = cfg w2) by (unfold afterControl; destruct (allOff w2); destruct w2; reflexivity).
  assert (C4 : cfg w3 = cfg (afterControl w2)).
  { destruct (stepExtra_frame _ _ _ _ HE) as (_ & _ & G). rewrite G. destruct (afterControl w2); reflexivity. }
  assert (C5 : cfg (stepDepress (i_amb x) w3) = cfg w3) by (unfold stepDepress; destruct (w_doDepress w3); destruct w3; reflexivity).
  set (w4 := stepDepress (i_amb x) w3) in *. clearbody w4.
  assert (C6 : cfg (stepSettle w4) = cfg w4) by (unfold stepSettle; destruct w4; reflexivity).
  set (w5 := stepSettle w4) in *. clearbody w5.
  assert (C7 : cfg (stepTimer (i_dr x) w5) = cfg w5).
  { unfold stepTimer. destruct (_ && _)%bool; [|destruct (_ && _)%bool]; destruct w5; reflexivity. }
  congruence.
Qed.

Lemma logicReady_true have l : logicReady have l -> logicReady true l.
Proof. destruct l; cbn; auto. Qed.
Lemma setInlet_ready {X : Prop} air D T (w : W) : unitReadyX X air D w -> unitReadyX X air D (setInletT T w).
Proof.
  intros [A1 A2 A3 A4 A5]. constructor; auto. unfold setInletT. wsimpl. eapply Forall_impl; [|exact A1].
  intros h [B1 B2 B3 B4 B5 B6 B7 B8 B9 B10 B11 B12 B13]. constructor; auto.
  - eapply Forall_impl; [|exact B4]. intros l. apply logicReady_true.
  - eapply Forall_impl; [|exact B5]. intros l. apply logicReady_true.
  - intros l Hl. eapply logicReady_true; eauto.
Qed.

Lemma runs_succ_ext {X : Prop} fuel D rows : forall (w : W), w_doDepress w = false -> 0 < w_minStep w ->
  coveredRun D rows w ->
  (forall r, In r rows -> unitOK (r_ext r) D w /\ unitReadyX X (r_ext r) D w /\ 0 <= r_draw r /\ r_draw r / t_nodeVol (w_tank w) <= INR fuel) ->
  extReady fuel D (fun lo => calmRun rows lo (w_setpoint w) w) w ->
  t_mixBelowFrac (w_tank w) <= 1 -> (t_doCond (w_tank w) = true -> condTau (w_tank w) (w_secStep w) <= 1) ->
  (length (t_Ts (w_tank w)) * length (t_Ts (w_tank w)) < fuel)%nat ->
  exists ws wl, SeqProofs.runs fuel rows w ws wl.
Proof.
  induction rows as [|r rows IH]; intros w Hdep Hm HCR HU HEx Hmf Htau Hf; [exists [], w; constructor|].
  destruct (HU r (or_introl eq_refl)) as (U1 & U2 & U3 & U4).
  pose proof (coveredRun_first _ _ _ _ HCR) as HCf.
  pose proof (fun w1 HX HS => coveredRun_next D fuel r rows w w1 HX HS HCR) as HCn.
  assert (HKn : forall w1 lo, unitOK (sourceAir (setInletT (r_inletT r) w) (row_step r)) D (setInletT (r_inletT r) w) ->
    runOneStep fuel (row_step r) (setInletT (r_inletT r) w) = (Ok tt, w1) -> (forall c, lo <= c <= w_setpoint w -> D c) ->
    calmRun (r :: rows) lo (w_setpoint w) w -> calmRun rows lo (w_setpoint w) w1) by (intros; eapply calmRun_next; eauto).
  assert (HKf : extReady fuel D (fun lo => calm lo (w_setpoint (setInletT (r_inletT r) w)) (row_step r) (setInletT (r_inletT r) w)) (setInletT (r_inletT r) w)).
  { eapply (extReady_frame fuel D _ _ w); [| | | | | |exact HEx]; try reflexivity.
    - apply Forall2_refl'. intros h. apply hframe_refl.
    - intros lo HC. exact (calmRun_first _ _ _ _ _ HC). }
  set (w0 := setInletT (r_inletT r) w) in *.
  assert (P0 : runOneStepInlet fuel (r_inletT r) (row_step r) w = runOneStep fuel (row_step r) w0) by reflexivity.
  assert (P1 : w_doDepress w0 = false) by exact Hdep.
  assert (P2 : w_tank w0 = w_tank w) by reflexivity. assert (P3 : w_minStep w0 = w_minStep w) by reflexivity.
  assert (P4 : w_secStep w0 = w_secStep w) by reflexivity. assert (P7 : w_setpoint w0 = w_setpoint w) by reflexivity. assert (P8 : w_hs w0 = w_hs w) by reflexivity.
  assert (P5 : forall air, unitOK air D w -> unitOK air D w0) by (intros air [O1 O2 O3 O4 O5]; constructor; auto).
  assert (P6 : forall air, unitReadyX X air D w -> unitReadyX X air D w0) by (intros; apply setInlet_ready; auto).
  clearbody w0.
  assert (Ea : sourceAir w0 (row_step r) = r_ext r) by (unfold sourceAir; rewrite P1; reflexivity).
  destruct (step_succ_ext (X:=X) fuel (row_step r) D w0) as (w1 & E1 & Esp); rewrite ?Ea, ?P2, ?P3, ?P4; auto; try (rewrite P1; discriminate).
  pose proof (step_rel fuel (row_step r) D w0 w1 ltac:(rewrite Ea; auto) HCf ltac:(right; intros q []) ltac:(intros HX; contradiction HX; reflexivity) E1) as HS.
  pose proof (step_cfg _ _ _ _ E1) as HC. unfold cfg in HC. injection HC as C1 C2 C3 C4 C5 C6.
  pose proof (sr_tank _ _ _ HS) as HT. pose proof (sr_len _ _ _ HS) as HL.
  assert (T1 : t_nodeVol (w_tank w1) = t_nodeVol (w_tank w) /\ t_mixBelowFrac (w_tank w1) = t_mixBelowFrac (w_tank w) /\ t_doCond (w_tank w1) = t_doCond (w_tank w) /\
     condTau (w_tank w1) (w_secStep w) = condTau (w_tank w) (w_secStep w)) by (rewrite HT, P2; splits; reflexivity).
  destruct T1 as (T1 & T2 & T3 & T4).
  destruct (IH w1) as (ws & wl & HR).
  - rewrite (sr_dep _ _ _ HS). exact P1.
  - rewrite (sr_min _ _ _ HS), P3. exact Hm.
  - apply HCn; auto. rewrite Ea. auto.
  - intros r' Hr'. destruct (HU r' (or_intror Hr')) as (V1 & V2 & V3 & V4). splits; auto.
    + eapply stepRel_unitOK; eauto.
    + eapply unitReady_frame; [apply (sr_src _ _ _ HS)|exact C1|apply (sr_sp _ _ _ HS)|exact C3|exact C4|exact C5|exact C2|auto].
    + rewrite T1. exact V4.
  - intros h' Hin' Ht' Hc'. cbv zeta.
    assert (HF : Forall2 hframe (w_hs w) (w_hs w1)) by (rewrite <- P8; apply (sr_src _ _ _ HS)).
    assert (HE2 : extReady fuel D (fun lo => (forall c, lo <= c <= w_setpoint w -> D c) /\ calmRun (r :: rows) lo (w_setpoint w) w) w).
    { clear - HEx. intros h A B C. specialize (HEx h A B C). cbv zeta in *. destruct (h_multipass h); auto.
      destruct HEx as (X1 & X2 & X3 & lo & X4 & X5 & X6). split; [auto|]. split; [auto|]. split; [auto|]. exists lo. auto. }
    assert (HE3 : extReady fuel D (fun lo => calmRun rows lo (w_setpoint w1) w1) w1).
    { eapply (extReady_frame fuel D _ _ w); [exact HF| | | | | |exact HE2].
      - rewrite HL, P2. reflexivity.
      - exact T1.
      - congruence.
      - rewrite (sr_min _ _ _ HS). exact P3.
      - intros lo [HD HC]. rewrite Esp, P7. apply HKn; auto. rewrite Ea. auto. }
    apply (HE3 h' Hin' Ht' Hc').
  - rewrite T2. exact Hmf.
  - rewrite T3, C6, P4, T4. exact Htau.
  - rewrite HL, P2. exact Hf.
  - exists (w1 :: ws), wl. econstructor; [|exact HR]. rewrite P0. exact E1.
Qed.
Lemma runs_succ fuel D rows (w : W) : w_doDepress w = false -> 0 < w_minStep w ->
  coveredRun D rows w ->
  (forall r, In r rows -> unitOK (r_ext r) D w /\ unitReady (r_ext r) D w /\ 0 <= r_draw r /\ r_draw r / t_nodeVol (w_tank w) <= INR fuel) ->
  t_mixBelowFrac (w_tank w) <= 1 -> (t_doCond (w_tank w) = true -> condTau (w_tank w) (w_secStep w) <= 1) ->
  (length (t_Ts (w_tank w)) * length (t_Ts (w_tank w)) < fuel)%nat ->
  exists ws wl, SeqProofs.runs fuel rows w ws wl.
Proof.
  intros H1 H2 H3 H4 H5 H6 H7. destruct rows as [|r rows]; [exists [], w; constructor|].
  apply (runs_succ_ext (X:=False) fuel D (r :: rows)); auto. eapply extReady_none. apply (H4 r (or_introl eq_refl)).
Qed.
