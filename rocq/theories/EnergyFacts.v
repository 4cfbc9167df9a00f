(** Proofs of the theorems stated in PropsEnergy.v: Properties of heating, energy accounting and whole steps *)

From Coq Require Import ZArith String List Bool Reals Lra Lia Floats.
From Verif Require Import Num FNum Base Units Utils Types TankM Logic HeatSrc Step Spec SpecState SpecDist SpecEnergy SpecStep.
From Verif Require Import RList FrameProofs SimFrame MixProofs DrawProofs TankProofs StandbyProofs HeatProofs ControlProofs SeqProofs.
From Verif Require Import DistProofs EnergyProofs ExtProofs StepEnergy ResampleProofs ExtraProofs WholeStep AvgProofs Progress StepProgress ExtProgress Perf Fitter TankFacts RunsFacts Example.
Import ListNotations.
Local Open Scope R_scope.
(** ** The example unit satisfies the requirements *)
Lemma exUnit_wf Ts : (0 < length Ts)%nat -> wf_tank (w_tank (exUnit (T:=R) Ts)).
Proof.
  intros HL. constructor; cbn [w_tank exUnit exTankG t_Ts t_volume t_nodeVol t_nodeCp]; auto; num_simpl; try lra.
  unfold nofN. num_simpl. rewrite <- INR_IZR_INZ. reflexivity.
Qed.
Lemma exHS_ok n air D ty vip b d on off k : goodDist d -> INR n <= 10000 -> srcOK n air D (exHS (T:=R) ty vip b d on off k).
Proof.
  intros HG Hn. constructor; cbn [exHS h_type h_power h_config h_dist]; intros; auto; try discriminate.
  - unfold dec. num_simpl. lra.
  - revert H1. unfold getPerformance. cbn [exHS h_shxCold h_rdPwr h_rdLift h_rdBelow h_eval h_inScale h_copScale h_doDefrost obind h_airflow].
    num_simpl. unfold nneqb. num_simpl. destruct (Reqb' 1 1) eqn:E1; bcase; [|lra]. cbn [negb p_in p_cop p_out].
    intros E. inversion E. cbn [p_out]. lra.
Qed.
Lemma exUpper_good : goodDist (exUpper (T:=R)).
Proof. unfold exUpper, dec. num_simpl. constructor; [discriminate|cbn; lra| |]; [repeat constructor; cbn; lra|right; left; cbn; lra]. Qed.
Lemma exLower_good : goodDist (exLower (T:=R)).
Proof. unfold exLower, dec. num_simpl. constructor; [discriminate|cbn; lra| |]; [repeat constructor; cbn; lra|left; cbn; lra]. Qed.
Lemma exUnit_ok air D Ts : (length Ts = 4)%nat -> unitOK air D (exUnit (T:=R) Ts).
Proof.
  intros HL. constructor.
  - apply exUnit_wf. lia.
  - unfold ports_ok. cbn. rewrite HL. lia.
  - reflexivity.
  - cbn [w_hs exUnit exSources w_tank exTankG t_Ts]. rewrite HL.
    assert (INR 4 <= 10000) by (cbn; lra). pose proof exUpper_good. pose proof exLower_good.
    repeat (apply Forall_cons; [apply exHS_ok; auto|]). apply Forall_nil.
  - cbn. num_simpl. lra.
Qed.

(** ** C15: distributing a capacity *)

Lemma dist_shares fuel air D (w : hpwh R) h d : wf_tank (w_tank w) -> srcOK (length (t_Ts (w_tank w))) air D h ->
  h_type h = TResistance \/ h_config h <> External -> calcHeatDist fuel w h = Ok d -> shares (length (t_Ts (w_tank w))) d.
Proof.
  intros Hwf HO HC E. unfold calcHeatDist in E. cbv zeta in E.
  destruct (h_type h) eqn:Et.
  - destruct HC as [HC|HC]; [discriminate|]. destruct (h_config h) eqn:Ec; try congruence.
    + eapply calcHeatDist_base_shares; [apply (so_dist _ _ _ _ HO); first [left; assumption|right; congruence]|apply (wf_n _ Hwf)|exact E].
    + eapply calcThermalDist_spec; [apply (wf_n _ Hwf)| |exact E]; rewrite tol_val; pose proof (so_nodes _ _ _ _ HO Ec); lra.
  - eapply calcHeatDist_base_shares; [apply (so_dist _ _ _ _ HO); first [left; assumption|right; congruence]|apply (wf_n _ Hwf)|exact E].
Qed.

Lemma C15_heat_is_conserved_fact : forall fuel air D h cap maxSet (w : hpwh R) left w',
  wf_tank (w_tank w) -> stratified (t_Ts (w_tank w)) -> srcOK (length (t_Ts (w_tank w))) air D h ->
  h_type h = TResistance \/ h_config h <> External -> 0 <= cap ->
  heatNodes fuel h cap maxSet w = (Ok left, w') ->
  w' = set_w_tank (set_t_Ts (t_Ts (w_tank w')) (w_tank w)) w /\
  length (t_Ts (w_tank w')) = length (t_Ts (w_tank w)) /\ stratified (t_Ts (w_tank w')) /\
  0 <= left <= cap /\ tankHeat (w_tank w') = tankHeat (w_tank w) + (cap - left) /\
  (forall j, (j < length (t_Ts (w_tank w)))%nat ->
     node (t_Ts (w_tank w)) j <= node (t_Ts (w_tank w')) j <= Rmax (node (t_Ts (w_tank w)) j) (Rmin maxSet (w_setpoint w))) /\
  (0 < left -> exists j, (j < length (t_Ts (w_tank w)))%nat /\ Rmin maxSet (w_setpoint w) <= node (t_Ts (w_tank w')) j).
Proof.
  intros fuel air D h cap maxSet w lft w' Hwf HS HO HC Hcap E.
  assert (Ed : exists d, calcHeatDist fuel w h = Ok d).
  { unfold heatNodes in E. apply bind_inv in E. destruct E as (w0 & w1 & E0 & E). apply get_inv in E0. destruct E0 as [-> ->].
    apply bind_inv in E. destruct E as (d0 & w1 & E0 & E). apply lift_inv in E0. destruct E0 as [-> E0]. eauto. }
  destruct Ed as [d Ed]. pose proof (dist_shares _ _ _ _ _ _ Hwf HO HC Ed) as HD.
  destruct (heatNodes_spec _ _ _ _ _ _ _ _ Hwf HS Hcap Ed HD E) as (Ts' & -> & HL & HS' & HW & HE & HF).
  wsimpl. cbn [set_t_Ts t_Ts]. destruct HW as [HW1 HW2]. splits; auto; try lra.
  - rewrite tankHeat_set_Ts, tankHeat_cp by auto. exact HE.
  - intros Hl. destruct (HF Hl) as (j & Hj & _ & Hx). exists j. rewrite <- HW1. auto.
Qed.
Lemma C15_succeeds_fact : forall fuel air D k have sp h cap maxSet (w : hpwh R),
  wf_tank (w_tank w) -> srcOK (length (t_Ts (w_tank w))) air D h -> srcReady k have sp air D h ->
  (length (t_Ts (w_tank w)) < fuel)%nat ->
  exists left w', heatNodes fuel h cap maxSet w = (Ok left, w').
Proof.
  intros fuel air D k have sp h cap maxSet w Hwf HO HR Hf.
  destruct (dist_ok fuel _ _ _ _ _ _ w h HR HO eq_refl (wf_n _ Hwf) Hf (sy_config HR)) as (d & Ed & Hd). eapply heatNodes_succ; eauto.
Qed.

Lemma exHS_ready k air D ty vip b d on off lo : goodDist d -> -100 < air -> (forall i, b = Some i -> (i < k)%nat) ->
  Forall (logicReady true) on -> Forall (logicReady true) off -> srcReady k true 55 air D (exHS (T:=R) ty vip b d on off lo).
Proof.
  intros HG Ha Hb Hon Hoff. constructor; cbn [exHS h_type h_power h_config h_dist h_backup h_companion h_followed h_turnOn h_shutOff h_standby h_maxSet h_mlAir h_shrink];
    intros; auto; try discriminate; unfold dec in *; num_simpl; try lra.
  unfold getPerformance. cbn [exHS h_shxCold h_rdPwr h_rdLift h_rdBelow h_eval h_inScale h_copScale h_doDefrost obind h_airflow].
  num_simpl. unfold nneqb. num_simpl. destruct (Reqb' 1 1) eqn:E1; bcase; [|lra]. cbn [negb p_in p_cop p_out].
  eexists. split; [reflexivity|]. cbn [p_out]. lra.
Qed.
Lemma exUnit_ready air D Ts : -100 < air -> unitReady air D (exUnit (T:=R) Ts).
Proof.
  intros Ha. pose proof exUpper_good as HU. pose proof exLower_good as HL. constructor; cbn [w_hs exUnit exSources w_haveInletT w_setpoint w_compIx w_lowIx w_vipIx length]; try (cbn; lia).
  - num_simpl. apply Forall_cons; [|apply Forall_cons; [|apply Forall_cons; [|apply Forall_nil]]]; apply exHS_ready; auto; try discriminate.
    + apply Forall_cons; [|apply Forall_nil]. cbn. auto.
    + intros i E. inversion E. lia.
    + apply Forall_cons; [|apply Forall_nil]. cbn. auto.
    + apply Forall_cons; [|apply Forall_nil]. cbn. discriminate.
  - intros HX. discriminate HX.
Qed.
Lemma strat4 a b c d : a <= b -> b <= c -> c <= d -> stratified [a; b; c; d].
Proof. intros H1 H2 H3 i Hi. cbn in Hi. destruct i as [|[|[|i]]]; cbn; try lra. lia. Qed.

Lemma C15_example_fact : forall w, w = exUnit (T:=R) [20; 30; 45; 50] -> forall h, In h (w_hs w) ->
  wf_tank (w_tank w) /\ stratified (t_Ts (w_tank w)) /\ srcOK 4 20 (fun _ => True) h /\
  exists left w', heatNodes 100 h 1000 60 w = (Ok left, w').
Proof.
  intros w -> h Hh. pose proof (exUnit_ok 20 (fun _ => True) [20; 30; 45; 50] eq_refl) as [A _ _ D _]. pose proof (exUnit_ready 20 (fun _ => True) [20; 30; 45; 50] ltac:(lra)) as [B _ _ _ _].
  rewrite Forall_forall in B, D. specialize (B h Hh). specialize (D h Hh). splits; auto.
  - apply strat4; lra.
  - eapply C15_succeeds_fact; eauto. cbn. lia.
Qed.

(** ** C16: resistance elements *)
Lemma map_nth_lt {A B} (f : A -> B) l k d d' : (k < length l)%nat -> nth k (map f l) d = f (nth k l d').
Proof. intros H. rewrite (nth_indep _ d (f d')) by (rewrite map_length; auto). apply map_nth. Qed.

Lemma C16_resistance_accounting_fact : forall fuel air D i m (w w' : hpwh R) h,
  wf_tank (w_tank w) -> stratified (t_Ts (w_tank w)) -> nth_error (w_hs w) i = Some h -> h_type h = TResistance ->
  srcOK (length (t_Ts (w_tank w))) air D h -> 0 <= m ->
  addHeatRes fuel i m w = (Ok tt, w') ->
  exists h', nth_error (w_hs w') i = Some h' /\ 0 <= h_runtime h' <= m /\
    h_eIn h' - h_eIn h = h_power h * (h_runtime h' / 60) /\ h_eOut h' - h_eOut h = h_eIn h' - h_eIn h /\
    tankHeat (w_tank w') - tankHeat (w_tank w) = 3600 * (h_eOut h' - h_eOut h) /\
    (forall j, j <> i -> nth_error (w_hs w') j = nth_error (w_hs w) j) /\
    stratified (t_Ts (w_tank w')) /\
    (forall j, (j < length (t_Ts (w_tank w)))%nat ->
       node (t_Ts (w_tank w)) j <= node (t_Ts (w_tank w')) j <= Rmax (node (t_Ts (w_tank w)) j) (Rmin 100 (w_setpoint w))) /\
    (h_runtime h' < m -> exists j, (j < length (t_Ts (w_tank w)))%nat /\
       0 < share (h_dist h) (INR j / INR (length (t_Ts (w_tank w)))) (INR (S j) / INR (length (t_Ts (w_tank w)))) /\
       Rmin 100 (w_setpoint w) <= node (t_Ts (w_tank w')) j).
Proof.
  intros fuel air D i m w w' h Hwf HS Hn Ht HO Hm E.
  assert (HG : goodDist (h_dist h)) by (apply (so_dist _ _ _ _ HO); auto).
  destruct (addHeatRes_spec fuel i m w w' h Hwf HS Hn Ht (so_power _ _ _ _ HO Ht) Hm HG E) as (rt & Ts' & Ew & Hrt & _ & HS' & [L1 HW] & HE & HF).
  unfold ran in Ew. set (h' := set_h_eOut _ _) in *. exists h'.
  assert (E1 : nth_error (w_hs w') i = Some h') by (rewrite Ew; wsimpl; apply (nth_upd_eq _ _ _ h); auto).
  assert (E2 : t_Ts (w_tank w') = Ts') by (rewrite Ew; reflexivity).
  assert (E3 : tankHeat (w_tank w') = t_nodeCp (w_tank w) * Rsum Ts').
  { rewrite Ew. wsimpl. rewrite tankHeat_set_Ts; auto. }
  rewrite E2, E3. unfold h'. cbn [set_h_eOut set_h_eIn set_h_runtime h_runtime h_eIn h_eOut]. splits; auto; try lra.
  - rewrite (tankHeat_cp (w_tank w)) by auto. lra.
  - intros j Hj. rewrite Ew. wsimpl. apply nth_upd_other. auto.
  - intros Hr. destruct (HF Hr) as (j & J1 & J2 & J3). exists j. rewrite L1 in *. splits; auto.
    rewrite nodeWeights_eq in J2 by auto. unfold node in J2. rewrite (map_nth_lt _ _ _ _ 0%nat) in J2 by (rewrite seq_length; lia). rewrite seq_nth in J2 by lia. exact J2.
Qed.
(*C16END*)
Lemma C16_succeeds_fact : forall fuel i m (w : hpwh R) h,
  wf_tank (w_tank w) -> stratified (t_Ts (w_tank w)) -> nth_error (w_hs w) i = Some h -> h_type h = TResistance ->
  goodDist (h_dist h) -> 0 < h_power h -> 0 < m ->
  exists w', addHeatRes fuel i m w = (Ok tt, w').
Proof.
  intros fuel i m w h Hwf HS Hn Ht HG Hp Hm.
  assert (Ed : calcHeatDist fuel w h = Ok (nodeWeights (h_dist h) (length (t_Ts (w_tank w))))).
  { unfold calcHeatDist. cbv zeta. rewrite Ht. apply calcHeatDist_base_ok; auto. apply (wf_n _ Hwf). }
  destruct (addHeatRes_succ fuel i m w h _ Hwf HS Hn Hp Hm Ed (nodeWeights_shares _ _ HG (wf_n _ Hwf))) as ([] & w' & E). eauto.
Qed.
Lemma C16_zero_power_undefined_fact : forall fuel i m (w : hpwh R) h w',
  wf_tank (w_tank w) -> stratified (t_Ts (w_tank w)) -> nth_error (w_hs w) i = Some h -> h_type h = TResistance ->
  goodDist (h_dist h) -> h_power h = 0 -> 0 <= m -> addHeatRes fuel i m w <> (Ok tt, w').
Proof.
  intros fuel i m w h w' Hwf HS Hn Ht HG Hp Hm E.
  destruct (addHeatRes_spec fuel i m w w' h Hwf HS Hn Ht ltac:(lra) Hm HG E) as (rt & Ts' & _ & _ & H & _). rewrite Hp in H. lra.
Qed.
Lemma C16_zero_power_nan_fact : exists (w w' : hpwh float) h', 
  map h_power (w_hs w) = [fofZ 0; dec 45 10; dec 45 10]%float /\
  addHeatRes 100 0 (fofZ 1) w = (Ok tt, w') /\ nth_error (w_hs w') 0 = Some h' /\
  is_nan (h_runtime h') = true /\ is_nan (h_eOut h') = true.
Proof.
  exists (let w := exUnit (T:=float) (map fofZ [20; 30; 45; 50]%Z) in set_w_hs (updHS (w_hs w) 0 (set_h_power (fofZ 0))) w).
  eexists _, _. split; [vm_compute; reflexivity|]. split; [vm_compute; reflexivity|]. split; [vm_compute; reflexivity|].
  split; vm_compute; reflexivity.
Qed.
Lemma C16_negative_power_refuted_fact : exists (w w' : hpwh float) h',
  nltb (Num:=FNum) (nofZ 0) (nofZ 1) = true /\
  addHeatRes 100 0 (fofZ 1) w = (Ok tt, w') /\ nth_error (w_hs w') 0 = Some h' /\
  t_Ts (w_tank w') = t_Ts (w_tank w) /\ nltb (Num:=FNum) (h_eOut h') (fofZ 0) = true.
Proof.
  exists (let w := exUnit (T:=float) (map fofZ [20; 30; 45; 50]%Z) in set_w_hs (updHS (w_hs w) 0 (set_h_power (fofZ (-4)))) w).
  eexists _, _. split; [vm_compute; reflexivity|]. split; [vm_compute; reflexivity|]. split; [vm_compute; reflexivity|].
  split; vm_compute; reflexivity.
Qed.

Lemma C16_example_fact : forall w, w = exUnit (T:=R) [20; 30; 45; 50] -> forall i, (i < 2)%nat ->
  exists h w', nth_error (w_hs w) i = Some h /\ srcOK 4 20 (fun _ => True) h /\ addHeatRes 100 i 1 w = (Ok tt, w').
Proof.
  intros w -> i Hi. pose proof (exUnit_ok 20 (fun _ => True) [20; 30; 45; 50] eq_refl) as [A _ _ D _].
  assert (exists h, nth_error (w_hs (exUnit (T:=R) [20; 30; 45; 50])) i = Some h /\ h_type h = TResistance /\ 0 < h_power h) as (h & E & Et & Ep).
  { destruct i as [|[|i]]; [| |lia]; eexists; (split; [reflexivity|]); split; try reflexivity; cbn [h_power exHS]; unfold dec; num_simpl; lra. }
  assert (HO : srcOK 4 20 (fun _ => True) h) by (rewrite Forall_forall in D; apply D; eapply nth_error_In; eauto).
  destruct (C16_succeeds_fact 100 i 1 _ h A) as [w' E']; auto; try lra.
  - apply strat4; lra.
  - apply (so_dist _ _ _ _ HO); auto.
  - exists h, w'. auto.
Qed.

(** ** C17: wrapped and submerged condensers *)

Lemma C17_integrated_accounting_fact : forall fuel air D i m (w w' : hpwh R) h,
  wf_tank (w_tank w) -> stratified (t_Ts (w_tank w)) -> nth_error (w_hs w) i = Some h ->
  h_type h = TCompressor -> h_config h <> External ->
  srcOK (length (t_Ts (w_tank w))) air D h -> domOn D (t_Ts (w_tank w)) -> 0 <= m ->
  addHeatCond fuel i air m w = (Ok tt, w') ->
  exists cond p h', hsTankTemp w h = Ok cond /\ getPerformance w h air cond = Ok p /\
    nth_error (w_hs w') i = Some h' /\ 0 <= h_runtime h' <= m /\
    h_eIn h' - h_eIn h = p_in p / 1000 * (h_runtime h' / 60) /\ h_eOut h' - h_eOut h = p_out p / 1000 * (h_runtime h' / 60) /\
    tankHeat (w_tank w') - tankHeat (w_tank w) = 3600 * (h_eOut h' - h_eOut h) /\
    (forall j, j <> i -> nth_error (w_hs w') j = nth_error (w_hs w) j) /\
    stratified (t_Ts (w_tank w')) /\
    (forall j, (j < length (t_Ts (w_tank w)))%nat ->
       node (t_Ts (w_tank w)) j <= node (t_Ts (w_tank w')) j <= Rmax (node (t_Ts (w_tank w)) j) (Rmin (h_maxSet h) (w_setpoint w))) /\
    (h_runtime h' < m -> exists j, (j < length (t_Ts (w_tank w)))%nat /\ Rmin (h_maxSet h) (w_setpoint w) <= node (t_Ts (w_tank w')) j).
Proof.
  intros fuel air D i m w w' h Hwf HS Hn Ht HC HO HDm Hm E.
  unfold addHeatCond in E. apply bind_inv in E. destruct E as (h0 & w1 & E0 & E). apply getHS_inv in E0. destruct E0 as [-> E0].
  rewrite Hn in E0. inversion E0; subst h0. clear E0.
  assert (E' : addHeatIntegrated fuel i air m w = (Ok tt, w')) by (destruct (h_config h); congruence). clear E.
  destruct (addHeatIntegrated_spec fuel i air m w w' h Hwf HS Hn Hm) as (tIn & tOut & p & rt & Ts' & A1 & A2 & Ew & Hrt & _ & HS' & [L1 HW] & HE & HF); auto.
  - intros tIn p EtIn. apply (so_perf _ _ _ _ HO); auto. destruct HDm as (lo & hi & HW & HD). apply HD.
    eapply averageT_wdist_within; [|apply (wf_n _ Hwf)|exact HW|exact EtIn]. apply (so_dist _ _ _ _ HO). auto.
  - intros tIn d Ed. apply (dist_shares fuel air D (set_w_condIn tIn w) h d); auto.
  - exists tIn, p. unfold ran in Ew. wsimpl_in Ew. set (h' := set_h_eOut _ _) in *. exists h'.
    assert (E1 : nth_error (w_hs w') i = Some h') by (rewrite Ew; wsimpl; apply (nth_upd_eq _ _ _ h); auto).
    assert (E2 : t_Ts (w_tank w') = Ts') by (rewrite Ew; reflexivity).
    assert (E3 : tankHeat (w_tank w') = t_nodeCp (w_tank w) * Rsum Ts').
    { rewrite Ew. wsimpl. rewrite tankHeat_set_Ts; auto. }
    rewrite E2, E3. unfold h'. cbn [set_h_eOut set_h_eIn set_h_runtime h_runtime h_eIn h_eOut]. splits; auto; try lra.
    + rewrite (tankHeat_cp (w_tank w)) by auto. lra.
    + intros j Hj. rewrite Ew. wsimpl. apply nth_upd_other. auto.
    + intros Hr. destruct (HF Hr) as (j & J1 & J2). exists j. rewrite L1 in *. auto.
Qed.

Lemma C17_example_fact : forall w, w = exUnit (T:=R) [20; 30; 45; 50] ->
  exists h w', nth_error (w_hs w) 2 = Some h /\ h_type h = TCompressor /\ h_config h <> External /\ srcOK 4 20 (fun _ => True) h /\ domOn (fun _ => True) (t_Ts (w_tank w)) /\
    wf_tank (w_tank w) /\ stratified (t_Ts (w_tank w)) /\ addHeatCond 100 2 20 1 w = (Ok tt, w').
Proof.
  intros w Ew. pose proof (exUnit_ok 20 (fun _ => True) [20; 30; 45; 50] eq_refl) as [A _ _ D _].
  pose proof (exUnit_ready 20 (fun _ => True) [20; 30; 45; 50] ltac:(lra)) as [B _ _ _ _].
  pose (h := exHS (T:=R) TCompressor false (Some 1%nat) exLower [exOn exLower (nofZ 5)] [exOff (nofZ 60)] 0).
  assert (Hn : nth_error (w_hs w) 2 = Some h) by (subst w; reflexivity).
  assert (Hin : In h (w_hs (exUnit (T:=R) [20; 30; 45; 50]))) by (subst w; eapply nth_error_In; eauto).
  rewrite Forall_forall in B, D. specialize (B h Hin). specialize (D h Hin). rewrite <- Ew in A, B, D.
  assert (HS : stratified (t_Ts (w_tank w))) by (subst w; apply strat4; lra).
  assert (HX : succ (addHeatIntegrated 100 2 20 1) w).
  { destruct (dist_ok 100 _ _ _ _ _ _ w h B D eq_refl (wf_n _ A)) as (d & Ed & Hd); [subst w; cbn; lia|exact (sy_config B)|].
    apply (addHeatIntegrated_succ 100 2 20 1 (fun _ => True) w h d); auto; try lra.
    - apply (sy_dist B).
    - apply (sy_perf B). reflexivity. }
  destruct HX as ([] & w' & E). exists h, w'. splits; auto; try discriminate.
  { subst w. exact D. }
  { exists 20, 50. split; auto. subst w. intros t Ht. destruct Ht as [<-|[<-|[<-|[<-|[]]]]]; lra. }
  assert (G : getHS 2 w = (Ok h, w)) by (unfold getHS; rewrite Hn; reflexivity).
  unfold addHeatCond. unfold bind at 1. rewrite G. exact E.
Qed.
(*C17END*)
(** ** C18, C19: external condensers *)

Lemma cond_external fuel air i m h (w w' : hpwh R) : nth_error (w_hs w) i = Some h -> h_config h = External ->
  addHeatCond fuel i air m w = (Ok tt, w') ->
  exists rt p w1, extCall fuel i air m h w = (Ok (rt, p), w1) /\ forall h1, nth_error (w_hs w1) i = Some h1 ->
    w' = set_w_hs (upd (w_hs w1) i (set_h_eOut (h_eOut h1 + p_out p / 1000 * (rt / 60))
           (set_h_eIn (h_eIn h1 + p_in p / 1000 * (rt / 60)) (set_h_runtime rt h1)))) w1.
Proof.
  intros Hn Hc E. unfold addHeatCond in E. apply bind_inv in E. destruct E as (h0 & w1 & E0 & E). apply getHS_inv in E0. destruct E0 as [-> E0].
  rewrite Hn in E0. inversion E0; subst h0. clear E0. rewrite Hc in E.
  apply bind_inv in E. destruct E as ([rt p] & w1 & E1 & E). exists rt, p, w1.
  split; [exact E1|]. intros h1 E2. apply (modHS_inv _ _ _ _ h1 E2) in E. exact E.
Qed.

Lemma cond_ext_run fuel air i m h (w : hpwh R) r w1 : nth_error (w_hs w) i = Some h -> h_config h = External ->
  extCall fuel i air m h w = (Ok r, w1) -> exists w', addHeatCond fuel i air m w = (Ok tt, w').
Proof.
  intros Hn Hc E. unfold addHeatCond, bind, getHS. rewrite Hn, Hc. unfold extCall in E.
  destruct (h_multipass h); rewrite E; destruct r; eexists; reflexivity.
Qed.

Lemma C18_single_pass_accounting_fact : forall fuel air D i m (w w' : hpwh R) h,
  wf_tank (w_tank w) -> stratified (t_Ts (w_tank w)) -> t_doMix (w_tank w) = true -> nth_error (w_hs w) i = Some h ->
  h_type h = TCompressor -> h_config h = External -> h_multipass h = false ->
  srcOK (length (t_Ts (w_tank w))) air D h -> domUp D (t_Ts (w_tank w)) \/ domTo D (Rmin (h_maxSet h) (w_setpoint w)) (t_Ts (w_tank w)) -> 0 <= m ->
  addHeatCond fuel i air m w = (Ok tt, w') ->
  exists h', nth_error (w_hs w') i = Some h' /\ 0 <= h_runtime h' <= m /\ 0 <= h_eOut h' - h_eOut h /\
    tankHeat (w_tank w') - tankHeat (w_tank w) = 3600 * (h_eOut h' - h_eOut h) /\
    (forall j, j <> i -> nth_error (w_hs w') j = nth_error (w_hs w) j) /\
    stratified (t_Ts (w_tank w')) /\ w_setpoint w' = w_setpoint w /\
    (forall lo hi, Rmin (h_maxSet h) (w_setpoint w) <= hi -> within lo hi (t_Ts (w_tank w)) ->
       within lo hi (t_Ts (w_tank w')) /\
       3600 * (h_eOut h' - h_eOut h) <= CPWATER * DENSITYWATER * (w_extVol w' - w_extVol w) * (Rmin (h_maxSet h) (w_setpoint w) - lo)).
Proof.
  intros fuel air D i m w w' h Hwf HS Hd Hn Ht HC HM HO HDm Hm E.
  destruct (cond_external _ _ _ _ _ _ _ Hn HC E) as (rt & p & w1 & E1 & E3).
  destruct (extCall_spec fuel i air m D h w rt p w1) as ((Ts & ci & co & ev & sc & Ew) & A1 & A2 & A3 & A4 & _ & _ & A5 & A6 & A7 & A8); auto.
  - apply (so_ports _ _ _ _ HO); auto.
  - apply (so_perf _ _ _ _ HO); auto.
  - destruct HDm; auto.
  - rewrite HM. apply (so_fract _ _ _ _ HO); auto.
  - specialize (A7 HM).
    assert (E2 : nth_error (w_hs w1) i = Some h) by (rewrite Ew; unfold extSt; wsimpl; auto).
    rewrite (E3 h E2).
    assert (EH : forall x y, tankHeat (w_tank (set_w_hs x w1)) - y = tankHeat (w_tank w1) - y) by reflexivity.
    assert (ET : tankHeat (w_tank w1) - tankHeat (w_tank w) = 60 * (p_out p / 1000 * rt)).
    { assert (wf_tank (w_tank w1)) by (rewrite Ew; unfold extSt; wsimpl; apply wf_set_Ts; auto; rewrite Ew in A1; exact A1).
      rewrite !tankHeat_cp by auto. lra. }
    eexists. split; [wsimpl; apply (nth_upd_eq _ _ _ h); auto|].
    cbn [set_h_eOut set_h_eIn set_h_runtime h_runtime h_eIn h_eOut]. rewrite EH.
    assert (0 <= p_out p / 1000 * (rt / 60)) by (apply Rmult_le_pos; lra).
    splits; auto; try lra.
    + intros j Hj. wsimpl. rewrite nth_upd_other by auto. rewrite Ew. reflexivity.
    + wsimpl. rewrite Ew. reflexivity.
    + intros lo hi Hh Hw. wsimpl. destruct (A7 lo hi Hh Hw) as [B1 B2]. split; auto. lra.
Qed.

Lemma C19_multi_pass_accounting_fact : forall fuel air D i m (w w' : hpwh R) h,
  wf_tank (w_tank w) -> stratified (t_Ts (w_tank w)) -> t_doMix (w_tank w) = true -> nth_error (w_hs w) i = Some h ->
  h_type h = TCompressor -> h_config h = External -> h_multipass h = true ->
  srcOK (length (t_Ts (w_tank w))) air D h -> domUp D (t_Ts (w_tank w)) -> 0 <= m ->
  addHeatCond fuel i air m w = (Ok tt, w') ->
  exists h', nth_error (w_hs w') i = Some h' /\ 0 <= h_runtime h' <= m /\ 0 <= h_eOut h' - h_eOut h /\
    tankHeat (w_tank w') - tankHeat (w_tank w) = 3600 * (h_eOut h' - h_eOut h) /\
    (forall j, j <> i -> nth_error (w_hs w') j = nth_error (w_hs w) j) /\
    stratified (t_Ts (w_tank w')) /\ w_setpoint w' = w_setpoint w /\
    (forall lo, (forall x, In x (t_Ts (w_tank w)) -> lo <= x) -> forall x, In x (t_Ts (w_tank w')) -> lo <= x) /\
    w_extVol w' - w_extVol w <= h_mpFlow h * 60 * h_runtime h' /\
    ((forall (v : hpwh R) cond p, D cond -> getPerformance v h air cond = Ok p -> 0 < p_out p) ->
       w_extVol w' - w_extVol w = h_mpFlow h * 60 * h_runtime h').
Proof.
  intros fuel air D i m w w' h Hwf HS Hd Hn Ht HC HM HO HDm Hm E.
  destruct (cond_external _ _ _ _ _ _ _ Hn HC E) as (rt & p & w1 & E1 & E3).
  destruct (extCall_spec fuel i air m D h w rt p w1) as ((Ts & ci & co & ev & sc & Ew) & A1 & A2 & A3 & A4 & _ & _ & A5 & A6 & A7 & A8); auto.
  - apply (so_ports _ _ _ _ HO); auto.
  - apply (so_perf _ _ _ _ HO); auto.
  - rewrite HM. apply (so_flow _ _ _ _ HO); auto.
  - destruct (A8 HM) as [B1 B2].
    assert (E2 : nth_error (w_hs w1) i = Some h) by (rewrite Ew; unfold extSt; wsimpl; auto).
    rewrite (E3 h E2).
    assert (EH : forall x y, tankHeat (w_tank (set_w_hs x w1)) - y = tankHeat (w_tank w1) - y) by reflexivity.
    assert (ET : tankHeat (w_tank w1) - tankHeat (w_tank w) = 60 * (p_out p / 1000 * rt)).
    { assert (wf_tank (w_tank w1)) by (rewrite Ew; unfold extSt; wsimpl; apply wf_set_Ts; auto; rewrite Ew in A1; exact A1).
      rewrite !tankHeat_cp by auto. lra. }
    eexists. split; [wsimpl; apply (nth_upd_eq _ _ _ h); auto|].
    cbn [set_h_eOut set_h_eIn set_h_runtime h_runtime h_eIn h_eOut]. rewrite EH.
    assert (0 <= p_out p / 1000 * (rt / 60)) by (apply Rmult_le_pos; lra).
    splits; auto; try lra.
    + intros j Hj. wsimpl. rewrite nth_upd_other by auto. rewrite Ew. reflexivity.
    + wsimpl. rewrite Ew. reflexivity.
Qed.

Lemma ext_energy_bounds fuel air D i m (w w' : hpwh R) h :
  wf_tank (w_tank w) -> stratified (t_Ts (w_tank w)) -> t_doMix (w_tank w) = true -> nth_error (w_hs w) i = Some h ->
  h_type h = TCompressor -> h_config h = External ->
  srcOK (length (t_Ts (w_tank w))) air D h ->
  domUp D (t_Ts (w_tank w)) \/ (h_multipass h = false /\ domTo D (Rmin (h_maxSet h) (w_setpoint w)) (t_Ts (w_tank w))) -> 0 <= m ->
  addHeatCond fuel i air m w = (Ok tt, w') ->
  exists h', nth_error (w_hs w') i = Some h' /\
    (forall lo hi, (forall (v : hpwh R) cond q, D cond -> getPerformance v h air cond = Ok q -> lo <= p_in q + h_shxPump h <= hi) ->
       lo / 1000 * (h_runtime h' / 60) <= h_eIn h' - h_eIn h <= hi / 1000 * (h_runtime h' / 60)) /\
    (forall lo hi, (forall (v : hpwh R) cond q, D cond -> getPerformance v h air cond = Ok q -> lo <= p_out q <= hi) ->
       lo / 1000 * (h_runtime h' / 60) <= h_eOut h' - h_eOut h <= hi / 1000 * (h_runtime h' / 60)).
Proof.
  intros Hwf HS Hd Hn Ht HC HO HDm Hm E.
  destruct (cond_external _ _ _ _ _ _ _ Hn HC E) as (rt & p & w1 & E1 & E3).
  destruct (extCall_spec fuel i air m D h w rt p w1) as ((Ts & ci & co & ev & sc & Ew) & _ & _ & A3 & _ & A4 & A5 & _); auto.
  - apply (so_ports _ _ _ _ HO); auto.
  - apply (so_perf _ _ _ _ HO); auto.
  - destruct (h_multipass h) eqn:HM; [apply (so_flow _ _ _ _ HO); auto|apply (so_fract _ _ _ _ HO); auto].
  - assert (E2 : nth_error (w_hs w1) i = Some h) by (rewrite Ew; unfold extSt; wsimpl; auto).
    rewrite (E3 h E2). eexists. split; [wsimpl; apply (nth_upd_eq _ _ _ h); auto|].
    cbn [set_h_eOut set_h_eIn set_h_runtime h_runtime h_eIn h_eOut].
    split; intros lo hi HH; [specialize (A4 lo hi HH)|specialize (A5 lo hi HH)]; split; lra.
Qed.
Lemma C18_energy_bounds_fact : forall fuel air D i m (w w' : hpwh R) h,
  wf_tank (w_tank w) -> stratified (t_Ts (w_tank w)) -> t_doMix (w_tank w) = true -> nth_error (w_hs w) i = Some h ->
  h_type h = TCompressor -> h_config h = External -> h_multipass h = false ->
  srcOK (length (t_Ts (w_tank w))) air D h -> domUp D (t_Ts (w_tank w)) \/ domTo D (Rmin (h_maxSet h) (w_setpoint w)) (t_Ts (w_tank w)) -> 0 <= m ->
  addHeatCond fuel i air m w = (Ok tt, w') ->
  exists h', nth_error (w_hs w') i = Some h' /\
    (forall lo hi, (forall (v : hpwh R) cond q, D cond -> getPerformance v h air cond = Ok q -> lo <= p_in q + h_shxPump h <= hi) ->
       lo / 1000 * (h_runtime h' / 60) <= h_eIn h' - h_eIn h <= hi / 1000 * (h_runtime h' / 60)) /\
    (forall lo hi, (forall (v : hpwh R) cond q, D cond -> getPerformance v h air cond = Ok q -> lo <= p_out q <= hi) ->
       lo / 1000 * (h_runtime h' / 60) <= h_eOut h' - h_eOut h <= hi / 1000 * (h_runtime h' / 60)).
Proof. intros fuel air D i m w w' h Hwf HS Hd Hn Ht HC HM HO HDm Hm E. eapply ext_energy_bounds; eauto. destruct HDm; auto. Qed.
Lemma C19_energy_bounds_fact : forall fuel air D i m (w w' : hpwh R) h,
  wf_tank (w_tank w) -> stratified (t_Ts (w_tank w)) -> t_doMix (w_tank w) = true -> nth_error (w_hs w) i = Some h ->
  h_type h = TCompressor -> h_config h = External -> h_multipass h = true ->
  srcOK (length (t_Ts (w_tank w))) air D h -> domUp D (t_Ts (w_tank w)) -> 0 <= m ->
  addHeatCond fuel i air m w = (Ok tt, w') ->
  exists h', nth_error (w_hs w') i = Some h' /\
    (forall lo hi, (forall (v : hpwh R) cond q, D cond -> getPerformance v h air cond = Ok q -> lo <= p_in q + h_shxPump h <= hi) ->
       lo / 1000 * (h_runtime h' / 60) <= h_eIn h' - h_eIn h <= hi / 1000 * (h_runtime h' / 60)) /\
    (forall lo hi, (forall (v : hpwh R) cond q, D cond -> getPerformance v h air cond = Ok q -> lo <= p_out q <= hi) ->
       lo / 1000 * (h_runtime h' / 60) <= h_eOut h' - h_eOut h <= hi / 1000 * (h_runtime h' / 60)).
Proof. intros fuel air D i m w w' h Hwf HS Hd Hn Ht HC HM HO HDm Hm E. eapply ext_energy_bounds; eauto. Qed.

(** the example compressor moved out of the tank: it takes water from the bottom node and returns it at the top *)
Definition exExt (mp : bool) : hsrc R :=
  set_h_multipass mp (set_h_config External (set_h_mpFlow (1 / 100) (set_h_extIn 3 (set_h_extOut 0
    (exHS TCompressor false None exLower [exOn exLower 5] [] 0))))).
Definition exExtUnit (mp : bool) : hpwh R := set_w_hs [exExt mp] (exUnit [20; 30; 45; 50]).
Lemma exExt_perf mp (w : hpwh R) air cond : getPerformance w (exExt mp) air cond = Ok (mkperf 500 1500 3).
Proof.
  unfold getPerformance, exExt. cbn [exHS h_shxCold h_rdPwr h_rdLift h_rdBelow h_eval h_inScale h_copScale h_doDefrost obind h_airflow
     set_h_multipass set_h_config set_h_mpFlow set_h_extIn set_h_extOut].
  num_simpl. unfold nneqb. num_simpl. destruct (Reqb' 1 1) eqn:E1; bcase; [|lra]. cbn [negb p_in p_cop p_out].
  replace (Rltb 0 0) with false by (symmetry; apply Rltb_false; lra). cbn [andb]. repeat f_equal; lra.
Qed.
Lemma exExt_ok mp air D : srcOK 4 air D (exExt mp).
Proof.
  pose proof exLower_good. constructor; try (intros; discriminate).
  - intros _ w cond p _ E. rewrite exExt_perf in E. inversion E. cbn. lra.
  - intros _. assumption.
  - intros _ _. cbn [exExt h_mpFlow set_h_multipass set_h_config set_h_mpFlow set_h_extIn set_h_extOut]. lra.
  - intros _ _ w f E. unfold fractToMeet in E. cbn in E. inversion E. num_simpl. lra.
Qed.

Lemma C18_example_fact : exists w', wf_tank (w_tank (exExtUnit false)) /\ stratified (t_Ts (w_tank (exExtUnit false))) /\
  srcOK 4 20 (fun c => 0 <= c) (exExt false) /\ domUp (fun c => 0 <= c) (t_Ts (w_tank (exExtUnit false))) /\ addHeatCond 100 0 20 1 (exExtUnit false) = (Ok tt, w').
Proof.
  assert (HW : wf_tank (w_tank (exExtUnit false))) by (apply exUnit_wf; cbn; lia).
  assert (HX : succ (addHeatExternal 100 0 20 1) (exExtUnit false)).
  { apply (addHeatExternal_one 100 0 20 (exExt false)); try lra; try (cbn; lia); try reflexivity.
    - intros. eexists. apply exExt_perf.
    - constructor; auto; try reflexivity.
      + apply Forall_nil.
      + intros HX. discriminate HX.
      + cbn. lia.
    - intros p Ep. rewrite exExt_perf in Ep. inversion Ep. cbn. num_simpl. unfold CPWATER, DENSITYWATER, dec. num_simpl. unfold nofN. num_simpl. cbn. mm; lra. }
  destruct HX as (r & w1 & E). destruct (cond_ext_run 100 20 0 1 (exExt false) (exExtUnit false) r w1 eq_refl eq_refl E) as [w' E'].
  exists w'. splits; auto; [apply strat4; num_simpl; lra|apply exExt_ok|].
  exists 20. split; [|intros; lra]. intros t Ht. destruct Ht as [<-|[<-|[<-|[<-|[]]]]]; num_simpl; lra.
Qed.

Lemma C19_example_fact : exists w', wf_tank (w_tank (exExtUnit true)) /\ stratified (t_Ts (w_tank (exExtUnit true))) /\
  srcOK 4 20 (fun c => 0 <= c) (exExt true) /\ domUp (fun c => 0 <= c) (t_Ts (w_tank (exExtUnit true))) /\ addHeatCond 100 0 20 1 (exExtUnit true) = (Ok tt, w').
Proof.
  assert (HW : wf_tank (w_tank (exExtUnit true))) by (apply exUnit_wf; cbn; lia).
  assert (HX : succ (addHeatExternalMP 100 0 20 1) (exExtUnit true)).
  { apply (addHeatExternalMP_succ 100 0 20 (fun _ => True) (exExt true)); try lra; try (cbn; lia); try (cbn; lra).
    - intros. eexists. split; [apply exExt_perf|]. cbn. lra.
    - constructor; auto; try reflexivity.
      + apply Forall_nil.
      + intros HX. discriminate HX.
      + cbn. lia.
    - exists 20. split; auto. intros t Ht. destruct Ht as [<-|[<-|[<-|[<-|[]]]]]; num_simpl; lra. }
  destruct HX as (r & w1 & E). destruct (cond_ext_run 100 20 0 1 (exExt true) (exExtUnit true) r w1 eq_refl eq_refl E) as [w' E'].
  exists w'. splits; auto; [apply strat4; num_simpl; lra|apply exExt_ok|].
  exists 20. split; [|intros; lra]. intros t Ht. destruct Ht as [<-|[<-|[<-|[<-|[]]]]]; num_simpl; lra.
Qed.
(*C19END*)
(** ** C20: extra heat *)

Lemma C20_extra_heat_fact : forall fuel l (w w' : hpwh R), extraOK l -> l <> [] ->
  wf_tank (w_tank w) -> INR (length (t_Ts (w_tank w))) <= 10000 -> stratified (t_Ts (w_tank w)) -> 0 <= w_minStep w ->
  addExtraHeat fuel l w = (Ok tt, w') ->
  w_extraE w' = Rsum l / 1000 * (w_minStep w / 60) /\
  tankHeat (w_tank w') = tankHeat (w_tank w) + 3600 * w_extraE w' /\
  stratified (t_Ts (w_tank w')) /\
  (forall j, (j < length (t_Ts (w_tank w)))%nat -> node (t_Ts (w_tank w)) j <= node (t_Ts (w_tank w')) j) /\
  w' = set_w_extraE (w_extraE w') (set_w_tank (set_t_Ts (t_Ts (w_tank w')) (w_tank w)) w).
Proof.
  intros fuel l w w' Hl Hne Hwf Hbig Hs Hm E.
  destruct (addExtraHeat_spec fuel l w w' Hl Hne Hwf Hbig Hs Hm E) as (Ts' & Ew & HL & HE & HS & HG).
  assert (E1 : w_extraE w' = Rsum l / 1000 * w_minStep w / 60) by (rewrite Ew; reflexivity).
  assert (E2 : w_tank w' = set_t_Ts Ts' (w_tank w)) by (rewrite Ew; reflexivity).
  rewrite E2 at 1. rewrite E1. rewrite tankHeat_set_Ts by auto. rewrite (tankHeat_cp (w_tank w)) by auto.
  assert (E3 : t_Ts (w_tank w') = Ts') by (rewrite E2; reflexivity). rewrite E3. splits; auto; try lra.
  intros j Hj. apply HG. lia.
Qed.

Lemma normalize_length fuel : forall (d d' : list R), normalize fuel d = Ok d' -> length d' = length d.
Proof.
  induction fuel as [|fuel IH]; intros d d' E; cbn [normalize] in E; [discriminate|].
  assert (HL : length (fst (normalize_pass d)) = length d).
  { unfold normalize_pass. cbv zeta. destruct (_ : bool); cbn [fst]; apply map_length. }
  destruct (normalize_pass d) as [d1 again]. cbn [fst] in HL. destruct again; [|congruence]. rewrite (IH _ _ E). exact HL.
Qed.
Lemma extraLoop_succ d m : forall k tot (w : hpwh R), succ (extraLoop d m k tot) w.
Proof.
  induction k as [|k IH]; intros tot w; cbn [extraLoop]; [apply succ_ret|]. cbv zeta.
  destruct (nneqb _ _); [|apply IH]. apply succ_bind; [|intros; apply IH].
  unfold succ, onTank, addExtraHeatAboveNode, modify. eauto.
Qed.
Lemma C20_succeeds_fact : forall fuel l (w : hpwh R), l <> [] -> (0 < length (t_Ts (w_tank w)) < fuel)%nat ->
  findShrinkageT (wd_of_nodes (map (fun x => x / Rsum l) l)) (length (t_Ts (w_tank w))) <> 0 ->
  exists w', addExtraHeat fuel l w = (Ok tt, w').
Proof.
  intros fuel l w Hne Hf Hsh. enough (succ (addExtraHeat fuel l) w) as ([] & w' & E) by eauto.
  unfold addExtraHeat. apply succ_bind; [apply succ_get|]. intros w0 w1 E. apply get_inv in E. destruct E as [-> ->].
  assert (exists d1, modifyHeatDistribution fuel l (w_setpoint w) (w_tank w) = Ok d1 /\ d1 <> []) as (d1 & E1 & H1).
  { unfold modifyHeatDistribution. rewrite nsum_Rsum. num_simpl. destruct (Reqb' (Rsum l) 0); [eauto|].
    unfold numNodes.
    destruct (calcThermalDist_ok fuel _ (findLowestNode (wd_of_nodes (map (fun x => x / Rsum l) l)) (length (t_Ts (w_tank w)))) (t_Ts (w_tank w)) (w_setpoint w) Hsh) as [d Ed]; [lia|].
    rewrite Ed. cbn [obind]. eexists. split; [reflexivity|].
    assert (HL : length d = length (t_Ts (w_tank w))).
    { revert Ed. unfold calcThermalDist. destruct (ndivok _); [|discriminate]. cbv zeta. destruct (_ : bool).
      - intros Ed. rewrite (normalize_length _ _ _ Ed), map_length, seq_length. reflexivity.
      - intros Ed. inversion Ed. rewrite !map_length, seq_length. reflexivity. }
    destruct d; [cbn in HL; lia|discriminate]. }
  apply succ_bind; [eapply succ_lift; exact E1|]. intros d w1 E. apply lift_inv in E. destruct E as [-> E]. rewrite E1 in E. inversion E; subst d.
  destruct (resampleExtensive_eq (map (fun _ => 0) (t_Ts (w_tank w))) d1 H1) as (vs & Ev & _); [rewrite map_length; lia|].
  apply succ_bind; [eapply succ_lift; exact Ev|]. intros d w1 E'. apply lift_inv in E'. destruct E' as [-> E'].
  apply succ_bind; [apply extraLoop_succ|]. intros. apply succ_modify.
Qed.
Lemma C20_negative_total_refuted_fact : exists (w w' : hpwh float),
  addExtraHeat 100 [fofZ (-1000)] w = (Ok tt, w') /\ t_Ts (w_tank w') = t_Ts (w_tank w) /\
  nltb (Num:=FNum) (w_extraE w') (fofZ 0) = true.
Proof.
  exists (exUnit (T:=float) (map fofZ [20; 30; 45; 50]%Z)). eexists. split; [vm_compute; reflexivity|]. split; vm_compute; reflexivity.
Qed.
Lemma C20_zero_total_refuted_fact : exists (w w' : hpwh float),
  addExtraHeat 100 [fofZ 1000; fofZ (-1000)] w = (Ok tt, w') /\ w_extraE w' = fofZ 0 /\
  nltb (Num:=FNum) (heatContent (w_tank w)) (heatContent (w_tank w')) = true.
Proof.
  exists (exUnit (T:=float) (map fofZ [20; 30; 45; 50]%Z)). eexists. split; [vm_compute; reflexivity|]. split; vm_compute; reflexivity.
Qed.

Lemma exShrink : findShrinkageT (T:=R) (wd_of_nodes (map (fun x => x / Rsum [1000]) [1000])) 4 <> 0.
Proof.
  assert (Ew : wd_of_nodes (map (fun x => x / Rsum [1000]) [1000]) = [(1, 1)]).
  { unfold wd_of_nodes, Rsum. cbn. num_simpl. unfold nofN. num_simpl. cbn. repeat f_equal; field. }
  rewrite Ew. assert (HG : goodDist [(1, 1)]).
  { constructor; [discriminate|cbn; lra|repeat constructor; cbn; lra|left; cbn; lra]. }
  assert (HW : forall k, (k < 4)%nat -> wd_normalizedWeight [(1, 1)] (INR k / INR 4) (INR (S k) / INR 4) = 1 / 4).
  { intros k Hk. rewrite normalizedWeight_eq; [|apply HG|discriminate|].
    - assert (HO : forall x y, 0 <= x -> x <= y -> y <= 1 -> overlap (0 / 1) (1 / 1) x y = y - x).
      { intros x y H1 H2 H3. unfold overlap. replace (0 / 1) with 0 by lra. replace (1 / 1) with 1 by lra. mm; lra. }
      unfold share, massOver, topHeight. cbn [last fst]. rewrite !HO; destruct k as [|[|[|[|k]]]]; cbn; try lia; try lra.
    - destruct k as [|[|[|[|k]]]]; cbn; try lia; lra. }
  unfold findShrinkageT. cbn [seq fold_left]. rewrite !nofN_R. num_simpl.
  assert (HW0 := HW 0%nat ltac:(lia)). replace (INR 0 / INR 4) with 0 in HW0 by (cbn; lra).
  rewrite HW0, !HW by lia. replace (Rltb 0 (1 / 4)) with true by (symmetry; apply Rltb_true; lra).
  unfold CONDENSITY_SIZE.
  assert (0 < ln 4) by (rewrite <- ln_1; apply ln_increasing; lra).
  assert (ln (1 / 4) = - ln 4) by (unfold Rdiv; rewrite Rmult_1_l; apply ln_Rinv; lra).
  assert (0 < ln 12) by (rewrite <- ln_1; apply ln_increasing; lra).
  assert (ln (INR 4 / INR 12) = ln 4 - ln 12).
  { replace (INR 4) with 4 by (cbn; lra). replace (INR 12) with 12 by (cbn; lra). unfold Rdiv. rewrite ln_mult by lra. rewrite ln_Rinv by lra. lra. }
  num_simpl. lra.
Qed.
Lemma C20_example_fact : forall w, w = exUnit (T:=R) [20; 30; 45; 50] -> exists w',
  extraOK [1000] /\ wf_tank (w_tank w) /\ stratified (t_Ts (w_tank w)) /\ addExtraHeat 100 [1000] w = (Ok tt, w').
Proof.
  intros w ->. destruct (C20_succeeds_fact 100 [1000] (exUnit (T:=R) [20; 30; 45; 50])) as [w' E]; [discriminate|cbn; lia|exact exShrink|].
  exists w'. splits; auto; [left; unfold Rsum; cbn; lra|apply exUnit_wf; cbn; lia|apply strat4; lra].
Qed.
(*C20END*)
(** ** C21, C22: whole steps *)

Lemma C21_step_balance_fact : forall fuel x D (w w' : hpwh R), unitOK (sourceAir w x) D w -> covered D x w ->
  extraOK (extraList x) -> (extraList x <> [] -> INR (length (t_Ts (w_tank w))) <= 10000) ->
  runOneStep fuel x w = (Ok tt, w') ->
  tankHeat (w_tank w') = tankHeat (w_tank w)
    + drawnHeat (t_hasHX (w_tank w)) (i_draw x) (w_inletT w) (i_vol2 x) (i_inT2 x) (t_outletT (w_tank w'))
    + 3600 * Rsum (map h_eOut (w_hs w')) + 3600 * w_extraE w' - 3600 * w_stbyE w' /\
  w_extraE w' = Rsum (extraList x) / 1000 * (w_minStep w / 60) /\
  w_envE w' = Rsum (map (fun h => h_eOut h - h_eIn h) (w_hs w')) /\
  Forall (fun h => 0 <= h_eOut h) (w_hs w') /\ stratified (t_Ts (w_tank w')).
Proof.
  intros fuel x D w w' HU HCv Hq Hbig E. pose proof (step_rel fuel x D w w' HU HCv Hq Hbig E) as HS.
  splits; try apply HS. rewrite (sr_extra _ _ _ HS). field.
Qed.

Lemma C22_no_false_alarm_fact : forall fuel x D (w w' : hpwh R) tol, unitOK (sourceAir w x) D w -> covered D x w ->
  extraOK (extraList x) -> (extraList x <> [] -> INR (length (t_Ts (w_tank w))) <= 10000) ->
  0 <= i_vol2 x <= i_draw x -> (t_hasHX (w_tank w) = true -> i_vol2 x = 0) -> 0 <= tol ->
  runOneStep fuel x w = (Ok tt, w') ->
  isEnergyBalanced (i_draw x - i_vol2 x) (w_inletT w) (i_vol2 x) (i_inT2 x) (heatContent (w_tank w)) tol w' = true.
Proof.
  intros fuel x D w w' tol HU HCv Hq Hbig Hv Hhx Htol E. pose proof (step_rel fuel x D w w' HU HCv Hq Hbig E) as HS.
  assert (HU' : unitOK (sourceAir w x) D w') by (eapply stepRel_unitOK; eauto).
  pose proof (uo_wf _ _ _ HU) as Hwf. pose proof (uo_wf _ _ _ HU') as Hwf'.
  unfold isEnergyBalanced. cbv zeta. rewrite !C04_heat_content_is_stored_heat_fact by auto.
  unfold KWH_TO_KJ, sec_per_hr, sec_per_min, min_per_hr. num_simpl.
  assert (HF : forall l a, fold_left (fun acc (h : hsrc R) => acc + h_eIn h * (60 * 60)) l a = a + 3600 * Rsum (map h_eIn l)).
  { induction l as [|h l IH]; intros a; cbn [fold_left map]; [unfold Rsum; cbn; lra|]. rewrite IH. unfold Rsum; cbn. lra. }
  rewrite HF. rewrite (sr_env _ _ _ HS), (sr_heat _ _ _ HS).
  assert (HE : Rsum (map (fun h => h_eOut h - h_eIn h) (w_hs w')) = Rsum (map h_eOut (w_hs w')) - Rsum (map h_eIn (w_hs w'))).
  { induction (w_hs w') as [|h l IH]; unfold Rsum in *; cbn; lra. }
  rewrite HE. unfold deliveredKJ.
  assert (HD : drawnHeat (t_hasHX (w_tank w)) (i_draw x) (w_inletT w) (i_vol2 x) (i_inT2 x) (t_outletT (w_tank w'))
     = - (CPWATER * DENSITYWATER * (i_draw x - i_vol2 x) * (t_outletT (w_tank w') - w_inletT w)
        + CPWATER * DENSITYWATER * i_vol2 x * (t_outletT (w_tank w') - i_inT2 x))).
  { unfold drawnHeat. destruct (Rle_dec (i_draw x) 0).
    - assert (i_draw x = 0) as -> by lra. assert (i_vol2 x = 0) as -> by lra. ring.
    - destruct (t_hasHX (w_tank w)); [rewrite Hhx by auto|]; ring. }
  rewrite HD. match goal with |- negb (Rltb _ (nabs ?q / _)) = true => replace q with 0 by (num_simpl; ring) end.
  rewrite nabs_R, Rabs_R0. unfold Rdiv. rewrite Rmult_0_l.
  replace (Rltb tol 0) with false by (symmetry; apply Rltb_false; lra). reflexivity.
Qed.
Lemma C22_detects_fact : forall (w' : hpwh R) d1 t1 d2 t2 prev tol, wf_tank (w_tank w') -> 0 <= tol ->
  isEnergyBalanced d1 t1 d2 t2 prev tol w' = true <->
  Rabs (tankHeat (w_tank w') - (prev + 3600 * Rsum (map h_eIn (w_hs w')) + 3600 * w_extraE w' + 3600 * w_envE w' - 3600 * w_stbyE w'
     - CPWATER * DENSITYWATER * (d1 * (t_outletT (w_tank w') - t1) + d2 * (t_outletT (w_tank w') - t2)))) <= tol * Rmax prev 1.
Proof.
  intros w' d1 t1 d2 t2 prev tol Hwf Htol. unfold isEnergyBalanced. cbv zeta. rewrite C04_heat_content_is_stored_heat_fact by auto.
  unfold KWH_TO_KJ, sec_per_hr, sec_per_min, min_per_hr. num_simpl.
  assert (HF : forall l a, fold_left (fun acc (h : hsrc R) => acc + h_eIn h * (60 * 60)) l a = a + 3600 * Rsum (map h_eIn l)).
  { induction l as [|h l IH]; intros a; cbn [fold_left map]; [unfold Rsum; cbn; lra|]. rewrite IH. unfold Rsum; cbn. lra. }
  rewrite HF. rewrite nabs_R.
  match goal with |- negb (Rltb _ (Rabs ?q / _)) = true <-> Rabs ?p <= _ => replace q with p by ring; set (a := Rabs p) end.
  assert (Hmx : nmax prev 1 = Rmax prev 1) by (unfold nmax; num_simpl; mm; rcase; lra). rewrite Hmx.
  assert (Hpos : 0 < Rmax prev 1) by (mm; lra). set (mx := Rmax prev 1) in *.
  assert (Ha : a = a / mx * mx) by (field; lra).
  destruct (Rltb tol (a / mx)) eqn:EL; bcase; cbn [negb]; split; intros H; try discriminate; auto.
  - exfalso. assert (tol * mx < a / mx * mx) by (apply Rmult_lt_compat_r; auto). lra.
  - rewrite Ha. apply Rmult_le_compat_r; lra.
Qed.

Lemma exUnit_step draw amb dr Ts : length Ts = 4%nat -> -100 < amb -> 0 <= draw <= 1000 ->
  exists w', runOneStep 100 (exIn draw amb dr) (exUnit (T:=R) Ts) = (Ok tt, w').
Proof.
  intros HL Ha Hd. apply step_succ with (D := fun _ => True).
  - apply exUnit_ok. auto.
  - left. auto.
  - apply exUnit_ready. exact Ha.
  - cbn. num_simpl. lra.
  - discriminate.
  - cbn. num_simpl. lra.
  - cbn. num_simpl. lra.
  - intros _. cbn [w_tank exUnit exTankG]. unfold condTau. cbn. num_simpl. unfold dec, KWATER, DENSITYWATER, CPWATER. num_simpl. unfold dec. num_simpl. lra.
  - reflexivity.
  - cbn [w_tank exUnit exTankG t_Ts]. rewrite HL. lia.
  - cbn [w_tank exUnit exTankG t_nodeVol i_draw exIn]. unfold nofN. rewrite HL. num_simpl. cbn. lra.
Qed.

Lemma C21_example_fact : exists w', unitOK 20 (fun _ => True) (exUnit (T:=R) [20; 30; 45; 50]) /\
  runOneStep 100 (exIn 3 20 0) (exUnit (T:=R) [20; 30; 45; 50]) = (Ok tt, w').
Proof.
  destruct (exUnit_step 3 20 0 [20; 30; 45; 50] eq_refl ltac:(lra) ltac:(lra)) as [w' E]. exists w'. split; auto. apply exUnit_ok. reflexivity.
Qed.
Lemma C22_example_fact : exists w', runOneStep 100 (exIn 3 20 0) (exUnit (T:=R) [20; 30; 45; 50]) = (Ok tt, w') /\
  isEnergyBalanced 3 10 0 0 (heatContent (w_tank (exUnit (T:=R) [20; 30; 45; 50]))) 0 w' = true.
Proof.
  destruct C21_example_fact as (w' & HU & E). exists w'. split; auto.
  pose proof (C22_no_false_alarm_fact 100 (exIn 3 20 0) _ (exUnit (T:=R) [20; 30; 45; 50]) w' 0 HU (or_introl (fun c => I))) as H.
  cbn [exIn i_draw i_vol2 i_inT2 extraList i_extra] in H. num_simpl. rewrite Rminus_0_r in H. apply H; auto; try lra.
  - right. intros q [].
  - intros HX. destruct HX. reflexivity.
Qed.

(** ** C23: the balance of runs *)
Lemma runs_det fuel : forall rows (w : hpwh R) ws wl, runs fuel rows w ws wl -> forall ws' wl', runs fuel rows w ws' wl' -> ws = ws' /\ wl = wl'.
Proof.
  induction 1 as [|r rows w w1 ws wl E HR IH]; intros ws' wl' H'; inversion H' as [|r0 rows0 wa w2 ws0 wb E' HR']; subst; [auto|].
  assert (w1 = w2) by congruence. subst. destruct (IH _ _ HR') as [-> ->]. auto.
Qed.
(*C22END*)
Lemma Rsum_cons x l : Rsum (x :: l) = x + Rsum l.
Proof. reflexivity. Qed.
Lemma delivered_swap k : forall (ws : list (hpwh R)), (forall v, In v ws -> length (w_hs v) = k) ->
  bsum (fun i => Rsum (map (field h_eOut i) ws)) k = Rsum (map (fun v => Rsum (map h_eOut (w_hs v))) ws).
Proof.
  induction ws as [|v ws IH]; intros HL.
  - cbn [map]. apply bsum_0.
  - cbn [map]. rewrite Rsum_cons, <- IH by (intros; apply HL; right; auto).
    assert (HV : bsum (fun i => field h_eOut i v) k = Rsum (map h_eOut (w_hs v))).
    { rewrite <- (HL v (or_introl eq_refl)). rewrite Rsum_bsum, map_length. apply bsum_ext. intros i Hi.
      unfold field, node. destruct (nth_error (w_hs v) i) as [h|] eqn:E; [|apply nth_error_None in E; lia].
      rewrite (nth_indep _ 0 (h_eOut h)) by (rewrite map_length; auto). rewrite map_nth. rewrite (nth_error_nth _ _ _ E). reflexivity. }
    rewrite <- HV. rewrite <- bsum_plus. apply bsum_ext. intros i Hi. apply Rsum_cons.
Qed.
Lemma runs_nhs fuel : forall rows (w : hpwh R) ws wl, runs fuel rows w ws wl -> forall v, In v ws -> length (w_hs v) = length (w_hs w).
Proof.
  induction 1 as [|r rows w w1 ws wl E HR IH]; intros v Hv; [destruct Hv|].
  assert (E1 : length (w_hs w1) = length (w_hs w)).
  { unfold runOneStepInlet in E. unfold bind, modify in E. apply step_nhs in E. exact E. }
  destruct Hv as [<-|Hv]; auto. rewrite IH; auto.
Qed.

Lemma C23_run_balance_fact : forall fuel D rows (w w' : hpwh R),
  (forall air, w_doDepress w = true \/ In air (map r_ext rows) -> unitOK air D w) -> coveredRun D rows w ->
  Forall (fun r => 0 <= r_draw r) rows ->
  runNSteps fuel rows w = (Ok tt, w') ->
  tankHeat (w_tank w') = tankHeat (w_tank w)
    + CPWATER * DENSITYWATER * (Rsum (map (fun r => r_draw r * r_inletT r) rows) - t_outletT (w_tank w') * Rsum (map r_draw rows))
    + 3600 * Rsum (map h_eOut (w_hs w')) - 3600 * w_stbyE w'.
Proof.
  intros fuel D rows w w' HU HCv HD E.
  destruct (C23_sums_fact _ _ _ _ E) as (ws & wl & HR & _ & S2 & S3 & S4 & S5).
  destruct (C24_outlet_mean_fact _ _ _ _ E) as (ws' & wl' & HR' & M1 & _).
  destruct (runs_det _ _ _ _ _ HR _ _ HR') as [<- <-].
  assert (HT : tankHeat (w_tank w') = tankHeat (w_tank wl)) by (rewrite S5; reflexivity).
  rewrite HT, (runs_heat _ _ _ _ _ _ HU HCv HD HR), M1, S2. unfold zipSum.
  assert (HE : Rsum (map h_eOut (w_hs w')) = Rsum (map (fun v => Rsum (map h_eOut (w_hs v))) ws)).
  { rewrite <- (delivered_swap (length (w_hs w))) by (intros v Hv; eapply runs_nhs; eauto).
    rewrite Rsum_bsum, map_length, S3. apply bsum_ext. intros i Hi. unfold node.
    destruct (nth_error (w_hs w') i) as [h|] eqn:En; [|apply nth_error_None in En; lia].
    rewrite (nth_indep _ 0 (h_eOut h)) by (rewrite map_length; lia). rewrite map_nth, (nth_error_nth _ _ _ En).
    apply S4; auto. }
  rewrite HE. unfold deliveredKJ.
  assert (HM : forall l : list (hpwh R), Rsum (map (fun v => 3600 * Rsum (map h_eOut (w_hs v))) l) = 3600 * Rsum (map (fun v => Rsum (map h_eOut (w_hs v))) l)).
  { induction l as [|v l IH]; unfold Rsum in *; cbn in *; lra. }
  rewrite HM. ring.
Qed.

(** ** C73: simulation always completes *)

Lemma C73_step_completes_fact : forall fuel x D (w : hpwh R), unitOK (sourceAir w x) D w -> covered D x w -> unitReady (sourceAir w x) D w ->
  0 < w_minStep w -> (w_doDepress w = true -> w_minStep w = 1) ->
  (0 < i_draw x -> i_vol2 x <= i_draw x) -> t_mixBelowFrac (w_tank w) <= 1 ->
  (t_doCond (w_tank w) = true -> condTau (w_tank w) (w_secStep w) <= 1) ->
  extraList x = [] ->
  (length (t_Ts (w_tank w)) * length (t_Ts (w_tank w)) < fuel)%nat -> i_draw x / t_nodeVol (w_tank w) <= INR fuel ->
  exists w', runOneStep fuel x w = (Ok tt, w').
Proof. exact step_succ. Qed.
Lemma C73_run_completes_fact : forall fuel D rows (w : hpwh R), w_doDepress w = false -> 0 < w_minStep w -> coveredRun D rows w ->
  (forall r, In r rows -> unitOK (r_ext r) D w /\ unitReady (r_ext r) D w /\ 0 <= r_draw r /\ r_draw r / t_nodeVol (w_tank w) <= INR fuel) ->
  Rsum (map r_draw rows) <> 0 ->
  t_mixBelowFrac (w_tank w) <= 1 -> (t_doCond (w_tank w) = true -> condTau (w_tank w) (w_secStep w) <= 1) ->
  (length (t_Ts (w_tank w)) * length (t_Ts (w_tank w)) < fuel)%nat ->
  exists w', runNSteps fuel rows w = (Ok tt, w').
Proof.
  intros fuel D rows w H1 H2 HCv H3 H4 H5 H6 H7. destruct (runs_succ fuel D rows w H1 H2 HCv H3 H5 H6 H7) as (ws & wl & HR).
  eapply C24_succeeds_fact; eauto.
Qed.
Definition exRowsR : list (rowIn (T:=R)) := [mkrow 10 3 20 20 0%Z; mkrow 12 0 20 25 1%Z; mkrow 12 8 20 (-5) 0%Z].
Lemma exUnit_run : exists w', runNSteps 100 exRowsR (exUnit (T:=R) [20; 30; 45; 50]) = (Ok tt, w').
Proof.
  apply (C73_run_completes_fact 100 (fun _ => True)).
  - reflexivity.
  - cbn. num_simpl. lra.
  - left. auto.
  - intros r Hr. assert (-100 < r_ext r /\ 0 <= r_draw r <= 8) as [HA HB].
    { destruct Hr as [<-|[<-|[<-|[]]]]; cbn; lra. }
    splits; try lra; [apply exUnit_ok; reflexivity|apply exUnit_ready; auto|].
    cbn [w_tank exUnit exTankG t_nodeVol length]. unfold nofN. num_simpl. cbn. lra.
  - unfold Rsum. cbn. lra.
  - cbn. num_simpl. lra.
  - intros _. cbn [w_tank exUnit exTankG]. unfold condTau. cbn. num_simpl. unfold dec, KWATER, DENSITYWATER, CPWATER. num_simpl. unfold dec. num_simpl. lra.
  - cbn. lia.
Qed.
Lemma C73_example_fact : forall draw amb dr Ts, length Ts = 4%nat -> -100 < amb -> 0 <= draw <= 1000 ->
  exists w', runOneStep 100 (exIn draw amb dr) (exUnit (T:=R) Ts) = (Ok tt, w').
Proof. exact exUnit_step. Qed.
Lemma C23_balance_example_fact : exists w', runNSteps 100 exRowsR (exUnit (T:=R) [20; 30; 45; 50]) = (Ok tt, w') /\
  (forall air, unitOK air (fun _ => True) (exUnit (T:=R) [20; 30; 45; 50])) /\ Forall (fun r => 0 <= r_draw r) exRowsR.
Proof.
  destruct exUnit_run as [w' E]. exists w'. splits; auto; [intros; apply exUnit_ok; reflexivity|repeat constructor; cbn; lra].
Qed.
Lemma C74_multi_pass_completes_fact : forall fuel i air (D : R -> Prop) h m (w : hpwh R), (0 <= h_extOut h <= h_extIn h)%Z -> 0 < h_mpFlow h ->
  h_config h = External -> h_multipass h = true ->
  (forall (v : hpwh R) cond, D cond -> exists p, getPerformance v h air cond = Ok p /\ 0 < p_out p) ->
  wf_tank (w_tank w) -> nth_error (w_hs w) i = Some h -> Forall (logicReady (w_haveInletT w)) (h_shutOff h) -> socReady w ->
  (length (t_Ts (w_tank w)) * length (t_Ts (w_tank w)) < fuel)%nat ->
  (h_extIn h < Z.of_nat (length (t_Ts (w_tank w))))%Z -> 0 <= m -> domUp D (t_Ts (w_tank w)) ->
  h_mpFlow h * (m * 60) / t_nodeVol (w_tank w) <= INR fuel -> 
  exists w', addHeatCond fuel i air m w = (Ok tt, w').
Proof.
  intros fuel i air D h m w Hp Hfl Hc Hmp HP Hwf Hn Hoff Hsoc Hf HX Hm HDm Hb.
  destruct (addHeatExternalMP_succ fuel i air D h m w Hp Hfl HP) as (r & w1 & E); auto; [constructor; auto|].
  eapply cond_ext_run; eauto. unfold extCall. rewrite Hmp. exact E.
Qed.

(** ** C29, C30 *)

Lemma C29_run_time_fact : forall fuel x D (w w' : hpwh R), unitOK (sourceAir w x) D w -> covered D x w ->
  extraOK (extraList x) -> (extraList x <> [] -> INR (length (t_Ts (w_tank w))) <= 10000) ->
  runOneStep fuel x w = (Ok tt, w') -> Forall (fun h => 0 <= h_runtime h <= w_minStep w) (w_hs w').
Proof.
  intros fuel x D w w' HU HCv Hq Hbig E. pose proof (step_rel fuel x D w w' HU HCv Hq Hbig E) as HS.
  rewrite <- (sr_min _ _ _ HS). apply HS.
Qed.
(** the finding: a backup element can be heated twice for the same minutes, so the energy it reports is
    more than its power times the run time it reports *)
Definition exDouble : hpwh float :=
  set_w_hs [exHS TCompressor false (Some 1%nat) exLower [exOn exLower (fofZ 5)] [] 0; exHS TResistance false None exLower [] [] 0]
    (set_w_setpoint (fofZ 65) (set_w_compIx 0 (set_w_lowIx 1 (set_w_vipIx (-1) (exUnit [dec 598 10; fofZ 60; fofZ 60; fofZ 60]))))).
Lemma C29_power_times_run_time_refuted_fact : exists (w w' : hpwh float) h, 
  runOneStep 100 (exIn (fofZ 0) (fofZ 20) 0) w = (Ok tt, w') /\ nth_error (w_hs w') 1 = Some h /\ h_type h = TResistance /\
  nltb (Num:=FNum) (fofZ 0) (h_runtime h) = true /\
  h_eIn h = (fofZ 2 * (h_power h * (h_runtime h / fofZ 60)))%float /\
  nltb (Num:=FNum) (h_power h * (h_runtime h / fofZ 60))%float (h_eIn h) = true.
Proof.
  exists exDouble. eexists _, _. split; [vm_compute; reflexivity|]. split; [vm_compute; reflexivity|]. split; [vm_compute; reflexivity|].
  split; [vm_compute; reflexivity|]. split; vm_compute; reflexivity.
Qed.
Lemma C29_example_fact : exists w', unitOK 20 (fun _ => True) (exUnit (T:=R) [20; 30; 45; 50]) /\
  runOneStep 100 (exIn 3 20 0) (exUnit (T:=R) [20; 30; 45; 50]) = (Ok tt, w').
Proof. exact C21_example_fact. Qed.

Lemma C30_step_range_fact : forall fuel x (w w' : hpwh R) D lo hi, unitOK (sourceAir w x) D w -> (forall c, lo <= c <= hi -> D c) ->
  calm lo hi x w -> extraList x = [] ->
  runOneStep fuel x w = (Ok tt, w') -> within lo hi (t_Ts (w_tank w')).
Proof. exact step_range. Qed.
Lemma exUnit_calm w : w_tank w = w_tank (exUnit (T:=R) [20; 30; 45; 50]) -> w_setpoint w = 55 -> w_hrStep w = 1 / 60 -> w_secStep w = 60 ->
  Forall (fun h => ~ multiPass h) (w_hs w) -> calmUnit 10 60 w.
Proof.
  intros Et Es Eh Ec Hm. constructor; rewrite ?Et, ?Es, ?Eh, ?Ec; auto; try (cbn; num_simpl; unfold dec; num_simpl; lra).
  - apply strat4; lra.
  - intros t Ht. destruct Ht as [<-|[<-|[<-|[<-|[]]]]]; lra.
  - intros ends ->. cbn. unfold dec, CPWATER, DENSITYWATER, nofN. num_simpl. unfold dec. num_simpl. cbn. lra.
Qed.
Lemma exSources_multi : Forall (fun h => ~ multiPass h) (exSources (T:=R)).
Proof. unfold exSources. repeat (apply Forall_cons; [intros (HX & HY & _); discriminate|]). apply Forall_nil. Qed.
Lemma C30_example_fact : exists w', runOneStep 100 (exIn 3 20 0) (exUnit (T:=R) [20; 30; 45; 50]) = (Ok tt, w') /\ within 10 60 (t_Ts (w_tank w')).
Proof.
  destruct C21_example_fact as (w' & HU & E). exists w'. split; auto.
  apply (C30_step_range_fact 100 (exIn 3 20 0) (exUnit (T:=R) [20; 30; 45; 50]) w' (fun _ => True) 10 60 HU); auto.
  constructor; [|cbn; num_simpl; unfold dec; num_simpl; lra..]. apply exUnit_calm; try reflexivity. exact exSources_multi.
Qed.

(** ** A heat pump with polynomial performance *)

(** The performance map of a generic heat pump (HPWHpresets.cc:240-242): powers in W and COPs as polynomials of
    the water temperature in F, at air temperatures 50 F and 70 F. *)
Definition exMap : list (@polyPt R) :=
  [ mkpoly 50 [187.064124; 1.939747; 0] [5.4977772; -0.0243008; 0];
    mkpoly 70 [148.0418; 2.553291; 0] [7.207307; -0.0335265; 0] ].
Definition exPolyHS : hsrc R := set_h_eval (polyFun exMap) (exHS TCompressor false (Some 1%nat) exLower [exOn exLower 5] [exOff 60] 0).
Definition exPolyUnit : hpwh R := set_w_hs (upd exSources 2 exPolyHS) (exUnit [20; 30; 45; 50]).
Definition exWater (c : R) : Prop := 10 <= c <= 60.
Definition lin2 (a c b d u x : R) : R := (a + c * x) + (u - 50) * ((b + d * x) - (a + c * x)) / (70 - 50).
Lemma exPoly_eval (sp air c : R) : let u := 9 / 5 * air + 32 in let x := 9 / 5 * c + 32 in
  let cop := lin2 5.4977772 (-0.0243008) 7.207307 (-0.0335265) u x in let inp := lin2 187.064124 1.939747 148.0418 2.553291 u x in
  polyFun exMap sp air c = mkperf inp (cop * inp) cop.
Proof.
  intros u x cop inp. unfold polyFun, polyEval, exMap, C_TO_F, offsetF, FperC, linearInterp, dec. num_simpl. unfold dec. num_simpl. fold u x.
  set (L := evalLoop _ _ _ _).
  assert (EL : L = (Some 0%nat, 1%nat)) by (unfold L; cbn [evalLoop length pp_T]; num_simpl; destruct (Rltb u 50); [reflexivity|]; destruct (Rltb u 70); reflexivity).
  rewrite EL. clear L EL. unfold atPoint. cbn [nth_error obind pp_T pp_in pp_cop quadratic]. num_simpl.
  replace (negb (Reqb' (70 - 50) 0)) with true by (symmetry; unfold Reqb'; destruct (Req_EM_T _ _); [lra|reflexivity]).
  unfold cop, inp, lin2. f_equal; field.
Qed.
Lemma exPoly_perf (w : hpwh R) air c : exists p, getPerformance w exPolyHS air c = Ok p /\ p_out p =
  lin2 5.4977772 (-0.0243008) 7.207307 (-0.0335265) (9 / 5 * air + 32) (9 / 5 * c + 32) *
  lin2 187.064124 1.939747 148.0418 2.553291 (9 / 5 * air + 32) (9 / 5 * c + 32).
Proof.
  unfold getPerformance, exPolyHS. cbn [exHS h_shxCold h_rdPwr h_rdLift h_rdBelow h_eval h_inScale h_copScale h_doDefrost obind h_airflow set_h_eval].
  num_simpl. unfold nneqb. num_simpl. destruct (Reqb' 1 1) eqn:E1; bcase; [|lra]. cbn [negb].
  replace (Rltb 0 0) with false by (symmetry; apply Rltb_false; lra). cbn [andb]. rewrite exPoly_eval. cbn [p_in p_cop p_out].
  eexists. split; [reflexivity|]. cbn [p_out]. rewrite !Rplus_0_r, !Rmult_1_r. reflexivity.
Qed.
Lemma exPoly_pos air c : 10 <= air <= 30 -> exWater c ->
  0 < lin2 5.4977772 (-0.0243008) 7.207307 (-0.0335265) (9 / 5 * air + 32) (9 / 5 * c + 32) *
      lin2 187.064124 1.939747 148.0418 2.553291 (9 / 5 * air + 32) (9 / 5 * c + 32).
Proof.
  intros Ha Hc. unfold exWater in Hc. unfold lin2. apply Rmult_lt_0_compat; nra.
Qed.
(** at such water temperatures the unit satisfies the requirements, though not at all temperatures ... *)
Lemma exPoly_ok air : 10 <= air <= 30 -> unitOK air exWater exPolyUnit /\ unitReady air exWater exPolyUnit.
Proof.
  intros Ha. assert (INR 4 <= 10000) by (cbn; lra). pose proof exUpper_good as HU. pose proof exLower_good as HL.
  pose proof (exUnit_ok air exWater [20; 30; 45; 50] eq_refl) as [A1 A2 A3 A4 A5].
  pose proof (exUnit_ready air exWater [20; 30; 45; 50] ltac:(lra)) as [B1 B2 B3 B4 B5].
  pose proof (exHS_ok 4 air exWater TCompressor false (Some 1%nat) exLower [exOn exLower 5] [exOff 60] 0 HL ltac:(lra)) as [C1 C2 C3 C4 C5 C6 C7].
  assert (HR : srcReady 3 true 55 air exWater (exHS TCompressor false (Some 1%nat) exLower [exOn exLower 5] [exOff 60] 0)).
  { apply exHS_ready; auto; try lra.
    + intros i E. inversion E. lia.
    + apply Forall_cons; [|apply Forall_nil]. cbn. auto.
    + apply Forall_cons; [|apply Forall_nil]. cbn. discriminate. }
  split.
  - constructor; auto. unfold exPolyUnit. wsimpl. cbn [exSources upd firstn skipn app w_tank exUnit exTankG t_Ts length].
    cbn [w_hs exUnit exSources w_tank exTankG t_Ts length] in A4.
    apply Forall_cons; [apply (Forall_inv A4)|]. apply Forall_cons; [apply (Forall_inv (Forall_inv_tail A4))|]. apply Forall_cons; [|apply Forall_nil].
    constructor; auto. intros _ w c p Hc E. destruct (exPoly_perf w air c) as (q & Eq & Ho). rewrite Eq in E. inversion E; subst q. rewrite Ho.
    left. apply exPoly_pos; auto.
  - constructor; auto; [|intros HX; discriminate HX]. unfold exPolyUnit. wsimpl. cbn [exSources upd firstn skipn app w_haveInletT w_setpoint exUnit length].
    cbn [w_hs exUnit exSources w_haveInletT w_setpoint length] in B1.
    apply Forall_cons; [apply (Forall_inv B1)|]. apply Forall_cons; [apply (Forall_inv (Forall_inv_tail B1))|]. apply Forall_cons; [|apply Forall_nil].
    destruct HR as [R1 R2 R3 R4 R5 R6 R7 R8 R9 R10 R11 R12 R13]. constructor; auto.
    intros _ w c Hc. destruct (exPoly_perf w air c) as (q & Eq & Ho). exists q. split; auto. rewrite Ho. apply exPoly_pos; auto.
Qed.
Lemma C73_domain_matters_fact : ~ unitOK 20 (fun _ => True) exPolyUnit.
Proof.
  intros [_ _ _ H _]. unfold exPolyUnit in H. wsimpl_in H. cbn [exSources upd firstn skipn app] in H.
  pose proof (Forall_inv (Forall_inv_tail (Forall_inv_tail H))) as [_ HP _ _ _ _ _].
  destruct (exPoly_perf (exUnit []) 20 150) as (q & Eq & Ho). specialize (HP eq_refl _ _ _ I Eq). rewrite Ho in HP. revert HP. unfold lin2. nra.
Qed.
Lemma C73_polynomial_example_fact : forall draw air dr, 0 <= draw <= 1000 -> 10 <= air <= 30 ->
  exists w', runOneStep 100 (exIn draw air dr) exPolyUnit = (Ok tt, w') /\ within 10 60 (t_Ts (w_tank w')) /\
    tankHeat (w_tank w') = tankHeat (w_tank exPolyUnit) + drawnHeat false draw 10 0 0 (t_outletT (w_tank w'))
      + 3600 * Rsum (map h_eOut (w_hs w')) - 3600 * w_stbyE w'.
Proof.
  intros draw air dr Hd Ha. destruct (exPoly_ok air Ha) as [HU HR].
  assert (HM : Forall (fun h => ~ multiPass h) (w_hs exPolyUnit)).
  { unfold exPolyUnit. wsimpl. cbn [exSources upd firstn skipn app]. repeat (apply Forall_cons; [intros (HX & HY & _); discriminate|]). apply Forall_nil. }
  assert (HC : calm 10 60 (exIn draw air dr) exPolyUnit).
  { constructor; [apply exUnit_calm; auto; reflexivity|cbn; num_simpl; unfold dec; num_simpl; lra..]. }
  assert (HCv : covered exWater (exIn draw air dr) exPolyUnit) by (right; exists 10, 60; split; auto).
  destruct (C73_step_completes_fact 100 (exIn draw air dr) exWater exPolyUnit) as [w' E]; auto.
  - cbn. num_simpl. lra.
  - cbn. num_simpl. lra.
  - cbn. num_simpl. lra.
  - intros _. change (w_tank exPolyUnit) with (w_tank (exUnit [20; 30; 45; 50])). cbn [w_tank exUnit exTankG]. unfold condTau. cbn. num_simpl. unfold dec, KWATER, DENSITYWATER, CPWATER. num_simpl. unfold dec. num_simpl. lra.
  - cbn. lia.
  - cbn [w_tank exPolyUnit set_w_hs exUnit exTankG t_nodeVol i_draw exIn]. unfold nofN. num_simpl. cbn. lra.
  - exists w'. split; auto. split.
    + apply (C30_step_range_fact 100 (exIn draw air dr) exPolyUnit w' exWater 10 60 HU); auto.
    + destruct (C21_step_balance_fact 100 (exIn draw air dr) exWater exPolyUnit w' HU HCv) as (HB & HX & _); auto; [right; intros q []|intros []; reflexivity|].
      rewrite HX in HB. cbn [extraList exIn i_extra] in HB. change (Rsum []) with 0 in HB. cbn [i_draw i_vol2 i_inT2 exIn] in HB. num_simpl.
      change (w_inletT exPolyUnit) with 10 in HB. change (t_hasHX (w_tank exPolyUnit)) with false in HB. rewrite HB. field.
Qed.
