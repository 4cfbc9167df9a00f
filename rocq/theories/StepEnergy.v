(** Energy accounting of the control part and of whole steps, at the reals. *)

From Coq Require Import ZArith List Bool Reals Lra Lia.
From Verif Require Import Num Base Units Types Utils TankM Logic HeatSrc Step Spec SpecState SpecDist SpecEnergy RList
  MixProofs DrawProofs TankProofs HeatProofs DistProofs FrameProofs SimFrame ControlProofs EnergyProofs ExtProofs AvgProofs TankFacts.
Import ListNotations.
Local Open Scope R_scope.

(** ** Frames *)
(** the water temperatures that heating can bring about stay covered *)
Lemma reach_rel D w w' : heatRel w w' -> reach D w -> reach D w'.
Proof.
  intros [A1 A2 A3 A4 A5 A6 A7 A8 A9] [(lo & L1 & L2)|(HM & lo & hi & L0 & L1 & L2)].
  - left. exists lo. split; auto.
  - right. split; auto. exists lo, hi. splits; auto; [lra|]. intros x Hx. split.
    + apply (A6 lo); auto. intros y Hy. apply L1; auto.
    + apply (A7 HM hi); auto. intros y Hy. apply L1; auto.
Qed.
Lemma reach_avg D (w : hpwh R) h c : reach D w -> goodDist (h_dist h) -> (0 < length (t_Ts (w_tank w)))%nat -> hsTankTemp w h = Ok c -> D c.
Proof.
  intros HR HG HN E. unfold hsTankTemp in E. destruct HR as [(lo & L1 & L2)|(HM & lo & hi & L0 & L1 & L2)]; apply L2.
  - destruct (lo_within _ _ L1) as [hi HW]. apply (averageT_wdist_within _ _ _ _ _ HG HN HW E).
  - apply (averageT_wdist_within _ _ _ _ _ HG HN L1 E).
Qed.
Lemma srcOK_hframe n air D h h' : hframe h h' -> srcOK n air D h -> srcOK n air D h'.
Proof.
  unfold hframe. intros E [A1 A2 A3 A4 A5 A6 A7]. rewrite E.
  constructor; cbn [h_type h_power h_dist h_config h_extOut h_extIn h_multipass h_mpFlow set_h_on set_h_locked set_h_runtime set_h_eIn set_h_eOut]; auto.
Qed.
Lemma multiPass_hframe h h' : hframe h h' -> multiPass h' -> multiPass h.
Proof. unfold hframe. intros E. rewrite E. auto. Qed.

Lemma map_eOut_upd (hs : list (hsrc R)) i h h' : nth_error hs i = Some h ->
  Rsum (map h_eOut (upd hs i h')) = Rsum (map h_eOut hs) + (h_eOut h' - h_eOut h).
Proof.
  revert i. induction hs as [|x r IH]; intros [|i] E; cbn in *; try discriminate.
  - inversion E; subst. unfold Rsum. cbn. lra.
  - specialize (IH i E). unfold Rsum in *. cbn. lra.
Qed.
Lemma Forall_upd {A} (P : A -> Prop) l i x : Forall P l -> P x -> Forall P (upd l i x).
Proof. intros HF Hx. revert i. induction HF; intros [|i]; cbn; constructor; auto. Qed.

Definition heated (air : R) (D : R -> Prop) (w w' : hpwh R) : Prop := heatInv air D w -> heatInv air D w' /\ heatRel w w'.

Lemma heatRel_refl w : heatRel w w.
Proof. constructor; auto; try lra; [destruct w; destruct w_tank; reflexivity|]. apply Forall2_refl'. intros; lra. Qed.
Lemma heatRel_trans a b c : heatRel a b -> heatRel b c -> heatRel a c.
Proof.
  intros [A1 A2 A3 A4 A5 A6 A7 A8 A9] [B1 B2 B3 B4 B5 B6 B7 B8 B9]. constructor; auto; try lra; try congruence.
  - rewrite B1, A1. destruct (w_tank a). reflexivity.
  - intros HM hi Hh HW. apply B7; auto. lra.
  - eapply Forall2_trans'; eauto. cbn. intros; lra.
Qed.
Lemma heated_refl air D w : heated air D w w.
Proof. intros HI. split; auto. apply heatRel_refl. Qed.
Lemma heated_trans air D a b c : heated air D a b -> heated air D b c -> heated air D a c.
Proof. intros H1 H2 HI. destruct (H1 HI) as [I1 R1]. destruct (H2 I1) as [I2 R2]. split; auto. eapply heatRel_trans; eauto. Qed.
Lemma Forall2_Forall {A} (Rl : A -> A -> Prop) (P Q : A -> Prop) l l' : Forall2 Rl l l' -> (forall x y, Rl x y -> P x -> Q y) -> Forall P l -> Forall Q l'.
Proof. intros HF HI. induction HF; intros HP; inversion HP; subst; constructor; eauto. Qed.
Lemma Forall2_sum (Rl : hsrc R -> hsrc R -> Prop) l l' : Forall2 Rl l l' -> (forall x y, Rl x y -> h_eOut y = h_eOut x) -> Rsum (map h_eOut l') = Rsum (map h_eOut l).
Proof. intros HF HI. induction HF; cbn [map]; auto. unfold Rsum in *. cbn. rewrite IHHF, (HI _ _ H). reflexivity. Qed.
Lemma heated_oframe air D w w' : oframe w w' -> heated air D w w'.
Proof.
  intros [HF HW] [I1 I2 I3 I4 IR I5].
  assert (ET : w_tank w' = w_tank w) by (rewrite HW; reflexivity).
  assert (EM : w_minStep w' = w_minStep w) by (rewrite HW; reflexivity).
  assert (ES : w_setpoint w' = w_setpoint w) by (rewrite HW; reflexivity).
  assert (HH : forall x y : hsrc R, oframe_h x y -> hframe x y) by (intros x y Hxy; apply oframe_h_hframe; auto).
  assert (HRel : heatRel w w'); [|split; auto; constructor; rewrite ?ET, ?EM, ?ES; auto; [| |]].
  2: eapply Forall2_Forall; [exact HF| |exact I4]; intros x y Hxy; apply srcOK_hframe; auto.
  2: eapply reach_rel; eauto.
  2: eapply Forall2_Forall; [exact HF| |exact I5]; cbn; intros x y Hxy; unfold oframe_h in Hxy; rewrite Hxy; auto.
  constructor; rewrite ?ET, ?EM, ?ES; auto; try lra.
  - destruct (w_tank w); reflexivity.
  - unfold deliveredKJ. rewrite (Forall2_sum _ _ _ HF); [lra|]. intros x y Hxy. unfold oframe_h in Hxy. rewrite Hxy. reflexivity.
  - intros HM. eapply Forall2_Forall; [exact HF| |exact HM]. cbn. intros x y Hxy HN HY. apply HN. eapply multiPass_hframe; eauto.
  - eapply Forall2_impl'; [|exact HF]. cbn. intros x y Hxy. unfold oframe_h in Hxy. rewrite Hxy. cbn. lra.
Qed.

(** ** One source *)
Lemma ran_heated air D i h rt x e Ts' (w w' : hpwh R) :
  nth_error (w_hs w) i = Some h ->
  w_hs w' = upd (w_hs w) i (set_h_eOut (h_eOut h + e) (set_h_eIn x (set_h_runtime rt h))) ->
  w_tank w' = set_t_Ts Ts' (w_tank w) -> w_minStep w' = w_minStep w -> w_setpoint w' <= w_setpoint w ->
  length Ts' = length (t_Ts (w_tank w)) -> stratified Ts' -> 0 <= rt <= w_minStep w -> 0 <= e ->
  t_nodeCp (w_tank w) * Rsum Ts' = t_nodeCp (w_tank w) * Rsum (t_Ts (w_tank w)) + 3600 * e ->
  (forall lo, (forall x, In x (t_Ts (w_tank w)) -> lo <= x) -> forall x, In x Ts' -> lo <= x) ->
  (~ multiPass h -> forall hi, w_setpoint w <= hi -> (forall x, In x (t_Ts (w_tank w)) -> x <= hi) -> forall x, In x Ts' -> x <= hi) ->
  heatInv air D w -> heatInv air D w' /\ heatRel w w'.
Proof.
  intros Hn Hhs Ht Hm Hsp HL HS Hr He HE Hlo Hhi [I1 I2 I3 I4 IR I5].
  assert (ETs : t_Ts (w_tank w') = Ts') by (rewrite Ht; reflexivity).
  assert (Hfr : hframe h (set_h_eOut (h_eOut h + e) (set_h_eIn x (set_h_runtime rt h)))).
  { unfold hframe. cbn [h_type h_on h_locked h_runtime h_eIn h_eOut set_h_eOut set_h_eIn set_h_runtime]. destruct h; reflexivity. }
  assert (HF : Forall2 hframe (w_hs w) (w_hs w')).
  { rewrite Hhs. eapply Forall2_upd; [apply hframe_refl|exact Hn|exact Hfr]. }
  assert (Hwf' : wf_tank (w_tank w')) by (rewrite Ht; apply wf_set_Ts; auto).
  assert (HRel : heatRel w w'); [|split; auto; constructor; auto; [| | | |]].
  2: rewrite Ht; exact I2.
  2: rewrite ETs; auto.
  2: rewrite ETs, HL; eapply Forall2_Forall; [exact HF| |exact I4]; intros; eapply srcOK_hframe; eauto.
  2: eapply reach_rel; eauto.
  2: rewrite Hm, Hhs; apply Forall_upd; auto.
  constructor; auto.
  - rewrite ETs. exact Ht.
  - rewrite ETs. auto.
  - unfold deliveredKJ. rewrite Hhs. erewrite map_eOut_upd by exact Hn. wsimpl.
    rewrite Ht, tankHeat_set_Ts, (tankHeat_cp (w_tank w)) by auto. lra.
  - rewrite ETs. auto.
  - intros HM hi Hh HW. rewrite ETs. apply Hhi; auto. rewrite Forall_forall in HM. apply HM. eapply nth_error_In; eauto.
  - intros HM. eapply Forall2_Forall; [exact HF| |exact HM]. cbn. intros a b Hab HN HY. apply HN. eapply multiPass_hframe; eauto.
  - rewrite Hhs. eapply Forall2_upd; [intros; lra|exact Hn|]. wsimpl. lra.
Qed.

Lemma warmed_lo m Ts Ts' : warmed m Ts Ts' -> forall lo, (forall x, In x Ts -> lo <= x) -> forall x, In x Ts' -> lo <= x.
Proof.
  intros [HL HW] lo H x Hx. apply In_node in Hx. destruct Hx as (k & Hk & <-). rewrite HL in Hk. specialize (HW k Hk).
  assert (lo <= node Ts k) by (apply H, node_In; auto). lra.
Qed.
Lemma warmed_hi m sp Ts Ts' : m <= sp -> warmed m Ts Ts' -> forall hi, sp <= hi -> (forall x, In x Ts -> x <= hi) -> forall x, In x Ts' -> x <= hi.
Proof.
  intros Hm [HL HW] hi Hh H x Hx. apply In_node in Hx. destruct Hx as (k & Hk & <-). rewrite HL in Hk. specialize (HW k Hk).
  assert (node Ts k <= hi) by (apply H, node_In; auto). mm; lra.
Qed.
Lemma lo_hi_within Ts : exists lo, forall x, In x Ts -> lo <= x.
Proof.
  induction Ts as [|x r [lo IH]]; [exists 0; intros ? []|]. exists (Rmin x lo). intros y [<-|Hy]; [apply Rmin_l|].
  eapply Rle_trans; [apply Rmin_r|auto].
Qed.

Lemma addHeatCond_heated air D fuel i h m (w w' : hpwh R) : nth_error (w_hs w) i = Some h -> h_type h = TCompressor ->
  0 <= m <= w_minStep w -> addHeatCond fuel i air m w = (Ok tt, w') -> heatInv air D w ->
  heatInv air D w' /\ heatRel w w' /\ w_setpoint w' = w_setpoint w /\ exists h', nth_error (w_hs w') i = Some h' /\ 0 <= h_runtime h' <= m.
Proof.
  intros Hn Ht Hm E HI. pose proof HI as [I1 I2 I3 I4 IR I5].
  assert (HO : srcOK (length (t_Ts (w_tank w))) air D h) by (rewrite Forall_forall in I4; apply I4; eapply nth_error_In; eauto).
  unfold addHeatCond in E.
  apply bind_inv in E. destruct E as (h0 & w1 & E0 & E). apply getHS_inv in E0. destruct E0 as [-> E0].
  rewrite Hn in E0. inversion E0; subst h0. clear E0.
  destruct (h_config h) eqn:EC.
  1, 2: assert (HDist : forall tIn d, calcHeatDist fuel (set_w_condIn tIn w) h = Ok d -> shares (length (t_Ts (w_tank w))) d)
   by (intros tIn d Ed; unfold calcHeatDist in Ed; cbv zeta in Ed; rewrite Ht, EC in Ed; wsimpl_in Ed;
     first [eapply calcHeatDist_base_shares; [apply (so_dist _ _ _ _ HO); right; rewrite EC; discriminate|apply (wf_n _ I1)|exact Ed]
           | eapply calcThermalDist_spec; [apply (wf_n _ I1)| |exact Ed]; rewrite tol_val; pose proof (so_nodes _ _ _ _ HO EC); lra]).
  1, 2: assert (HG : goodDist (h_dist h)) by (apply (so_dist _ _ _ _ HO); right; rewrite EC; discriminate).
  1, 2: destruct (addHeatIntegrated_spec fuel i air m w w' h I1 I3 Hn ltac:(lra) (fun tIn p Hq => so_perf _ _ _ _ HO Ht _ tIn p (reach_avg D w h tIn IR HG (wf_n _ I1) Hq)) HDist E)
     as (tIn & tOut & p & rt & Ts' & Hq & EP & -> & Hrt & Hpm & HS' & HW & HEq & _).
  1, 2: pose proof (so_perf _ _ _ _ HO Ht _ _ _ (reach_avg D w h tIn IR HG (wf_n _ I1) Hq) EP) as HPo;
     destruct (ran_heated air D i h rt (h_eIn h + p_in p / 1000 * (rt / 60)) (p_out p / 1000 * (rt / 60)) Ts' w
      (ran i h rt (p_in p / 1000 * (rt / 60)) (p_out p / 1000 * (rt / 60)) Ts' (set_w_condOut tOut (set_w_condIn tIn w)))) as [J1 J2];
     [exact Hn|reflexivity|reflexivity|reflexivity|apply Rle_refl|apply HW|exact HS'|lra
     |apply Rmult_le_pos; lra|rewrite HEq; field|eapply warmed_lo; eauto
     |intros _; eapply warmed_hi; [apply Rmin_r|eauto]|exact HI|];
     splits; [exact J1|exact J2|reflexivity|]; eexists; split; [unfold ran; wsimpl; eapply nth_upd_eq; exact Hn|wsimpl; lra].
  (* external *)
  apply bind_inv in E. destruct E as ([rt p] & w1 & E1 & E).
  assert (Hmp : if h_multipass h then 0 < h_mpFlow h else forall w f, fractToMeet w h = Ok f -> 0 <= f).
  { destruct (h_multipass h) eqn:EM; [apply (so_flow _ _ _ _ HO); auto|apply (so_fract _ _ _ _ HO); auto]. }
  assert (HDm : domUp D (t_Ts (w_tank w)) \/ (h_multipass h = false /\ domTo D (Rmin (h_maxSet h) (w_setpoint w)) (t_Ts (w_tank w)))).
  { destruct IR as [HU|(HM & lo & hi & L0 & L1)]; [left; auto|right]. split.
    - destruct (h_multipass h) eqn:EM; auto. exfalso. rewrite Forall_forall in HM. apply (HM h (nth_error_In _ _ Hn)). unfold multiPass. auto.
    - exists lo, hi. split; auto. eapply Rle_trans; [apply Rmin_r|auto]. }
  destruct (extCall_spec fuel i air m D h w rt p w1 I1 I2 I3 Hn ltac:(lra) (so_ports _ _ _ _ HO EC) (so_perf _ _ _ _ HO Ht) HDm Hmp E1)
    as ((Ts' & ci & co & ev & sc & Hw1) & HL & HS' & Hrt & HPo & _ & _ & HEq & Hlo & Hsp & _).
  rewrite Hw1 in HL, HS', HEq, Hlo, Hsp. unfold extSt in HL, HS', HEq, Hlo, Hsp.
  wsimpl_in HL. wsimpl_in HS'. wsimpl_in HEq. wsimpl_in Hlo. wsimpl_in Hsp.
  apply (modHS_inv i _ _ _ h) in E; [|rewrite Hw1; exact Hn]. rewrite Hw1 in E. unfold W_TO_KW, min_per_hr in E. num_simpl.
  destruct (ran_heated air D i h rt (h_eIn h + p_in p / 1000 * (rt / 60)) (p_out p / 1000 * (rt / 60)) Ts' w w') as [J1 J2]; auto.
  - rewrite E. reflexivity.
  - rewrite E. reflexivity.
  - rewrite E. reflexivity.
  - rewrite E. apply Rle_refl.
  - lra.
  - apply Rmult_le_pos; lra.
  - rewrite HEq. field.
  - intros HM hi Hh HW x Hx. destruct (h_multipass h) eqn:EM; [exfalso; apply HM; unfold multiPass; auto|].
    destruct (lo_hi_within (t_Ts (w_tank w))) as [lo Hl].
    destruct (Hsp eq_refl lo hi) as [HB _]; [eapply Rle_trans; [apply Rmin_r|auto]|intros y Hy; split; auto|]. apply HB; auto.
  - splits; auto.
    + rewrite E. reflexivity.
    + eexists. split; [rewrite E; wsimpl; eapply nth_upd_eq; exact Hn|]. wsimpl. lra.
Qed.

Lemma setSetpointC_inv v (w w' : hpwh R) : setSetpointC v w = (Ok tt, w') -> w' = set_w_setpoint v w.
Proof.
  unfold setSetpointC. intros E.
  apply bind_inv in E. destruct E as (w0 & w1 & E0 & E). apply get_inv in E0. destruct E0 as [-> ->].
  apply bind_inv in E. destruct E as ([ok mx] & w1 & E0 & E). apply lift_inv in E0. destruct E0 as [-> E0].
  destruct ok; [|discriminate]. apply modify_inv in E. exact E.
Qed.
Lemma when_inv b (m : M (hpwh R) unit) w w' : when b m w = (Ok tt, w') -> (b = true /\ m w = (Ok tt, w')) \/ (b = false /\ w' = w).
Proof. unfold when. destruct b; intros E; [left; auto|right]. apply ret_inv in E. tauto. Qed.

Lemma heatInv_setpoint air D v w : reach D (set_w_setpoint v w) -> heatInv air D w -> heatInv air D (set_w_setpoint v w).
Proof. intros HR [I1 I2 I3 I4 IR I5]. constructor; auto. Qed.

Lemma addHeatParent_heated air D fuel i m (w w' : hpwh R) : 0 <= m <= w_minStep w ->
  addHeatParent fuel i air m w = (Ok tt, w') -> heatInv air D w ->
  heatInv air D w' /\ heatRel w w' /\ exists h', nth_error (w_hs w') i = Some h' /\ 0 <= h_runtime h' <= m.
Proof.
  intros Hm E HI. unfold addHeatParent in E.
  apply bind_inv in E. destruct E as (h & w1 & E0 & E). apply getHS_inv in E0. destruct E0 as [-> Hn].
  destruct (h_type h) eqn:Ht.
  - apply bind_inv in E. destruct E as (w0 & w1 & E0 & E). apply get_inv in E0. destruct E0 as [-> ->].
    cbv zeta in E. set (low := (nleb air (h_mlAir h) && nleb (h_mlOut h) (w_setpoint w))%bool) in *.
    assert (Hlow : low = true -> h_mlOut h <= w_setpoint w).
    { unfold low. num_simpl. intros HL. apply andb_true_iff in HL. destruct HL as [_ HL]. bcase. auto. }
    apply bind_inv in E. destruct E as ([] & w1 & E1 & E).
    apply bind_inv in E. destruct E as ([] & w2 & E2 & E).
    assert (H1 : exists v, w1 = set_w_setpoint v w /\ v <= w_setpoint w /\ (low = false -> w1 = w)).
    { apply when_inv in E1. destruct E1 as [[HL E1]|[HL ->]].
      - apply setSetpointC_inv in E1. exists (h_mlOut h). splits; auto. congruence.
      - exists (w_setpoint w). splits; auto; [destruct w; reflexivity|lra]. }
    destruct H1 as (v & Hw1 & Hv & HL1).
    assert (Hn1 : nth_error (w_hs w1) i = Some h) by (rewrite Hw1; exact Hn).
    assert (HR1 : heatRel w w1).
    { rewrite Hw1. constructor; auto; wsimpl; try lra; try (destruct (w_tank w); reflexivity). apply Forall2_refl'; intros; lra. }
    assert (HI1 : heatInv air D w1) by (rewrite Hw1 in HR1 |- *; apply heatInv_setpoint; auto; apply (reach_rel _ _ _ HR1); apply (hi_reach _ _ _ HI)).
    assert (Hm1 : 0 <= m <= w_minStep w1) by (rewrite Hw1; exact Hm).
    destruct (addHeatCond_heated air D fuel i h m w1 w2 Hn1 Ht Hm1 E2 HI1) as (J1 & J2 & J3 & h' & J4 & J5).
    assert (HR2 : heatRel w w2) by (eapply heatRel_trans; eauto).
    apply when_inv in E. destruct E as [[HT E]|[HT ->]]; [|splits; eauto].
    apply setSetpointC_inv in E.
    assert (Hle : (if low then w_setpoint w else absolute_zeroT) <= w_setpoint w).
    { destruct low; [lra|]. exfalso. num_simpl. bcase. lra. }
    assert (HR3 : heatRel w (set_w_setpoint (if low then w_setpoint w else absolute_zeroT) w2)).
    { destruct HR2 as [A1 A2 A3 A4 A5 A6 A7 A8 A9]. constructor; auto. }
    rewrite E. splits; [apply heatInv_setpoint; auto|exact HR3|exists h'; auto].
    apply (reach_rel _ _ _ HR3). apply (hi_reach _ _ _ HI).
  - pose proof HI as [I1 I2 I3 I4 IR I5].
    assert (HO : srcOK (length (t_Ts (w_tank w))) air D h) by (rewrite Forall_forall in I4; apply I4; eapply nth_error_In; eauto).
    destruct (addHeatRes_spec fuel i m w w' h I1 I3 Hn Ht (so_power _ _ _ _ HO Ht) ltac:(lra) (so_dist _ _ _ _ HO (or_introl Ht)) E)
      as (rt & Ts' & -> & Hrt & Hpm & HS' & HW & HEq & _).
    pose proof (so_power _ _ _ _ HO Ht) as HPo.
    destruct (ran_heated air D i h rt (h_eIn h + h_power h * (rt / 60)) (h_power h * (rt / 60)) Ts' w
      (ran i h rt (h_power h * (rt / 60)) (h_power h * (rt / 60)) Ts' w)) as [J1 J2];
     [exact Hn|reflexivity|reflexivity|reflexivity|apply Rle_refl|apply HW|exact HS'|lra
     |apply Rmult_le_pos; lra|rewrite HEq; field|eapply warmed_lo; eauto
     |intros _; eapply warmed_hi; [apply Rmin_r|eauto]|exact HI|].
     splits; [exact J1|exact J2|]. eexists; split; [unfold ran; wsimpl; eapply nth_upd_eq; exact Hn|wsimpl; lra].
Qed.

(** ** The control part *)
Lemma heatInv_runtime air D w i h : heatInv air D w -> nth_error (w_hs w) i = Some h -> 0 <= h_runtime h <= w_minStep w.
Proof. intros [_ _ _ _ _ I5] E. rewrite Forall_forall in I5. apply I5. eapply nth_error_In; eauto. Qed.

Lemma runBackup_heated air D fuel dr m i b (w w' : hpwh R) : 0 <= m <= w_minStep w ->
  runBackup fuel dr air m i b w = (Ok tt, w') -> heatInv air D w -> heatInv air D w' /\ heatRel w w'.
Proof.
  intros Hm E HI. unfold runBackup in E.
  apply bind_inv in E. destruct E as (h & w1 & E0 & E). apply getHS_inv in E0. destruct E0 as [-> Hn].
  apply bind_inv in E. destruct E as (hb & w1 & E0 & E). apply getHS_inv in E0. destruct E0 as [-> Hnb].
  cbv zeta in E. apply bind_inv in E. destruct E as (lock & w1 & E1 & E).
  assert (HF1 : oframe w w1).
  { eapply pres_Ok; [|exact E1]. destruct (h_type hb); [apply toLock_oframe|].
    destruct (h_type h); [apply (pres_ret oframe oframe_refl)|]. unfold resLock.
    apply (pres_bind oframe oframe_trans); [apply (getHS_pres _ oframe_refl)|]. intros. apply (pres_ret oframe oframe_refl). }
  destruct (heated_oframe air D _ _ HF1 HI) as [I1 R1].
  destruct (_ && _)%bool; [|apply ret_inv in E; destruct E as [-> _]; auto].
  apply bind_inv in E. destruct E as ([] & w2 & E2 & E).
  assert (HF2 : oframe w1 w2) by (eapply pres_Ok; [apply engageHS_oframe|exact E2]).
  destruct (heated_oframe air D _ _ HF2 I1) as [I2 R2].
  assert (R12 : heatRel w w2) by (eapply heatRel_trans; eauto).
  apply bind_inv in E. destruct E as (hb2 & w3 & E3 & E). apply getHS_inv in E3. destruct E3 as [-> Hnb2].
  pose proof (heatInv_runtime _ _ _ _ _ I2 Hnb2) as Hrt.
  apply when_inv in E. destruct E as [[HC E]|[_ ->]]; [|auto]. num_simpl. bcase.
  assert (Hmin : w_minStep w2 = w_minStep w) by apply (hr_min _ _ R12).
  destruct (addHeatParent_heated air D fuel b (m - h_runtime hb2) w2 w') as (I3 & R3 & _); auto; [lra|].
  split; auto. eapply heatRel_trans; eauto.
Qed.

Lemma afterEarly_heated air D fuel dr m i (w w' : hpwh R) : 0 <= m <= w_minStep w ->
  afterEarly fuel dr air m i w = (Ok tt, w') -> heatInv air D w -> heatInv air D w' /\ heatRel w w'.
Proof.
  intros Hm E HI. unfold afterEarly in E.
  apply bind_inv in E. destruct E as ([] & w1 & E1 & E).
  assert (HF1 : oframe w w1) by (eapply pres_Ok; [apply disengage_oframe|exact E1]).
  destruct (heated_oframe air D _ _ HF1 HI) as [I1 R1].
  apply bind_inv in E. destruct E as (h & w2 & E0 & E). apply getHS_inv in E0. destruct E0 as [-> Hn].
  apply bind_inv in E. destruct E as (fl & w2 & E2 & E).
  assert (w2 = w1).
  { destruct (h_followed h); [|apply ret_inv in E2; tauto].
    apply bind_inv in E2. destruct E2 as (off & w3 & E3 & E2). apply askHS_inv in E3. destruct E3 as [-> _]. apply ret_inv in E2. tauto. }
  subst w2. destruct fl as [f|].
  - assert (HF2 : oframe w1 w') by (eapply pres_Ok; [apply engageHS_oframe|exact E]).
    destruct (heated_oframe air D _ _ HF2 I1) as [I2 R2]. split; auto. eapply heatRel_trans; eauto.
  - apply bind_inv in E. destruct E as (mo & w2 & E3 & E). apply askHS_inv in E3. destruct E3 as [-> _].
    destruct (h_backup h) as [b|]; [|apply ret_inv in E; destruct E as [-> _]; auto].
    destruct mo; [|apply ret_inv in E; destruct E as [-> _]; auto].
    assert (Hm1 : 0 <= m <= w_minStep w1) by (rewrite (hr_min _ _ R1); auto).
    destruct (runBackup_heated _ _ _ _ _ _ _ _ _ Hm1 E I1) as [I2 R2]. split; auto. eapply heatRel_trans; eauto.
Qed.

Lemma heatOne_heated air D fuel dr i m m' (w w' : hpwh R) : 0 <= m <= w_minStep w ->
  heatOne fuel dr air i m w = (Ok m', w') -> heatInv air D w -> heatInv air D w' /\ heatRel w w' /\ 0 <= m' <= m.
Proof.
  intros Hm E HI. unfold heatOne in E.
  apply bind_inv in E. destruct E as ([] & w1 & E1 & E).
  assert (HF1 : oframe w w1) by (eapply pres_Ok; [apply lockOne_oframe|exact E1]).
  destruct (heated_oframe air D _ _ HF1 HI) as [I1 R1].
  apply bind_inv in E. destruct E as (h & w2 & E0 & E). apply getHS_inv in E0. destruct E0 as [-> Hn].
  destruct (h_on h); [|apply ret_inv in E; destruct E as [-> <-]; splits; auto; lra].
  apply bind_inv in E. destruct E as (tg & w2 & E2 & E).
  assert (HF2 : oframe w1 w2) by (eapply pres_Ok; [apply heatTarget_oframe|exact E2]).
  destruct (heated_oframe air D _ _ HF2 I1) as [I2 R2].
  assert (R12 : heatRel w w2) by (eapply heatRel_trans; eauto).
  assert (Hmin : w_minStep w2 = w_minStep w) by apply (hr_min _ _ R12).
  destruct tg as [k|]; [|apply ret_inv in E; destruct E as [-> <-]; splits; auto; lra].
  apply bind_inv in E. destruct E as ([] & w3 & E3 & E).
  destruct (addHeatParent_heated air D fuel k m w2 w3) as (I3 & R3 & h3 & Hn3 & Hr3); auto; [lra|].
  assert (R13 : heatRel w w3) by (eapply heatRel_trans; eauto).
  apply bind_inv in E. destruct E as (hk & w4 & E4 & E). apply getHS_inv in E4. destruct E4 as [-> Hn4].
  rewrite Hn3 in Hn4. inversion Hn4; subst hk.
  num_simpl. destruct (Rltb (h_runtime h3) m) eqn:EL; bcase.
  - cbv zeta in E. apply bind_inv in E. destruct E as ([] & w4 & E4 & E). apply ret_inv in E. destruct E as [-> <-].
    assert (Hmin3 : w_minStep w3 = w_minStep w) by apply (hr_min _ _ R13).
    destruct (afterEarly_heated air D fuel dr (m - h_runtime h3) i w3 w4) as [I4 R4]; auto; [lra|].
    splits; auto; try lra. eapply heatRel_trans; eauto.
  - apply ret_inv in E. destruct E as [-> <-]. splits; auto; lra.
Qed.

Lemma heatFold_heated air D fuel dr l : forall m m' (w w' : hpwh R), 0 <= m <= w_minStep w ->
  foldM l (heatOne fuel dr air) m w = (Ok m', w') -> heatInv air D w -> heatInv air D w' /\ heatRel w w'.
Proof.
  induction l as [|i l IH]; intros m m' w w' Hm E HI; cbn [foldM] in E.
  - apply ret_inv in E. destruct E as [-> _]. split; auto. apply heatRel_refl.
  - apply bind_inv in E. destruct E as (m1 & w1 & E1 & E).
    destruct (heatOne_heated _ _ _ _ _ _ _ _ _ Hm E1 HI) as (I1 & R1 & Hm1).
    destruct (IH m1 m' w1 w') as [I2 R2]; auto; [rewrite (hr_min _ _ R1); lra|]. split; auto. eapply heatRel_trans; eauto.
Qed.

Lemma control_heated air D fuel dr (w w' : hpwh R) : 0 <= w_minStep w ->
  control fuel dr air w = (Ok tt, w') -> heatInv air D w -> heatInv air D w' /\ heatRel w w'.
Proof.
  intros Hm E HI. unfold control in E. destruct (_ && _)%bool.
  - apply heated_oframe; auto. eapply pres_Ok; [apply turnAllOff_oframe|exact E].
  - apply bind_inv in E. destruct E as ([] & w1 & E1 & E).
    assert (HF1 : oframe w w1) by (eapply pres_Ok; [apply topOff_oframe|exact E1]).
    apply bind_inv in E. destruct E as ([] & w2 & E2 & E).
    assert (HF2 : oframe w1 w2) by (eapply pres_Ok; [apply chooseLoop_oframe|exact E2]).
    destruct (heated_oframe air D _ _ (oframe_trans _ _ _ HF1 HF2) HI) as [I2 R2].
    unfold heatSources in E. apply bind_inv in E. destruct E as (w0 & w3 & E0 & E). apply get_inv in E0. destruct E0 as [-> ->].
    apply bind_inv in E. destruct E as (m' & w3 & E3 & E). apply ret_inv in E. destruct E as [-> _].
    destruct (heatFold_heated _ _ _ _ _ _ _ _ _ (conj (eq_ind_r (fun x => 0 <= x) Hm (hr_min _ _ R2)) (Rle_refl _)) E3 I2) as [I3 R3].
    split; auto. eapply heatRel_trans; eauto.
Qed.
