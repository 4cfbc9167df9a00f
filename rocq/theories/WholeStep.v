(** Energy balance and temperature range of a whole simulation step, at the reals. *)

From Coq Require Import ZArith List Bool Reals Lra Lia.
From Verif Require Import Num Base Units Types Utils TankM Logic HeatSrc Step Spec SpecState SpecDist SpecEnergy SpecStep RList
  MixProofs DrawProofs TankProofs StandbyProofs HeatProofs DistProofs ResampleProofs FrameProofs SimFrame ControlProofs SeqProofs
  EnergyProofs ExtProofs TankFacts StepEnergy ExtraProofs.
Import ListNotations.
Local Open Scope R_scope.

(** ** The tank phase *)
Lemma updateNodes_inv {T} {N : Num T} fuel hours seconds draw inT amb v2 inT2 (t t' : tank T) :
  updateNodes fuel hours seconds draw inT amb v2 inT2 t = (Ok tt, t') ->
  exists t1, drawPhase fuel draw inT v2 inT2 t = (Ok tt, t1) /\ standbyPhase fuel hours seconds amb t1 = (Ok tt, t').
Proof. unfold updateNodes. intros E. apply bind_inv in E. destruct E as ([] & t1 & E1 & E2). eauto. Qed.

Lemma drawPhase_heat fuel draw inT v2 inT2 t t' : wf_tank t -> ports_ok t ->
  drawPhase fuel draw inT v2 inT2 t = (Ok tt, t') ->
  sameTank t t' /\ tankHeat t' = tankHeat t + drawnHeat (t_hasHX t) draw inT v2 inT2 (t_outletT t') /\
  (draw <= 0 -> t' = t).
Proof.
  intros Hwf Hp E. unfold drawnHeat. destruct (Rle_dec draw 0) as [Hd|Hd].
  - destruct (C06_no_draw_no_change_fact R RNum fuel draw inT v2 inT2 t) as [H _].
    rewrite H in E by (apply Rltb_false; auto). assert (t' = t) by congruence. subst t'.
    splits; auto; [|lra]. split; auto. destruct t; reflexivity.
  - assert (Hd' : 0 < draw) by lra. destruct (t_hasHX t) eqn:Hx.
    + destruct (C08_hx_draw_fact _ _ _ _ _ _ _ Hwf Hx Hd' E) as (A & B & _). splits; auto; [|intros; exfalso; lra].
      replace (tankHeat t') with (tankHeat t + (tankHeat t' - tankHeat t)) by ring. f_equal. num_simpl. lra.
    + destruct (C04_draw_conserves_energy_fact _ _ _ _ _ _ _ Hwf Hp Hx Hd' E) as (A & _ & B). splits; auto; [|intros; exfalso; lra].
      replace (tankHeat t') with (tankHeat t + (tankHeat t' - tankHeat t)) by ring. f_equal. num_simpl. lra.
Qed.

Lemma sameTank_wf t t' : sameTank t t' -> wf_tank t -> wf_tank t'.
Proof.
  intros [L E] Hwf. rewrite E. destruct Hwf as [A B C D].
  constructor; cbn [set_t_outletT set_t_Ts t_Ts t_volume t_nodeVol t_nodeCp]; rewrite ?L; auto.
Qed.

Lemma updateNodes_heat fuel hours seconds draw inT amb v2 inT2 t t' : wf_tank t -> ports_ok t -> t_doMix t = true ->
  updateNodes fuel hours seconds draw inT amb v2 inT2 t = (Ok tt, t') ->
  length (t_Ts t') = length (t_Ts t) /\
  t' = set_t_stby (t_stby t') (set_t_outletT (t_outletT t') (set_t_Ts (t_Ts t') t)) /\
  stratified (t_Ts t') /\
  tankHeat t' = tankHeat t + drawnHeat (t_hasHX t) draw inT v2 inT2 (t_outletT t') - (t_stby t' - t_stby t).
Proof.
  intros Hwf Hp Hm E. apply updateNodes_inv in E. destruct E as (t1 & E1 & E2).
  destruct (drawPhase_heat _ _ _ _ _ _ _ Hwf Hp E1) as (A1 & A2 & _).
  assert (Hwf1 := sameTank_wf _ _ A1 Hwf). destruct A1 as [L1 F1].
  destruct (C09_standby_accounting_fact _ _ _ _ _ _ Hwf1 E2) as (B1 & B2 & B3 & _).
  destruct (standbyPhase_ok _ _ _ _ _ _ Hwf1 E2) as (Ts' & C1 & _ & C2 & _).
  assert (Ho : t_outletT t' = t_outletT t1) by (rewrite B2; destruct t1; reflexivity).
  assert (Hs : t_stby t1 = t_stby t) by (rewrite F1; destruct t; reflexivity).
  assert (Hm1 : t_doMix t1 = true) by (rewrite F1; destruct t; exact Hm).
  splits.
  - lia.
  - rewrite B2, F1. destruct t; reflexivity.
  - assert (t_Ts t' = Ts') as -> by (rewrite C1; destruct t1; reflexivity). apply C2. auto.
  - rewrite B3, A2, Ho, Hs. lra.
Qed.

(** ** The whole step *)
Lemma deliveredKJ_reset (hs : list (hsrc R)) : deliveredKJ (map resetHS hs) = 0.
Proof.
  unfold deliveredKJ. rewrite map_map. cbn [resetHS h_eOut set_h_eOut]. num_simpl.
  induction hs; unfold Rsum in *; cbn; lra.
Qed.
Lemma srcOK_reset n air D h : srcOK n air D h -> srcOK n air D (resetHS h).
Proof. intros H. eapply srcOK_hframe; [|exact H]. unfold hframe, resetHS. destruct h; reflexivity. Qed.

Lemma fold_env hs : forall a, fold_left (fun acc h => acc + (h_eOut h - h_eIn h)) hs a = a + Rsum (map (fun h => h_eOut h - h_eIn h) hs).
Proof. induction hs as [|h r IH]; intros a; cbn [fold_left map]; [unfold Rsum; cbn; lra|]. rewrite IH. unfold Rsum; cbn. lra. Qed.

Record stepRel (x : stepIn) (w w' : hpwh R) : Prop := {
  sr_len : length (t_Ts (w_tank w')) = length (t_Ts (w_tank w));
  sr_tank : w_tank w' = set_t_stby (t_stby (w_tank w')) (set_t_outletT (t_outletT (w_tank w')) (set_t_Ts (t_Ts (w_tank w')) (w_tank w)));
  sr_strat : stratified (t_Ts (w_tank w'));
  sr_heat : tankHeat (w_tank w') = tankHeat (w_tank w)
    + drawnHeat (t_hasHX (w_tank w)) (i_draw x) (w_inletT w) (i_vol2 x) (i_inT2 x) (t_outletT (w_tank w'))
    + deliveredKJ (w_hs w') + 3600 * w_extraE w' - 3600 * w_stbyE w';
  sr_extra : w_extraE w' = Rsum (extraList x) / 1000 * w_minStep w / 60;
  sr_env : w_envE w' = Rsum (map (fun h => h_eOut h - h_eIn h) (w_hs w'));
  sr_min : w_minStep w' = w_minStep w;
  sr_rt : Forall (fun h => 0 <= h_runtime h <= w_minStep w') (w_hs w');
  sr_src : Forall2 hframe (w_hs w) (w_hs w');
  sr_outpos : Forall (fun h => 0 <= h_eOut h) (w_hs w');
  sr_sp : w_setpoint w' <= w_setpoint w;
  sr_dep : w_doDepress w' = w_doDepress w
}.

Lemma KJ_TO_KWH_R x : KJ_TO_KWH x * 3600 = x.
Proof. unfold KJ_TO_KWH, sec_per_hr, sec_per_min, min_per_hr. num_simpl. field. Qed.

Lemma stepExtra_spec fuel x (w w' : hpwh R) : extraOK (extraList x) ->
  wf_tank (w_tank w) -> (extraList x <> [] -> INR (length (t_Ts (w_tank w))) <= 10000) -> stratified (t_Ts (w_tank w)) -> 0 <= w_minStep w ->
  w_extraE w = 0 ->
  stepExtra fuel x w = (Ok tt, w') ->
  w_tank w' = set_t_Ts (t_Ts (w_tank w')) (w_tank w) /\ length (t_Ts (w_tank w')) = length (t_Ts (w_tank w)) /\
  stratified (t_Ts (w_tank w')) /\
  w_extraE w' = Rsum (extraList x) / 1000 * w_minStep w / 60 /\
  tankHeat (w_tank w') = tankHeat (w_tank w) + 3600 * w_extraE w' /\
  (extraList x = [] -> w_tank w' = w_tank w) /\
  (forall j, (j < length (t_Ts (w_tank w)))%nat -> node (t_Ts (w_tank w)) j <= node (t_Ts (w_tank w')) j).
Proof.
  intros Hq Hwf Hbig Hs Hm Hz E. unfold stepExtra in E. unfold extraList in *.
  destruct (i_extra x) as [[|q r]|].
  - apply ret_inv in E. destruct E as [-> _]. splits; auto; try (intros; lra); try (destruct (w_tank w); reflexivity).
    rewrite Hz. unfold Rsum. cbn. field.
  - apply bind_inv in E. destruct E as ([] & wa & Ea & Eb). apply updateSoC_inv in Eb.
    destruct (addExtraHeat_spec fuel (q :: r) w wa Hq ltac:(congruence) Hwf (Hbig ltac:(congruence)) Hs Hm Ea) as (Ts' & A1 & A2 & A3 & A4 & A5).
    assert (ET : w_tank w' = set_t_Ts Ts' (w_tank w)).
    { rewrite Eb, A1. clear. destruct w. reflexivity. }
    assert (EE : w_extraE w' = Rsum (q :: r) / 1000 * w_minStep w / 60).
    { rewrite Eb, A1. clear. destruct w. reflexivity. }
    rewrite ET. cbn [t_Ts set_t_Ts]. splits; auto; try congruence.
    + rewrite tankHeat_set_Ts, (tankHeat_cp (w_tank w)) by auto. rewrite EE. exact A3.
    + intros j Hj. apply A5. lia.
  - apply ret_inv in E. destruct E as [-> _]. splits; auto; try (intros; lra); try (destruct (w_tank w); reflexivity).
    rewrite Hz. unfold Rsum. cbn. field.
Qed.

Lemma Forall2_map_l {A B} (f : A -> B) (P : A -> B -> Prop) l : (forall x, P x (f x)) -> Forall2 P l (map f l).
Proof. intros H. induction l; cbn; constructor; auto. Qed.

(** ** Temperatures before the sources run *)
Lemma within_lo lo hi l : within lo hi l -> forall x, In x l -> lo <= x.
Proof. intros H x Hx. apply H; auto. Qed.

(** drawing and standing keep the water in the range *)
Lemma nodes_within fuel x (w : hpwh R) t2 lo hi : wf_tank (w_tank w) -> ports_ok (w_tank w) -> t_doMix (w_tank w) = true ->
  calm lo hi x w -> updateNodes fuel (w_hrStep w) (w_secStep w) (i_draw x) (w_inletT w) (tankAir w x) (i_vol2 x) (i_inT2 x)
                 (resetTank w) = (Ok tt, t2) -> within lo hi (t_Ts t2).
Proof.
  intros U1 U2 U3 [[Hhx Hst Hmp Hw Hsp Q1 Q2 Q3 Q4 Q5 Q6 Q7 Q8] Hamb Hv2 Hi1 Hi2] HT.
  assert (R1 : wf_tank (resetTank w)) by (destruct U1 as [A B C D0]; constructor; auto).
  apply updateNodes_inv in HT. destruct HT as (t1 & HD & HS).
  assert (HB1 : within lo hi (t_Ts t1) /\ stratified (t_Ts t1) /\ sameTank (resetTank w) t1).
  { destruct (drawPhase_heat _ _ _ _ _ _ _ R1 U2 HD) as (A1 & _ & A3).
    destruct (Rle_dec (i_draw x) 0) as [Hd|Hd].
    - specialize (A3 Hd). subst t1. splits; auto.
    - destruct (C05_draw_stays_in_range_fact fuel (i_draw x) (w_inletT w) (i_vol2 x) (i_inT2 x) (resetTank w) t1 lo hi) as (B1 & _ & B3); auto; try lra. }
  destruct HB1 as (B1 & B2 & [B3 B4]).
  assert (Hwf1 : wf_tank t1) by (eapply sameTank_wf; [|exact R1]; split; auto).
   change (t_Ts (resetTank w)) with (t_Ts (w_tank w)) in B3.
    assert (C1 : t_UA t1 = t_UA (w_tank w)) by (rewrite B4; reflexivity).
    assert (C2 : t_fitUA t1 = t_fitUA (w_tank w)) by (rewrite B4; reflexivity).
    assert (C3 : t_fracTop t1 = t_fracTop (w_tank w)) by (rewrite B4; reflexivity).
    assert (C4 : t_fracSide t1 = t_fracSide (w_tank w)) by (rewrite B4; reflexivity).
    assert (C5 : t_nodeHeight t1 = t_nodeHeight (w_tank w)) by (rewrite B4; reflexivity).
    assert (C6 : t_nodeCp t1 = t_nodeCp (w_tank w)) by (rewrite B4; reflexivity).
    assert (C7 : t_doMix t1 = true) by (rewrite B4; exact U3).
    apply (C10_standby_range_fact fuel (w_hrStep w) (w_secStep w) (tankAir w x) t1 t2 lo hi); rewrite ?C1, ?C2, ?C3, ?C4, ?C5; auto.
    rewrite B3, C6, C7. cbn [orb]. intros ends He. rewrite Rplus_0_r. apply Q8. exact He.
Qed.

Lemma preControl_within fuel x (w w1 : hpwh R) air lo hi : wf_tank (w_tank w) -> ports_ok (w_tank w) -> t_doMix (w_tank w) = true ->
  calm lo hi x w -> preControl fuel x w w1 air -> within lo hi (t_Ts (w_tank w1)).
Proof.
  intros U1 U2 U3 HC HP.
  assert (HT : updateNodes fuel (w_hrStep w) (w_secStep w) (i_draw x) (w_inletT w) (tankAir w x) (i_vol2 x) (i_inT2 x)
                 (resetTank w) = (Ok tt, w_tank w1)).
  { destruct HP as (l & t & sc & Hw1 & Hl & _ & HU & _).
    assert (HA : tankAir w x = if w_doDepress w then l else i_amb x).
    { unfold tankAir, locationAir. rewrite Hl. num_simpl. unfold Reqb'. destruct (w_doDepress w); auto. destruct (Req_EM_T _ _); reflexivity. }
    rewrite HA, HU. f_equal. rewrite Hw1. reflexivity. }
  eapply nodes_within; eauto.
Qed.

Lemma preControl_reach fuel x D (w w1 : hpwh R) air air' : unitOK air' D w -> covered D x w -> preControl fuel x w w1 air -> reach D w1.
Proof.
  intros [U1 U2 U3 U4 U5] HC HP. destruct HC as [HA|(lo & hi & HD & HC)].
  - left. destruct (lo_hi_within (t_Ts (w_tank w1))) as [lo Hl]. exists lo. split; auto.
  - right. split.
    + rewrite (preControl_hs _ _ _ _ _ HP). pose proof (cu_multi _ _ _ (ca_unit _ _ _ _ HC)) as Hmp. apply Forall_forall. intros h Hh. apply in_map_iff in Hh. destruct Hh as (h0 & <- & Hh0).
      rewrite Forall_forall in Hmp. intros HX. apply (Hmp h0 Hh0). exact HX.
    + exists lo, hi. splits; auto.
      * assert (w_setpoint w1 = w_setpoint w) as -> by (destruct HP as (l & t & sc & -> & _); reflexivity). apply (cu_sp _ _ _ (ca_unit _ _ _ _ HC)).
      * eapply preControl_within; eauto.
Qed.

Lemma step_rel fuel x D (w w' : hpwh R) : unitOK (sourceAir w x) D w -> covered D x w ->
  extraOK (extraList x) -> (extraList x <> [] -> INR (length (t_Ts (w_tank w))) <= 10000) ->
  runOneStep fuel x w = (Ok tt, w') -> stepRel x w w'.
Proof.
  intros HUn HCv Hq Hbig E. pose proof HUn as [U1 U2 U3 U4 U5].
  apply runOneStep_inv in E. destruct E as (w1 & w2 & w3 & air & HP & HC & HE & Hw').
  assert (Hair : air = sourceAir w x).
  { destruct HP as (l & t & sc & _ & -> & -> & _). unfold sourceAir, locationAir. num_simpl. unfold Reqb'. destruct (w_doDepress w); auto. destruct (Req_EM_T _ _); reflexivity. }
  assert (HRc := preControl_reach _ _ _ _ _ _ _ HUn HCv HP).
  assert (Hhs1 := preControl_hs _ _ _ _ _ HP).
  assert (Heq1 := preControl_eq _ _ _ _ _ HP).
  assert (Hm1 : w_minStep w1 = w_minStep w) by (destruct HP as (l & t & sc & -> & _); reflexivity).
  assert (Hsp1 : w_setpoint w1 = w_setpoint w) by (destruct HP as (l & t & sc & -> & _); reflexivity).
  assert (Hx1 : w_extraE w1 = 0) by (destruct HP as (l & t & sc & -> & _); reflexivity).
  assert (Henv1 : w_envE w1 = 0) by (destruct HP as (l & t & sc & -> & _); reflexivity).
  assert (Hdep1 : w_doDepress w1 = w_doDepress w) by (destruct HP as (l & t & sc & -> & _); reflexivity).
  assert (HT : exists amb, updateNodes fuel (w_hrStep w) (w_secStep w) (i_draw x) (w_inletT w) amb (i_vol2 x) (i_inT2 x)
                 (resetTank w) = (Ok tt, w_tank w1)).
  { destruct HP as (l & t & sc & Hw1 & _ & _ & HU & _). exists (if w_doDepress w then l else i_amb x). rewrite HU.
    f_equal. rewrite Hw1. reflexivity. }
  destruct HT as (amb & HT). clear Heq1 HP.
  assert (R1 : wf_tank (resetTank w)) by (destruct U1 as [A B C D0]; constructor; auto).
  destruct (updateNodes_heat _ _ _ _ _ _ _ _ _ _ R1 U2 U3 HT) as (T1 & T2 & T3 & T4). clear HT.
  change (t_Ts (resetTank w)) with (t_Ts (w_tank w)) in *.
  change (t_stby (resetTank w)) with 0 in T4. change (t_hasHX (resetTank w)) with (t_hasHX (w_tank w)) in T4.
  change (tankHeat (resetTank w)) with (tankHeat (w_tank w)) in T4.
  assert (T2' : w_tank w1 = set_t_stby (t_stby (w_tank w1)) (set_t_outletT (t_outletT (w_tank w1)) (set_t_Ts (t_Ts (w_tank w1)) (w_tank w)))).
  { rewrite T2 at 1. unfold resetTank. destruct (w_tank w). reflexivity. }
  clear T2.
  assert (HI1 : heatInv air D w1).
  { constructor.
    - rewrite T2'. destruct U1 as [A B C D0]. constructor; cbn [set_t_stby set_t_outletT set_t_Ts t_Ts t_volume t_nodeVol t_nodeCp]; rewrite ?T1; auto.
    - rewrite T2'. exact U3.
    - exact T3.
    - rewrite Hhs1, T1, Hair. apply Forall_forall. intros h Hh. apply in_map_iff in Hh. destruct Hh as (h0 & <- & Hh0).
      apply srcOK_reset. rewrite Forall_forall in U4. auto.
    - exact HRc.
    - rewrite Hhs1, Hm1. apply Forall_forall. intros h Hh. apply in_map_iff in Hh. destruct Hh as (h0 & <- & Hh0). cbn. lra. }
  destruct (control_heated air D fuel (i_dr x) w1 w2 ltac:(lra) HC HI1) as [I2 [H1 H2 H3 H4 H5 H6 H7 H8 H9]].
  rewrite Hhs1, deliveredKJ_reset in H3.
  assert (HF2 : Forall2 hframe (w_hs w1) (w_hs w2) /\ w_extraE w2 = w_extraE w1 /\ w_envE w2 = w_envE w1 /\ w_doDepress w2 = w_doDepress w1).
  { pose proof (control_cframe fuel (i_dr x) air w1) as HF. rewrite HC in HF. cbn [snd] in HF.
    destruct HF as (HF1 & _ & HF). splits.
    - eapply Forall2_impl'; [|exact HF1]. cbn. intros a b [Hab _]. exact Hab.
    - rewrite HF. destruct w1; reflexivity.
    - rewrite HF. destruct w1; reflexivity.
    - rewrite HF. destruct w1; reflexivity. }
  clear HC. destruct HF2 as (F1 & F2 & F3 & F4). destruct I2 as [J1 J2 J3 J4 JR J5].
  destruct (afterControl_hs w2) as (K1 & K2 & K3).
  assert (K4 : w_extraE (afterControl w2) = w_extraE w2) by (unfold afterControl; destruct (allOff w2); destruct w2; reflexivity).
  assert (K5 : w_envE (afterControl w2) = w_envE w2) by (unfold afterControl; destruct (allOff w2); destruct w2; reflexivity).
  assert (K6 : w_setpoint (afterControl w2) = w_setpoint w2) by (unfold afterControl; destruct (allOff w2); destruct w2; reflexivity).
  assert (K7 : w_doDepress (afterControl w2) = w_doDepress w2) by (unfold afterControl; destruct (allOff w2); destruct w2; reflexivity).
  set (wc := afterControl w2) in *. clearbody wc.
  destruct (stepExtra_frame _ _ _ _ HE) as (G1 & _ & G3).
  destruct (stepExtra_spec fuel x wc w3 Hq) as (E1 & E2 & E3 & E4 & E5 & E6 & E7); rewrite ?K2, ?K3; auto; try lra.
  { rewrite H2, T1. auto. }
  rewrite K2 in *. rewrite K3 in E4.
  assert (G4 : w_minStep w3 = w_minStep wc) by (rewrite G3; destruct wc; reflexivity).
  assert (G5 : w_envE w3 = w_envE wc) by (rewrite G3; destruct wc; reflexivity).
  assert (G6 : w_setpoint w3 = w_setpoint wc) by (rewrite G3; destruct wc; reflexivity).
  assert (G7 : w_doDepress w3 = w_doDepress wc) by (rewrite G3; destruct wc; reflexivity).
  clear G3 HE.
  destruct (stepDepress_hs (i_amb x) w3) as (D1 & D2 & D3 & _).
  assert (D4 : w_extraE (stepDepress (i_amb x) w3) = w_extraE w3) by (unfold stepDepress; destruct (w_doDepress w3); destruct w3; reflexivity).
  assert (D5 : w_envE (stepDepress (i_amb x) w3) = w_envE w3) by (unfold stepDepress; destruct (w_doDepress w3); destruct w3; reflexivity).
  assert (D6 : w_setpoint (stepDepress (i_amb x) w3) = w_setpoint w3) by (unfold stepDepress; destruct (w_doDepress w3); destruct w3; reflexivity).
  assert (D7 : w_doDepress (stepDepress (i_amb x) w3) = w_doDepress w3) by (unfold stepDepress; destruct (w_doDepress w3) eqn:ED; destruct w3; exact ED || reflexivity).
  set (w4 := stepDepress (i_amb x) w3) in *. clearbody w4.
  assert (S1 : w_hs (stepSettle w4) = map (settleHS (w_minStep w4)) (w_hs w4)) by apply stepSettle_hs.
  assert (S2 : w_tank (stepSettle w4) = w_tank w4) by (unfold stepSettle; destruct w4; reflexivity).
  assert (S3 : w_stbyE (stepSettle w4) = KJ_TO_KWH (t_stby (w_tank w4))) by (unfold stepSettle; destruct w4; reflexivity).
  assert (S4 : w_extraE (stepSettle w4) = w_extraE w4) by (unfold stepSettle; destruct w4; reflexivity).
  assert (S5 : w_envE (stepSettle w4) = w_envE w4 + Rsum (map (fun h => h_eOut h - h_eIn h) (w_hs (stepSettle w4)))).
  { rewrite S1. unfold stepSettle. rewrite <- fold_env. destruct w4; reflexivity. }
  assert (S6 : w_setpoint (stepSettle w4) = w_setpoint w4) by (unfold stepSettle; destruct w4; reflexivity).
  assert (S7 : w_minStep (stepSettle w4) = w_minStep w4) by (unfold stepSettle; destruct w4; reflexivity).
  assert (S8 : w_doDepress (stepSettle w4) = w_doDepress w4) by (unfold stepSettle; destruct w4; reflexivity).
  set (w5 := stepSettle w4) in *. clearbody w5.
  destruct (stepTimer_hs (i_dr x) w5) as (V1 & V2 & _).
  assert (V3 : w_stbyE (stepTimer (i_dr x) w5) = w_stbyE w5 /\ w_extraE (stepTimer (i_dr x) w5) = w_extraE w5 /\
               w_envE (stepTimer (i_dr x) w5) = w_envE w5 /\ w_minStep (stepTimer (i_dr x) w5) = w_minStep w5 /\
               w_setpoint (stepTimer (i_dr x) w5) = w_setpoint w5 /\ w_doDepress (stepTimer (i_dr x) w5) = w_doDepress w5).
  { unfold stepTimer. destruct (_ && _)%bool; [|destruct (_ && _)%bool]; destruct w5; splits; reflexivity. }
  rewrite <- Hw' in *. destruct V3 as (V3 & V4 & V5 & V6 & V7 & V8). clear Hw'.
  assert (ET : w_tank w' = w_tank w3) by congruence.
  assert (EH : w_hs w' = map (settleHS (w_minStep w)) (w_hs w2)) by (rewrite V1, S1, D1, G1, K1; f_equal; f_equal; congruence).
  assert (EO : map h_eOut (w_hs w') = map h_eOut (w_hs w2)).
  { rewrite EH, map_map. apply map_ext. intros h. unfold settleHS. destruct (h_type h); reflexivity. }
  assert (ER : map h_runtime (w_hs w') = map h_runtime (w_hs w2)).
  { rewrite EH, map_map. apply map_ext. intros h. unfold settleHS. destruct (h_type h); reflexivity. }
  assert (EM : w_minStep w' = w_minStep w) by congruence.
  assert (ETs : w_tank w3 = set_t_stby (t_stby (w_tank w3)) (set_t_outletT (t_outletT (w_tank w3)) (set_t_Ts (t_Ts (w_tank w3)) (w_tank w)))).
  { rewrite E1, H1, T2'. destruct (w_tank w). reflexivity. }
  assert (Eout : t_outletT (w_tank w3) = t_outletT (w_tank w1)).
  { rewrite E1, H1. destruct (w_tank w1); reflexivity. }
  assert (Estb : t_stby (w_tank w3) = t_stby (w_tank w1)).
  { rewrite E1, H1. destruct (w_tank w1); reflexivity. }
  constructor.
  - rewrite ET. lia.
  - rewrite ET. exact ETs.
  - rewrite ET. exact E3.
  - assert (W1 : deliveredKJ (w_hs w') = deliveredKJ (w_hs w2)) by (unfold deliveredKJ; rewrite EO; reflexivity).
    assert (W2 : w_extraE w' = w_extraE w3) by congruence.
    assert (W3 : w_stbyE w' * 3600 = t_stby (w_tank w1)).
    { rewrite V3, S3, KJ_TO_KWH_R, D3. exact Estb. }
    rewrite W1, W2, ET, Eout. lra.
  - rewrite V4, S4, D4, E4. rewrite H5, Hm1. reflexivity.
  - rewrite V5, S5, D5, G5, K5, F3, Henv1, V1. ring.
  - exact EM.
  - rewrite EM. assert (HR : Forall (fun r => 0 <= r <= w_minStep w) (map h_runtime (w_hs w'))).
    { rewrite ER. apply Forall_forall. intros r Hr. apply in_map_iff in Hr. destruct Hr as (h & <- & Hh).
      rewrite Forall_forall in J5. specialize (J5 h Hh). rewrite H5, Hm1 in J5. exact J5. }
    apply Forall_forall. intros h Hh. rewrite Forall_forall in HR. apply HR. apply in_map. exact Hh.
  - rewrite EH. rewrite Hhs1 in F1. clear - F1.
    remember (map resetHS (w_hs w)) as l1 eqn:El. revert El. generalize (w_hs w). induction F1; intros l0 El; destruct l0; try discriminate; cbn; constructor.
    + inversion El; subst. unfold hframe in *. unfold settleHS. destruct (h_type y); rewrite H; unfold resetHS; destruct h; reflexivity.
    + apply IHF1. inversion El; auto.
  - assert (HR : Forall (fun r => 0 <= r) (map h_eOut (w_hs w'))).
    { rewrite EO. rewrite Hhs1 in H9. clear - H9. remember (map resetHS (w_hs w)) as l1 eqn:El. revert El. generalize (w_hs w).
      induction H9; intros l0 El; destruct l0; try discriminate; cbn [map]; constructor.
      - inversion El; subst. exact H.
      - eapply IHForall2. inversion El; eauto. }
    apply Forall_forall. intros h Hh. rewrite Forall_forall in HR. apply HR. apply in_map. exact Hh.
  - rewrite V7, S6, D6, G6, K6. lra.
  - congruence.
Qed.

(** ** Temperature range of a step *)
Lemma step_range fuel x (w w' : hpwh R) D lo hi : unitOK (sourceAir w x) D w -> (forall c, lo <= c <= hi -> D c) ->
  calm lo hi x w -> extraList x = [] ->
  runOneStep fuel x w = (Ok tt, w') -> within lo hi (t_Ts (w_tank w')).
Proof.
  intros HUn HDc HCa Hex E. pose proof HUn as [U1 U2 U3 U4 U5].
  pose proof (cu_sp _ _ _ (ca_unit _ _ _ _ HCa)) as Hsp. pose proof (cu_multi _ _ _ (ca_unit _ _ _ _ HCa)) as Hmp.
  assert (HCv : covered D x w) by (right; eauto).
  apply runOneStep_inv in E. destruct E as (w1 & w2 & w3 & air & HP & HC & HE & Hw').
  assert (Hair : air = sourceAir w x).
  { destruct HP as (l & t & sc & _ & -> & -> & _). unfold sourceAir, locationAir. num_simpl. unfold Reqb'. destruct (w_doDepress w); auto. destruct (Req_EM_T _ _); reflexivity. }
  assert (Hhs1 := preControl_hs _ _ _ _ _ HP).
  assert (Hm1 : w_minStep w1 = w_minStep w) by (destruct HP as (l & t & sc & -> & _); reflexivity).
  assert (Hsp1 : w_setpoint w1 = w_setpoint w) by (destruct HP as (l & t & sc & -> & _); reflexivity).
  assert (HRc := preControl_reach _ _ _ _ _ _ _ HUn HCv HP).
  assert (HB2 := preControl_within _ _ _ _ _ _ _ U1 U2 U3 HCa HP).
  assert (HT : exists amb, updateNodes fuel (w_hrStep w) (w_secStep w) (i_draw x) (w_inletT w) amb (i_vol2 x) (i_inT2 x)
                 (resetTank w) = (Ok tt, w_tank w1)).
  { destruct HP as (l & t & sc & Hw1 & _ & _ & HU1 & _). exists (if w_doDepress w then l else i_amb x). rewrite HU1.
    f_equal. rewrite Hw1. reflexivity. }
  destruct HT as (amb & HT).
  assert (R1 : wf_tank (resetTank w)) by (destruct U1 as [A B C D0]; constructor; auto).
  destruct (updateNodes_heat _ _ _ _ _ _ _ _ _ _ R1 U2 U3 HT) as (T1 & T2 & T3 & _).
  assert (HI1 : heatInv air D w1).
  { constructor.
    - rewrite T2. destruct U1 as [A B C D0]. constructor; cbn [resetTank set_t_stby set_t_outletT set_t_Ts t_Ts t_volume t_nodeVol t_nodeCp]; rewrite ?T1; auto.
    - rewrite T2. exact U3.
    - exact T3.
    - rewrite Hhs1, T1, Hair. apply Forall_forall. intros h Hh. apply in_map_iff in Hh. destruct Hh as (h0 & <- & Hh0).
      apply srcOK_reset. rewrite Forall_forall in U4. apply U4; auto.
    - exact HRc.
    - rewrite Hhs1, Hm1. apply Forall_forall. intros h Hh. apply in_map_iff in Hh. destruct Hh as (h0 & <- & Hh0). cbn. lra. }
  destruct (control_heated air D fuel (i_dr x) w1 w2 ltac:(lra) HC HI1) as [I2 [H1 H2 H3 H4 H5 H6 H7 H8 H9]].
  assert (HM1 : Forall (fun h => ~ multiPass h) (w_hs w1)).
  { rewrite Hhs1. apply Forall_forall. intros h Hh. apply in_map_iff in Hh. destruct Hh as (h0 & <- & Hh0).
    rewrite Forall_forall in Hmp. intros HX. apply (Hmp h0 Hh0). exact HX. }
  assert (HB3 : within lo hi (t_Ts (w_tank w2))).
  { intros y Hy. split.
    - apply (H6 lo); auto. apply (within_lo lo hi). exact HB2.
    - apply (H7 HM1 hi); auto; [lra|]. intros z Hz. apply HB2. exact Hz. }
  destruct (afterControl_hs w2) as (_ & K2 & _).
  destruct (stepTimer_hs (i_dr x) (stepSettle (stepDepress (i_amb x) w3))) as (_ & V2 & _).
  assert (S2 : forall v : hpwh R, w_tank (stepSettle v) = w_tank v) by (intros v; unfold stepSettle; destruct v; reflexivity).
  destruct (stepDepress_hs (i_amb x) w3) as (_ & _ & D3 & _).
  assert (HX : w_tank w3 = w_tank (afterControl w2)).
  { unfold stepExtra in HE. unfold extraList in Hex. destruct (i_extra x) as [[|q r]|]; try discriminate;
      apply ret_inv in HE; destruct HE as [-> _]; reflexivity. }
  rewrite Hw', V2, S2, D3, HX, K2. exact HB3.
Qed.

(** ** Several steps *)
Lemma stepRel_unitOK air D x (w w' : hpwh R) : stepRel x w w' -> unitOK air D w -> unitOK air D w'.
Proof.
  intros [A1 A2 A3 A4 A5 A6 A7 A8 A9 A10 A11 A12] [U1 U2 U3 U4 U5]. constructor.
  - rewrite A2. destruct U1 as [B1 B2 B3 B4]. constructor; cbn [set_t_stby set_t_outletT set_t_Ts t_Ts t_volume t_nodeVol t_nodeCp]; rewrite ?A1; auto.
  - unfold ports_ok. rewrite A1. rewrite A2. exact U2.
  - rewrite A2. exact U3.
  - rewrite A1. clear - A9 U4. induction A9; inversion U4; subst; constructor; auto. eapply srcOK_hframe; eauto.
  - lra.
Qed.

Definition zipSum (f : hpwh R -> rowIn (T:=R) -> R) (ws : list (hpwh R)) (rows : list rowIn) : R :=
  Rsum (map (fun '(v, r) => f v r) (combine ws rows)).

Lemma drawnHeat_row hx r out : 0 <= r_draw r -> drawnHeat hx (r_draw r) (r_inletT r) 0 0 out
  = CPWATER * DENSITYWATER * (r_draw r * r_inletT r - out * r_draw r).
Proof.
  intros H. unfold drawnHeat. destruct (Rle_dec (r_draw r) 0).
  - assert (r_draw r = 0) as -> by lra. ring.
  - destruct hx; ring.
Qed.

(** the step length is left alone *)
Lemma step_times fuel x (w w' : hpwh R) : runOneStep fuel x w = (Ok tt, w') -> (w_hrStep w', w_secStep w') = (w_hrStep w, w_secStep w).
Proof.
  set (f := fun v : hpwh R => (w_hrStep v, w_secStep v)). change (runOneStep fuel x w = (Ok tt, w') -> f w' = f w).
  intros E. apply runOneStep_inv in E. destruct E as (w1 & w2 & w3 & air & HP & HC & HE & Hw').
  assert (C1 : f w1 = f w) by (destruct HP as (l & t & sc & -> & _); reflexivity). clear HP.
  assert (C2 : f w2 = f w1).
  { pose proof (control_cframe fuel (i_dr x) air w1) as HF. rewrite HC in HF. cbn [snd] in HF. destruct HF as (_ & _ & HF). rewrite HF. destruct w1; reflexivity. }
  assert (C3 : f (afterControl w2) = f w2) by (unfold afterControl; destruct (allOff w2); destruct w2; reflexivity).
  assert (C4 : f w3 = f (afterControl w2)).
  { destruct (stepExtra_frame _ _ _ _ HE) as (_ & _ & G). rewrite G. destruct (afterControl w2); reflexivity. }
  assert (C5 : f (stepDepress (i_amb x) w3) = f w3) by (unfold stepDepress; destruct (w_doDepress w3); destruct w3; reflexivity).
  set (w4 := stepDepress (i_amb x) w3) in *. clearbody w4.
  assert (C6 : f (stepSettle w4) = f w4) by (unfold stepSettle; destruct w4; reflexivity).
  set (w5 := stepSettle w4) in *. clearbody w5.
  assert (C7 : f (stepTimer (i_dr x) w5) = f w5).
  { unfold stepTimer. destruct (_ && _)%bool; [|destruct (_ && _)%bool]; destruct w5; reflexivity. }
  congruence.
Qed.

(** one row of a covered run *)
Lemma calmRun_first r rows lo hi (w : hpwh R) : calmRun (r :: rows) lo hi w -> calm lo hi (row_step r) (setInletT (r_inletT r) w).
Proof.
  intros (HU & HN & HR). destruct (HR r (or_introl eq_refl)) as [HA HI]. destruct HU. constructor.
  - constructor; auto.
  - unfold tankAir. replace (w_doDepress (setInletT (r_inletT r) w)) with (w_doDepress w) by (destruct w; reflexivity). rewrite HN. exact HA.
  - cbn. num_simpl. lra.
  - intros _ _. replace (w_inletT (setInletT (r_inletT r) w)) with (r_inletT r) by (destruct w; reflexivity). exact HI.
  - cbn. num_simpl. intros. exfalso. lra.
Qed.
Lemma coveredRun_first D r rows (w : hpwh R) : coveredRun D (r :: rows) w -> covered D (row_step r) (setInletT (r_inletT r) w).
Proof.
  intros [HA|(lo & hi & HD & HU)]; [left; auto|right]. exists lo, hi. split; auto. eapply calmRun_first; eauto.
Qed.
Lemma calmRun_next D fuel r rows lo hi (w w1 : hpwh R) : let w0 := setInletT (r_inletT r) w in
  unitOK (sourceAir w0 (row_step r)) D w0 -> runOneStep fuel (row_step r) w0 = (Ok tt, w1) -> (forall c, lo <= c <= hi -> D c) ->
  calmRun (r :: rows) lo hi w -> calmRun rows lo hi w1.
Proof.
  intros w0 HU E HD HCR. pose proof (calmRun_first _ _ _ _ _ HCR) as HCa. fold w0 in HCa. destruct HCR as (HUn & HN & HR).
  assert (HF : covered D (row_step r) w0) by (right; eauto).
  pose proof (step_rel fuel (row_step r) D w0 w1 HU HF ltac:(right; intros ? []) ltac:(intros []; reflexivity) E) as HS.
  pose proof (step_range fuel (row_step r) w0 w1 D lo hi HU HD HCa eq_refl E) as HW.
  pose proof (step_times _ _ _ _ E) as HT. assert (HT1 : w_hrStep w1 = w_hrStep w0) by (injection HT; auto). assert (HT2 : w_secStep w1 = w_secStep w0) by (injection HT; auto). clear HT.
  pose proof (ca_unit _ _ _ _ HCa) as [K1 K2 K3 K4 K5 K6 K7 K8 K9 K10 K11 K12 K13]. clear HCa HUn HF.
  assert (HN0 : w_doDepress w0 = false) by (unfold w0; destruct w; exact HN). clearbody w0.
  destruct HS as [A1 A2 A3 A4 A5 A6 A7 A8 A9 A10 A11 A12].
  split; [|split].
  - constructor; rewrite ?HT1, ?HT2; auto; try (rewrite A2; assumption); try lra.
    + clear - A9 K3. induction A9; inversion K3; subst; constructor; auto. intros HX. apply H2. eapply multiPass_hframe; eauto.
    + rewrite A1. intros ends He. rewrite A2. apply K13. exact He.
  - rewrite A12. exact HN0.
  - intros r' Hr'. apply HR. right. exact Hr'.
Qed.
Lemma coveredRun_next D fuel r rows (w w1 : hpwh R) : let w0 := setInletT (r_inletT r) w in
  unitOK (sourceAir w0 (row_step r)) D w0 -> runOneStep fuel (row_step r) w0 = (Ok tt, w1) ->
  coveredRun D (r :: rows) w -> coveredRun D rows w1.
Proof.
  intros w0 HU E [HA|(lo & hi & HD & HC)]; [left; auto|right]. exists lo, hi. split; auto. eapply calmRun_next; eauto.
Qed.

Lemma runs_heat fuel D rows : forall (w : hpwh R) ws wl,
  (forall air, w_doDepress w = true \/ In air (map r_ext rows) -> unitOK air D w) -> coveredRun D rows w ->
  Forall (fun r => 0 <= r_draw r) rows ->
  runs fuel rows w ws wl ->
  tankHeat (w_tank wl) = tankHeat (w_tank w)
    + CPWATER * DENSITYWATER * (Rsum (map (fun r => r_draw r * r_inletT r) rows) - zipSum (fun v r => t_outletT (w_tank v) * r_draw r) ws rows)
    + Rsum (map (fun v => deliveredKJ (w_hs v)) ws) - 3600 * Rsum (map w_stbyE ws).
Proof.
  induction rows as [|r rows IH]; intros w ws wl HU HCv HD HR; inversion HR as [|r0 rows0 wa w1 ws0 wb Hstep Hrest]; subst.
  - unfold zipSum, Rsum. cbn. ring.
  - inversion HD as [|r1 rs1 Hd0 Hds]; subst. unfold runOneStepInlet in Hstep. unfold bind at 1, modify at 1 in Hstep.
    pose proof (coveredRun_first _ _ _ _ HCv) as HCf.
    pose proof (fun HX => coveredRun_next D fuel r rows w w1 HX Hstep HCv) as HCn.
    set (w0 := setInletT (r_inletT r) w) in *.
    assert (P1 : w_doDepress w0 = w_doDepress w) by (unfold w0; destruct w; reflexivity).
    assert (P2 : w_tank w0 = w_tank w) by (unfold w0; destruct w; reflexivity).
    assert (P3 : forall air, unitOK air D w -> unitOK air D w0).
    { intros air [O1 O2 O3 O4 O5]. constructor; auto. }
    assert (P4 : w_inletT w0 = r_inletT r) by (unfold w0; destruct w; reflexivity).
    clearbody w0.
    assert (HS : stepRel (row_step r) w0 w1).
    { apply (step_rel fuel _ D); [|exact HCf|right; intros ? []|intros []; reflexivity|exact Hstep].
      apply P3. apply HU. unfold sourceAir. rewrite P1. destruct (w_doDepress w); [left; auto|right; left; reflexivity]. }
    assert (HU1 : forall air, w_doDepress w1 = true \/ In air (map r_ext rows) -> unitOK air D w1).
    { intros air Hc. eapply stepRel_unitOK; [exact HS|]. apply P3. apply HU.
      rewrite (sr_dep _ _ _ HS), P1 in Hc. destruct Hc; [left; auto|right; right; auto]. }
    assert (HC1 : coveredRun D rows w1).
    { apply HCn. apply P3. apply HU. unfold sourceAir. rewrite P1. destruct (w_doDepress w); [left; auto|right; left; reflexivity]. }
    specialize (IH w1 ws0 wl HU1 HC1 Hds Hrest).
    assert (HH := sr_heat _ _ _ HS). rewrite (sr_extra _ _ _ HS) in HH. rewrite P2, P4 in HH.
    cbn [row_step i_draw i_vol2 i_inT2 extraList i_extra] in HH. num_simpl. rewrite drawnHeat_row in HH by auto.
    rewrite IH, HH. unfold zipSum, Rsum. cbn. num_simpl. field.
Qed.
