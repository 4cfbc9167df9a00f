(** Proofs that the heating loops of external condensers finish. *)

From Coq Require Import ZArith String List Bool Reals Lra Lia.
From Verif Require Import Num Base Units Types Utils TankM Logic HeatSrc Step Spec SpecState SpecDist SpecEnergy SpecStep RList.
From Verif Require Import FrameProofs SimFrame MixProofs DrawProofs TankProofs ControlProofs DistProofs EnergyProofs ExtProofs Progress.
Import ListNotations.
Local Open Scope R_scope.

(** what the external heating loops of source [i] need *)
Record extCan (mf i : nat) (ext : R) (h : hsrc R) (w : W) : Prop := {
  ec_wf : wf_tank (w_tank w);
  ec_nth : nth_error (w_hs w) i = Some h;
  ec_off : Forall (logicReady (w_haveInletT w)) (h_shutOff h);
  ec_soc : socReady w;
  ec_fuel : (length (t_Ts (w_tank w)) * length (t_Ts (w_tank w)) < mf)%nat
}.

Lemma updateSoC_soc (w : W) : socReady w -> succ updateSoC w.
Proof.
  intros HR. unfold updateSoC. apply succ_bind; [apply succ_get|]. intros w0 w1 E. apply get_inv in E. destruct E as [-> ->].
  destruct (w_usesSoC w) eqn:EU; [|apply succ_ret].
  destruct (HR EU) as (h & H0 & Hn & d & a & b & c & e & f & g & i & r & HT).
  apply succ_bind; [|intros; apply succ_modify].
  eapply succ_lift. unfold calcSoC. replace (Z.ltb (w_compIx w) 0) with false by (symmetry; apply Z.ltb_ge; auto).
  rewrite Hn, HT. reflexivity.
Qed.

Lemma extCan_st mf i ext h (w w' : W) Ts ci co ev sc : length Ts = length (t_Ts (w_tank w)) -> w' = extSt Ts ci co ev sc w ->
  extCan mf i ext h w -> extCan mf i ext h w'.
Proof.
  intros HL -> [A B C D F]. unfold extSt. constructor; wsimpl; cbn [set_t_Ts t_Ts]; rewrite ?HL; auto.
  - apply wf_set_Ts; auto.
Qed.

Lemma mix_succ mf (w : W) : wf_tank (w_tank w) -> (length (t_Ts (w_tank w)) * length (t_Ts (w_tank w)) < mf)%nat -> succ (onTank (mixInversions mf)) w.
Proof.
  intros Hwf Hf. destruct (mixInversions_terminates mf (w_tank w) Hwf Hf) as [t' E]. unfold succ, onTank. rewrite E. eauto.
Qed.

Lemma extPorts_some n (h : hsrc R) : (0 <= h_extOut h <= h_extIn h)%Z -> (h_extIn h < Z.of_nat n)%Z ->
  exists o c, extPorts n h = Some (o, c) /\ (o < n)%nat.
Proof.
  intros H1 H2. unfold extPorts. replace ((0 <=? h_extOut h)%Z && (h_extOut h <? Z.of_nat n)%Z)%bool with true.
  2:{ symmetry. apply andb_true_iff. split; [apply Z.leb_le|apply Z.ltb_lt]; lia. }
  replace (Z.leb (h_extOut h) (h_extIn h)) with true by (symmetry; apply Z.leb_le; lia).
  replace (Z.ltb (h_extIn h) (Z.of_nat n)) with true by (symmetry; apply Z.ltb_lt; lia).
  do 2 eexists. split; [reflexivity|]. lia.
Qed.

Lemma extCan_same mf i ext h (w w' : W) Ts : w_tank w' = set_t_Ts Ts (w_tank w) -> length Ts = length (t_Ts (w_tank w)) ->
  w_hs w' = w_hs w -> w_haveInletT w' = w_haveInletT w -> w_usesSoC w' = w_usesSoC w -> w_compIx w' = w_compIx w ->
  extCan mf i ext h w -> extCan mf i ext h w' /\ length (t_Ts (w_tank w')) = length (t_Ts (w_tank w)) /\ t_nodeVol (w_tank w') = t_nodeVol (w_tank w) /\ t_Ts (w_tank w') = Ts.
Proof.
  intros H1 H2 H3 H4 H5 H6 [A B C D F]. rewrite H1. cbn [set_t_Ts t_Ts t_nodeVol]. split; auto.
  constructor; unfold socReady in *; rewrite ?H1, ?H3, ?H4, ?H5, ?H6; cbn [set_t_Ts t_Ts]; rewrite ?H2; auto. apply wf_set_Ts; auto.
Qed.

(** the part of a pass after the amounts are known: record, move water, settle, update the state of charge *)
Lemma tail_succ {A} mf i ext h (w : W) ci co fTs fv (k : M W A) : extCan mf i ext h w -> (forall Ts, length (fTs Ts) = length Ts) ->
  (forall w', extCan mf i ext h w' -> t_nodeVol (w_tank w') = t_nodeVol (w_tank w) -> length (t_Ts (w_tank w')) = length (t_Ts (w_tank w)) ->
     w_setpoint w' = w_setpoint w -> t_nodeCp (w_tank w') = t_nodeCp (w_tank w) -> mixed_of (fTs (t_Ts (w_tank w))) (t_Ts (w_tank w')) -> succ k w') ->
  succ (bind (modify (fun w => set_w_condOut (co w) (set_w_condIn (ci w) w))) (fun _ =>
        bind (modify (fun w => set_w_tank (set_t_Ts (fTs (t_Ts (w_tank w))) (w_tank w)) w)) (fun _ =>
        bind (onTank (mixInversions mf)) (fun _ => bind updateSoC (fun _ => bind (modify (fun w => set_w_extVol (fv w) w)) (fun _ => k)))))) w.
Proof.
  intros HC HL HK.
  apply succ_bind; [apply succ_modify|]. intros [] w1 E1. apply modify_inv in E1. cbv beta in E1.
  destruct (extCan_same mf i ext h w w1 (t_Ts (w_tank w))) as (C1 & L1 & V1 & S1); auto; try solve [rewrite E1; wsimpl; auto; match goal with |- ?t = _ => destruct t; reflexivity end].
  assert (P1 : w_setpoint w1 = w_setpoint w /\ t_nodeCp (w_tank w1) = t_nodeCp (w_tank w)) by (rewrite E1; wsimpl; auto). destruct P1 as [P1 Q1].
  clear E1. apply succ_bind; [apply succ_modify|]. intros [] w2 E2. apply modify_inv in E2. cbv beta in E2.
  destruct (extCan_same mf i ext h w1 w2 (fTs (t_Ts (w_tank w1)))) as (C2 & L2 & V2 & S2); auto; try solve [rewrite E2; wsimpl; auto; match goal with |- ?t = _ => destruct t; reflexivity end].
  assert (P2 : w_setpoint w2 = w_setpoint w1 /\ t_nodeCp (w_tank w2) = t_nodeCp (w_tank w1)) by (rewrite E2; wsimpl; auto). destruct P2 as [P2 Q2].
  clear E2. apply succ_bind; [apply mix_succ; [apply (ec_wf _ _ _ _ _ C2)|apply (ec_fuel _ _ _ _ _ C2)]|]. intros [] w3 E3.
  apply onTank_mix in E3; [|apply (ec_wf _ _ _ _ _ C2)]. destruct E3 as (Ts' & E3 & HM & _).
  destruct (extCan_same mf i ext h w2 w3 Ts') as (C3 & L3 & V3 & S3); auto; try solve [rewrite E3; wsimpl; auto; match goal with |- ?t = _ => destruct t; reflexivity end].
  { apply (mo_len _ _ HM). }
  assert (P3 : w_setpoint w3 = w_setpoint w2 /\ t_nodeCp (w_tank w3) = t_nodeCp (w_tank w2)) by (rewrite E3; wsimpl; auto). destruct P3 as [P3 Q3].
  clear E3. apply succ_bind; [apply updateSoC_soc; apply (ec_soc _ _ _ _ _ C3)|]. intros [] w4 E4. apply updateSoC_inv in E4.
  destruct (extCan_same mf i ext h w3 w4 (t_Ts (w_tank w3))) as (C4 & L4 & V4 & S4); auto; try solve [rewrite E4; wsimpl; auto; match goal with |- ?t = _ => destruct t; reflexivity end].
  assert (P4 : w_setpoint w4 = w_setpoint w3 /\ t_nodeCp (w_tank w4) = t_nodeCp (w_tank w3)) by (rewrite E4; wsimpl; auto). destruct P4 as [P4 Q4].
  clear E4. apply succ_bind; [apply succ_modify|]. intros [] w5 E5. apply modify_inv in E5. cbv beta in E5.
  destruct (extCan_same mf i ext h w4 w5 (t_Ts (w_tank w4))) as (C5 & L5 & V5 & S5); auto; try solve [rewrite E5; wsimpl; auto; match goal with |- ?t = _ => destruct t; reflexivity end].
  assert (P5 : w_setpoint w5 = w_setpoint w4 /\ t_nodeCp (w_tank w5) = t_nodeCp (w_tank w4)) by (rewrite E5; wsimpl; auto). destruct P5 as [P5 Q5].
  rewrite S2, S1 in HM. apply HK; auto; congruence.
Qed.

Lemma ask_off mf i ext h (w : W) : extCan mf i ext h w -> succ (askHS i shutsOff) w.
Proof.
  intros [A B C D F]. apply succ_askHS; [apply nth_error_Some; congruence|]. intros h0 E0. rewrite B in E0. inversion E0; subst h0.
  apply shutsOff_ok; auto. apply (wf_n _ A).
Qed.

(** Condenser.cc:1182-1262: every pass but the last takes the time in which one node's volume flows *)
Lemma extLoopMP_succ mf i ext (D : R -> Prop) h : (0 <= h_extOut h <= h_extIn h)%Z -> 0 < h_mpFlow h ->
  (forall (w : W) cond, D cond -> exists p, getPerformance w h ext cond = Ok p /\ 0 < p_out p) ->
  forall fuel (w : W) a, extCan mf i ext h w -> (h_extIn h < Z.of_nat (length (t_Ts (w_tank w))))%Z ->
  (0 < fuel)%nat -> 0 <= a_rem a -> domUp D (t_Ts (w_tank w)) -> h_mpFlow h * (a_rem a * 60) / t_nodeVol (w_tank w) <= INR fuel ->
  succ (extLoopMP fuel mf i ext a) w.
Proof.
  intros Hp Hfl HP. induction fuel as [|fuel IH]; intros w a HC HX Hf Hr HDm Hb; [lia|].
  cbn [extLoopMP]. pose proof (ec_wf _ _ _ _ _ HC) as Hwf. pose proof (ec_nth _ _ _ _ _ HC) as Hn.
  pose proof (wf_nodeVol_pos _ Hwf) as Hnv.
  apply succ_bind; [apply succ_getHS; apply nth_error_Some; congruence|]. intros h0 w0 E0. apply getHS_inv in E0. destruct E0 as [-> E0]. rewrite Hn in E0. inversion E0; subst h0. clear E0.
  apply succ_bind; [apply succ_get|]. intros w0 w1 E. apply get_inv in E. destruct E as [-> ->].
  cbv zeta. unfold W_TO_KW, sec_per_min. num_simpl.
  set (f0 := h_mpFlow h * (a_rem a * 60) / t_nodeVol (w_tank w)) in *.
  set (f := if Rltb 1 f0 then 1 else f0).
  apply succ_bind; [apply succ_modify|]. intros [] wm Em. apply modify_inv in Em. cbv beta in Em.
  destruct (extCan_same mf i ext h w wm (mixNodes_list 0 (numNodes (w_tank w)) f (t_Ts (w_tank w)))) as (Cm & Lm & Vm & Sm); auto; try solve [rewrite Em; wsimpl; auto; match goal with |- ?t = _ => destruct t; reflexivity end].
  { apply mixNodes_length. }
  assert (Ecp : t_nodeCp (w_tank wm) = t_nodeCp (w_tank w)) by (rewrite Em; reflexivity). clear Em.
  apply succ_bind; [apply succ_get|]. intros w0 w1 E. apply get_inv in E. destruct E as [-> ->].
  destruct (extPorts_some (numNodes (w_tank w)) h Hp HX) as (o & c & EP & Ho). rewrite EP.
  pose proof (extPorts_spec _ _ _ _ EP (proj2 Hp)) as [Hcn Hoc]. unfold numNodes in Hoc.
  assert (Hf0 : 0 <= f0). { unfold f0. apply Rmult_le_pos; [apply Rmult_le_pos; lra|left; apply Rinv_0_lt_compat; auto]. }
  assert (Hff : 0 <= f <= 1) by (unfold f; rcase; lra).
  destruct HDm as (lo & D1 & D2). destruct (lo_within _ _ D1) as [hi HWi].
  assert (HWm : within lo hi (t_Ts (w_tank wm))) by (rewrite Sm; unfold numNodes; apply mixNodes_within; auto; lia).
  assert (HDo : D (nget (t_Ts (w_tank wm)) o)).
  { gn. apply D2. apply HWm, node_In. rewrite Lm. exact Ho. }
  destruct (HP wm (nget (t_Ts (w_tank wm)) o) HDo) as (p & Ep & Hpo).
  apply succ_bind; [eapply succ_lift; exact Ep|]. intros p0 w1 E. apply lift_inv in E. destruct E as [-> E]. rewrite Ep in E. inversion E; subst p0. clear E.
  pose proof CP_pos as HC1. pose proof DENS_pos as HC2.
  assert (Hden : 0 < h_mpFlow h * CPWATER * DENSITYWATER) by (apply Rmult_lt_0_compat; [apply Rmult_lt_0_compat; auto|auto]).
  apply succ_bind; [eapply succ_lift; apply div_ok; num_simpl; lra|]. intros dT w1 E. apply lift_inv in E. destruct E as [-> E].
  apply div_chk_R in E. destruct E as [_ EdT].
  rewrite Ecp. set (cap := p_out p / 1000 * (a_rem a * 60)). set (nh := t_nodeCp (w_tank w) * dT).
  assert (Hrel : cap = f0 * nh).
  { unfold cap, f0, nh. rewrite EdT, (wf_nodeCp _ Hwf). num_simpl. field. splits; apply Rgt_not_eq; auto. }
  assert (HdT : 0 < dT). { rewrite EdT. apply Rmult_lt_0_compat; [lra|]. apply Rinv_0_lt_compat; auto. }
  assert (Hnh : 0 < nh) by (apply Rmult_lt_0_compat; auto; apply (wf_nodeCp_pos _ Hwf)).
  destruct (Rltb nh cap) eqn:EC; bcase.
  - assert (H1f : 1 < f0). { apply (Rmult_lt_reg_r nh); auto. lra. }
    assert (Hrem : a_rem a * (nh / cap) = t_nodeVol (w_tank w) / (h_mpFlow h * 60)).
    { rewrite Hrel. unfold f0. field. splits; try lra. intros HZ. unfold f0 in H1f. rewrite HZ in H1f. unfold Rdiv in H1f. rewrite Rmult_0_l, Rmult_0_r, Rmult_0_l in H1f. lra. }
    apply (tail_succ mf i ext h wm (fun w1 => w_condIn w1 + nget (t_Ts (w_tank wm)) o * (a_rem a * (nh / cap)))
             (fun w1 => w_condOut w1 + (nget (t_Ts (w_tank wm)) o + dT) * (a_rem a * (nh / cap))) (fun Ts => shiftUp f (nget (t_Ts (w_tank wm)) o + dT) o c Ts)); auto.
    { intros Ts. apply shiftUp_length. }
    intros w' C' V' L' _ _ M'. destruct (Rltb 0 _) eqn:E0; [|apply succ_ret]. bcase.
    apply succ_bind; [eapply ask_off; eauto|]. intros off w2 E2. apply askHS_inv in E2. destruct E2 as [-> _]. destruct off; [apply succ_ret|].
    apply IH; auto; cbn [a_rem]; try lra.
    + rewrite L', Lm. auto.
    + destruct fuel; [|lia]. cbn in Hb. lra.
    + exists lo. split; auto. set (tgt := nget (t_Ts (w_tank wm)) o + dT) in *.
      assert (HtL : lo <= tgt). { unfold tgt. gn. pose proof (HWm (node (t_Ts (w_tank wm)) o)) as HZ. destruct HZ; [apply node_In; rewrite Lm; exact Ho|]. lra. }
      assert (HWs : within lo (Rmax hi tgt) (shiftUp f tgt o c (t_Ts (w_tank wm)))).
      { apply shiftUp_within; auto; [split; [exact HtL|apply Rmax_r]|rewrite Lm; lia|]. eapply within_weaken; [apply Rmax_l|exact HWm]. }
      assert (HWw : within lo (Rmax hi tgt) (t_Ts (w_tank w'))).
      { apply within_node. intros k Hk. rewrite (mo_len _ _ M') in Hk. apply (mo_range _ _ M'); auto. apply within_node. exact HWs. }
      intros y Hy. apply (HWw y Hy).
    + rewrite V', Vm, Hrem.
      replace (h_mpFlow h * ((a_rem a - t_nodeVol (w_tank w) / (h_mpFlow h * 60)) * 60) / t_nodeVol (w_tank w)) with (f0 - 1) by (unfold f0; field; splits; lra).
      rewrite S_INR in Hb. lra.
  - apply (tail_succ mf i ext h wm (fun w1 => w_condIn w1 + nget (t_Ts (w_tank wm)) o * a_rem a)
             (fun w1 => w_condOut w1 + (nget (t_Ts (w_tank wm)) o + dT) * a_rem a) (fun Ts => shiftUp f (nget (t_Ts (w_tank wm)) o + dT) o c Ts)); auto.
    { intros Ts. apply shiftUp_length. }
    intros w' C' V' L' _ _ M'. replace (Rltb 0 0) with false by (symmetry; apply Rltb_false; lra). apply succ_ret.
Qed.

(** Condenser.cc:1056-1147: one pass is enough if the capacity does not heat one node to the target *)
Lemma extLoopSP_one mf i ext setT h : (0 <= h_extOut h <= h_extIn h)%Z -> h_shutOff h = [] ->
  (forall (w : W) cond, exists p, getPerformance w h ext cond = Ok p) ->
  forall fuel (w : W) a, extCan mf i ext h w -> (h_extIn h < Z.of_nat (length (t_Ts (w_tank w))))%Z -> (0 < fuel)%nat -> 0 <= a_rem a ->
  (forall p, getPerformance w h ext (node (t_Ts (w_tank w)) (Z.to_nat (h_extOut h))) = Ok p ->
     p_out p / 1000 * (a_rem a * 60) <= t_nodeCp (w_tank w) * (setT - node (t_Ts (w_tank w)) (Z.to_nat (h_extOut h)))) ->
  succ (extLoopSP fuel mf i ext setT a) w.
Proof.
  intros Hp Hoff HP [|fuel] w a HC HX Hf Hr Hb; [lia|].
  cbn [extLoopSP]. pose proof (ec_wf _ _ _ _ _ HC) as Hwf. pose proof (ec_nth _ _ _ _ _ HC) as Hn.
  apply succ_bind; [apply succ_getHS; apply nth_error_Some; congruence|]. intros h0 w0 E0. apply getHS_inv in E0. destruct E0 as [-> E0]. rewrite Hn in E0. inversion E0; subst h0. clear E0.
  apply succ_bind; [apply succ_get|]. intros w0 w1 E. apply get_inv in E. destruct E as [-> ->].
  assert (EP : exists c, extPorts (numNodes (w_tank w)) h = Some (Z.to_nat (h_extOut h), c)).
  { unfold extPorts, numNodes. replace ((0 <=? h_extOut h)%Z && (h_extOut h <? Z.of_nat (length (t_Ts (w_tank w))))%Z)%bool with true.
    2:{ symmetry. apply andb_true_iff. split; [apply Z.leb_le|apply Z.ltb_lt]; lia. }
    destruct (Z.leb (h_extOut h) (h_extIn h)); eauto. replace (Z.ltb _ _) with true by (symmetry; apply Z.ltb_lt; lia). eauto. }
  destruct EP as [c EP]. rewrite EP. cbv zeta. gn. set (o := Z.to_nat (h_extOut h)) in *.
  destruct (HP w (node (t_Ts (w_tank w)) o)) as (p & Ep). specialize (Hb p Ep).
  apply succ_bind; [eapply succ_lift; exact Ep|]. intros p0 w1 E. apply lift_inv in E. destruct E as [-> E]. rewrite Ep in E. inversion E; subst p0. clear E.
  unfold W_TO_KW, sec_per_min. num_simpl. set (outT := node (t_Ts (w_tank w)) o) in *.
  destruct (Rleb (setT - outT) 0) eqn:EdT; [apply succ_ret|]. bcase.
  set (cap := p_out p / 1000 * (a_rem a * 60)) in *. set (nh := t_nodeCp (w_tank w) * (setT - outT)) in *.
  set (fn := if Rltb cap nh then (cap / nh, cap) else (1, nh)).
  assert (Hfn : snd fn = cap /\ fst fn <= 1).
  { unfold fn. destruct (Rltb cap nh) eqn:EC; bcase; cbn [fst snd]; split; try lra.
    assert (0 < nh) by (apply Rmult_lt_0_compat; [apply (wf_nodeCp_pos _ Hwf)|lra]).
    apply (Rmult_le_reg_r nh); auto. unfold Rdiv. rewrite Rmult_assoc, Rinv_l by lra. lra. }
  destruct fn as [f1 n1]. cbn [fst snd] in Hfn. destruct Hfn as [-> Hf1].
  assert (EF : fractToMeet w h = Ok 1) by (unfold fractToMeet; rewrite Hoff; reflexivity).
  apply succ_bind; [eapply succ_lift; exact EF|]. intros fs w1 E. apply lift_inv in E. destruct E as [-> E]. rewrite EF in E. inversion E; subst fs. clear E.
  replace (Rltb 1 f1) with false by (symmetry; apply Rltb_false; auto).
  replace (Rltb cap cap) with false by (symmetry; apply Rltb_false; lra).
  apply (tail_succ mf i ext h w (fun w1 => w_condIn w1 + outT * a_rem a) (fun w1 => w_condOut w1 + setT * a_rem a) (fun Ts => shiftUp f1 setT o c Ts)); auto.
  { intros Ts. apply shiftUp_length. }
  intros w' C' V' L' _ _ M'. replace (Rltb 0 0) with false by (symmetry; apply Rltb_false; lra). apply succ_ret.
Qed.

Lemma extFinish_succ step a (w : W) : succ (extFinish step a) w.
Proof. unfold extFinish. cbv zeta. destruct (nltb _ _); [|apply succ_ret]. apply succ_bind; [apply succ_modify|]. intros. apply succ_ret. Qed.

Lemma addHeatExternalMP_succ fuel i ext (D : R -> Prop) h m (w : W) : (0 <= h_extOut h <= h_extIn h)%Z -> 0 < h_mpFlow h ->
  (forall (w : W) cond, D cond -> exists p, getPerformance w h ext cond = Ok p /\ 0 < p_out p) ->
  extCan fuel i ext h w -> (h_extIn h < Z.of_nat (length (t_Ts (w_tank w))))%Z -> 0 <= m -> domUp D (t_Ts (w_tank w)) ->
  h_mpFlow h * (m * 60) / t_nodeVol (w_tank w) <= INR fuel -> succ (addHeatExternalMP fuel i ext m) w.
Proof.
  intros Hp Hfl HP HC HX Hm HDm Hb. unfold addHeatExternalMP. apply succ_bind; [|intros; apply extFinish_succ].
  eapply extLoopMP_succ; eauto. pose proof (ec_fuel _ _ _ _ _ HC). lia.
Qed.
Lemma addHeatExternal_one fuel i ext h m (w : W) : (0 <= h_extOut h <= h_extIn h)%Z -> h_shutOff h = [] ->
  (forall (w : W) cond, exists p, getPerformance w h ext cond = Ok p) ->
  extCan fuel i ext h w -> (h_extIn h < Z.of_nat (length (t_Ts (w_tank w))))%Z -> 0 <= m ->
  (forall p, getPerformance w h ext (node (t_Ts (w_tank w)) (Z.to_nat (h_extOut h))) = Ok p ->
     p_out p / 1000 * (m * 60) <= t_nodeCp (w_tank w) * (Rmin (h_maxSet h) (w_setpoint w) - node (t_Ts (w_tank w)) (Z.to_nat (h_extOut h)))) ->
  succ (addHeatExternal fuel i ext m) w.
Proof.
  intros Hp Hoff HP HC HX Hm Hb. unfold addHeatExternal. pose proof (ec_nth _ _ _ _ _ HC) as Hn.
  apply succ_bind; [apply succ_getHS; apply nth_error_Some; congruence|]. intros h0 w0 E0. apply getHS_inv in E0. destruct E0 as [-> E0]. rewrite Hn in E0. inversion E0; subst h0. clear E0.
  apply succ_bind; [apply succ_get|]. intros w0 w1 E. apply get_inv in E. destruct E as [-> ->].
  apply succ_bind; [|intros; apply extFinish_succ].
  assert (Emin : nmin (h_maxSet h) (w_setpoint w) = Rmin (h_maxSet h) (w_setpoint w)).
  { unfold nmin. num_simpl. mm; rcase; lra. }
  rewrite Emin. eapply extLoopSP_one; eauto. pose proof (ec_fuel _ _ _ _ _ HC). lia.
Qed.
