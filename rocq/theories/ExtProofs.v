(** The external heating loops at the reals. *)

From Coq Require Import ZArith List Bool Reals Lra Lia.
From Verif Require Import Num Base Units Types Utils TankM Logic HeatSrc Step Spec SpecState SpecDist SpecEnergy RList
  MixProofs DrawProofs TankProofs HeatProofs DistProofs FrameProofs SimFrame ControlProofs EnergyProofs.
Import ListNotations.
Local Open Scope R_scope.

(** ** Moving water up from the outlet node *)
Lemma shiftUp_length f target : forall cnt k (Ts : list R), length (shiftUp f target k cnt Ts) = length Ts.
Proof. induction cnt; intros; cbn [shiftUp]; auto. rewrite IHcnt, upd_length. auto. Qed.
Lemma shiftUp_sum f target : forall cnt k Ts, (0 < cnt)%nat -> (k + cnt <= length Ts)%nat ->
  Rsum (shiftUp f target k cnt Ts) = Rsum Ts + f * (target - node Ts k).
Proof.
  induction cnt as [|c IH]; intros k Ts Hc Hk; [lia|]. cbn [shiftUp]. num_simpl. gn. destruct c as [|c].
  - cbn [shiftUp]. rewrite Rsum_upd by lia. ring.
  - rewrite IH by (rewrite ?upd_length; lia). rewrite Rsum_upd by lia. rewrite node_upd by lia.
    replace (Nat.eqb (S k) k) with false by (symmetry; apply Nat.eqb_neq; lia).
    replace (k + 1)%nat with (S k) by lia. ring.
Qed.
Lemma upd_within lo hi Ts i v : within lo hi Ts -> lo <= v <= hi -> within lo hi (upd Ts i v).
Proof.
  intros HW Hv. revert i. induction Ts as [|x r IH]; intros i y Hy; [destruct i; destruct Hy|].
  assert (within lo hi r) by (intros z Hz; apply HW; right; auto).
  destruct i; cbn in Hy; destruct Hy as [<-|Hy]; auto.
  - apply HW; left; auto.
  - eapply IH; eauto.
Qed.
Lemma shiftUp_within lo hi f target : 0 <= f <= 1 -> lo <= target <= hi -> forall cnt k Ts,
  (k + cnt <= length Ts)%nat -> within lo hi Ts -> within lo hi (shiftUp f target k cnt Ts).
Proof.
  intros Hf Ht. induction cnt as [|c IH]; intros k Ts Hk HW; cbn [shiftUp]; auto.
  apply IH; [rewrite upd_length; lia|]. apply upd_within; auto. num_simpl. gn.
  assert (Hx : lo <= node Ts k <= hi) by (apply HW, node_In; lia).
  assert (Hy : lo <= match c with O => target | _ => node Ts (k + 1) end <= hi).
  { destruct c; auto. apply HW, node_In. lia. }
  set (y := match c with O => target | _ => node Ts (k + 1) end) in *. split; nra.
Qed.

Lemma extPorts_spec n (h : hsrc R) o cnt : extPorts n h = Some (o, cnt) -> (h_extOut h <= h_extIn h)%Z ->
  (0 < cnt)%nat /\ (o + cnt <= n)%nat.
Proof.
  unfold extPorts. intros E HL. destruct ((0 <=? h_extOut h) && (h_extOut h <? Z.of_nat n))%Z%bool eqn:E1; [|discriminate].
  apply andb_true_iff in E1. destruct E1 as [E1 E2]. apply Z.leb_le in E1. apply Z.ltb_lt in E2.
  replace (h_extOut h <=? h_extIn h)%Z with true in E by (symmetry; apply Z.leb_le; auto).
  destruct (h_extIn h <? Z.of_nat n)%Z eqn:E3; [|discriminate]. apply Z.ltb_lt in E3. inversion E; subst. lia.
Qed.

(** ** The states an external heating loop goes through *)
Definition extSt (Ts : list R) (ci co ev sc : R) (w : hpwh R) : hpwh R :=
  set_w_SoC sc (set_w_extVol ev (set_w_condOut co (set_w_condIn ci (set_w_tank (set_t_Ts Ts (w_tank w)) w)))).
Lemma extSt_self w : w = extSt (t_Ts (w_tank w)) (w_condIn w) (w_condOut w) (w_extVol w) (w_SoC w) w.
Proof. destruct w. destruct w_tank. reflexivity. Qed.

Lemma onTank_mix mf (w : hpwh R) w' : wf_tank (w_tank w) -> onTank (mixInversions mf) w = (Ok tt, w') ->
  exists Ts', w' = set_w_tank (set_t_Ts Ts' (w_tank w)) w /\ mixed_of (t_Ts (w_tank w)) Ts' /\
    (t_doMix (w_tank w) = true -> stratified Ts').
Proof.
  intros Hwf E. unfold onTank in E. destruct (mixInversions mf (w_tank w)) as [r t] eqn:E1. inversion E; subst. clear E.
  destruct (mixInversions_ok _ _ _ Hwf E1) as (Ts' & H1 & H2 & H3). exists Ts'. subst t. splits; auto.
Qed.

(** heat stored, expressed with the node heat capacity *)
Notation stored w := (t_nodeCp (w_tank w) * Rsum (t_Ts (w_tank w))).

(** what a (part of a) heating loop has done: the heat gained by the water is the output power times the
    time used *)
Record extDone (w w' : hpwh R) (a a' : extAcc (T:=R)) : Prop := {
  ed_st : exists Ts ci co ev sc, w' = extSt Ts ci co ev sc w;
  ed_len : length (t_Ts (w_tank w')) = length (t_Ts (w_tank w));
  ed_strat : stratified (t_Ts (w_tank w')) ;
  ed_time : 0 <= a_rem a' <= a_rem a;
  ed_out : a_out a <= a_out a';
  ed_still : a_rem a' = a_rem a -> a_out a' = a_out a;
  ed_heat : stored w' = stored w + 60 / 1000 * (a_out a' - a_out a);
  ed_vol : w_extVol w <= w_extVol w';
  ed_lo : forall lo, (forall x, In x (t_Ts (w_tank w)) -> lo <= x) -> forall x, In x (t_Ts (w_tank w')) -> lo <= x
}.

Lemma extSt_extSt Ts ci co ev sc Ts2 ci2 co2 ev2 sc2 w :
  extSt Ts2 ci2 co2 ev2 sc2 (extSt Ts ci co ev sc w) = extSt Ts2 ci2 co2 ev2 sc2 w.
Proof. destruct w. reflexivity. Qed.

Lemma extDone_refl w a : stratified (t_Ts (w_tank w)) -> 0 <= a_rem a -> extDone w w a a.
Proof.
  intros HS HR. constructor; auto; try lra. do 5 eexists. apply extSt_self.
Qed.
Lemma extDone_trans w1 w2 w3 a1 a2 a3 : extDone w1 w2 a1 a2 -> extDone w2 w3 a2 a3 -> extDone w1 w3 a1 a3.
Proof.
  intros [A0 A1 A2 A3 A4 A5 A6 A7 A8] [B0 B1 B2 B3 B4 B5 B6 B7 B8]. constructor; auto; try lia; try lra.
  { destruct A0 as (Ts & ci & co & ev & sc & ->). destruct B0 as (Ts2 & ci2 & co2 & ev2 & sc2 & ->).
    do 5 eexists. apply extSt_extSt. }
Qed.

Lemma lo_within lo Ts : (forall x, In x Ts -> lo <= x) -> exists hi, within lo hi Ts.
Proof.
  induction Ts as [|x r IH]; intros HL; [exists lo; intros ? []|].
  destruct IH as [hi HW]; [intros; apply HL; right; auto|]. exists (Rmax x hi). intros y [<-|Hy].
  - split; [apply HL; left; auto|apply Rmax_l].
  - destruct (HW y Hy). split; auto. eapply Rle_trans; [eassumption|apply Rmax_r].
Qed.
Lemma within_weaken lo hi hi2 Ts : hi <= hi2 -> within lo hi Ts -> within lo hi2 Ts.
Proof. intros HH HW x Hx. destruct (HW x Hx). lra. Qed.

(** one pass of the loops: shift, mix, update *)
Lemma extPass f target o cnt mf (w w1 : hpwh R) rest w' ci co :
  wf_tank (w_tank w) -> t_doMix (w_tank w) = true -> 0 <= f <= 1 -> (0 < cnt)%nat -> (o + cnt <= length (t_Ts (w_tank w)))%nat ->
  onTank (mixInversions mf) (set_w_tank (set_t_Ts (shiftUp f target o cnt (t_Ts (w_tank w))) (w_tank w))
     (set_w_condOut co (set_w_condIn ci w))) = (Ok tt, w1) ->
  updateSoC w1 = (Ok tt, rest) ->
  w' = set_w_extVol (w_extVol rest + f * t_nodeVol (w_tank rest)) rest ->
  exists Ts' sc, w' = extSt Ts' ci co (w_extVol w + f * t_nodeVol (w_tank w)) sc w /\
    length Ts' = length (t_Ts (w_tank w)) /\ stratified Ts' /\
    Rsum Ts' = Rsum (t_Ts (w_tank w)) + f * (target - node (t_Ts (w_tank w)) o) /\
    (forall lo hi, lo <= target <= hi -> within lo hi (t_Ts (w_tank w)) -> within lo hi Ts').
Proof.
  intros Hwf Hd Hf Hc Hp Em Eu ->.
  apply onTank_mix in Em.
  2:{ wsimpl. apply wf_set_Ts; auto. apply shiftUp_length. }
  destruct Em as (Ts' & -> & HM & HS). apply updateSoC_inv in Eu. set (sc := w_SoC rest) in *. clearbody sc. subst rest.
  wsimpl_in HM. wsimpl_in HS. wsimpl.
  exists Ts', sc. pose proof (mo_len _ _ HM) as HL. rewrite shiftUp_length in HL. splits; auto.
  - rewrite (mixed_of_sum _ _ HM). apply shiftUp_sum; auto.
  - intros lo hi Ht HW. apply within_node. rewrite HL. rewrite <- (shiftUp_length f target cnt o).
    apply (mo_range _ _ HM). apply within_node. apply shiftUp_within; auto.
Qed.

(** accumulated input and output of a run against bounds of the performance *)
Definition accBounds (h : hsrc R) (ext : R) (D : R -> Prop) (a a' : extAcc) : Prop :=
  (forall lo hi, (forall (v : hpwh R) cond p, D cond -> getPerformance v h ext cond = Ok p -> lo <= p_in p + h_shxPump h <= hi) ->
     lo * (a_rem a - a_rem a') <= a_in a' - a_in a <= hi * (a_rem a - a_rem a')) /\
  (forall lo hi, (forall (v : hpwh R) cond p, D cond -> getPerformance v h ext cond = Ok p -> lo <= p_out p <= hi) ->
     lo * (a_rem a - a_rem a') <= a_out a' - a_out a <= hi * (a_rem a - a_rem a')).
Lemma accBounds_refl h ext D a : accBounds h ext D a a.
Proof. split; intros; lra. Qed.
Lemma accBounds_trans h ext D a b c : accBounds h ext D a b -> accBounds h ext D b c -> accBounds h ext D a c.
Proof.
  intros (A1 & A2) (B1 & B2). split; intros lo hi HH; [specialize (A1 lo hi HH); specialize (B1 lo hi HH)|specialize (A2 lo hi HH); specialize (B2 lo hi HH)]; lra.
Qed.
Lemma accBounds_pass h ext (D : R -> Prop) (v : hpwh R) cond p a time rem c : D cond -> getPerformance v h ext cond = Ok p -> 0 <= time -> time + rem = a_rem a ->
  accBounds h ext D a (mkacc rem (a_in a + (p_in p + h_shxPump h) * time) (a_out a + p_out p * time) c).
Proof.
  intros HD EP H0 HT. split; intros lo hi HH; specialize (HH _ _ _ HD EP); cbn [a_rem a_in a_out]; replace (a_rem a - rem) with time by lra.
  - pose proof (Rmult_le_compat_r time _ _ H0 (proj1 HH)). pose proof (Rmult_le_compat_r time _ _ H0 (proj2 HH)). lra.
  - pose proof (Rmult_le_compat_r time _ _ H0 (proj1 HH)). pose proof (Rmult_le_compat_r time _ _ H0 (proj2 HH)). lra.
Qed.

(** Condenser.cc:1056-1147 *)
Lemma extLoopSP_spec mf i ext setT (D : R -> Prop) h :
  (h_extOut h <= h_extIn h)%Z ->
  (forall w cond p, D cond -> getPerformance w h ext cond = Ok p -> 0 <= p_out p) ->
  (forall w f, fractToMeet w h = Ok f -> 0 <= f) ->
  forall fuel (w : hpwh R) a a' w', wf_tank (w_tank w) -> t_doMix (w_tank w) = true -> stratified (t_Ts (w_tank w)) ->
  nth_error (w_hs w) i = Some h -> 0 <= a_rem a -> domUp D (t_Ts (w_tank w)) \/ domTo D setT (t_Ts (w_tank w)) ->
  extLoopSP fuel mf i ext setT a w = (Ok a', w') ->
  extDone w w' a a' /\ accBounds h ext D a a' /\
  (forall lo hi, setT <= hi -> within lo hi (t_Ts (w_tank w)) -> within lo hi (t_Ts (w_tank w')) /\
     60 / 1000 * (a_out a' - a_out a) <= CPWATER * DENSITYWATER * (w_extVol w' - w_extVol w) * (setT - lo)).
Proof.
  intros Hports HP HF. induction fuel as [|fuel IH]; intros w a a' w' Hwf Hd HS Hn Hr HDm E; cbn [extLoopSP] in E; [discriminate|].
  apply bind_inv in E. destruct E as (h0 & w1 & E0 & E). apply getHS_inv in E0. destruct E0 as [-> E0].
  rewrite Hn in E0. inversion E0; subst h0. clear E0.
  apply bind_inv in E. destruct E as (w0 & w1 & E0 & E). apply get_inv in E0. destruct E0 as [-> ->].
  destruct (extPorts (numNodes (w_tank w)) h) as [[o cnt]|] eqn:EP; [|discriminate].
  destruct (extPorts_spec _ _ _ _ EP Hports) as [Hcnt Hocnt]. unfold numNodes in Hocnt.
  cbv zeta in E. apply bind_inv in E. destruct E as (p & w1 & E0 & E). apply lift_inv in E0. destruct E0 as [-> E0].
  assert (HDo : D (nget (t_Ts (w_tank w)) o)).
  { gn. assert (Hin : In (node (t_Ts (w_tank w)) o) (t_Ts (w_tank w))) by (apply node_In; lia).
    destruct HDm as [(lo & L1 & L2)|(lo & hi & L0 & L1 & L2)]; [apply L2, L1|apply L2, L1]; auto. }
  pose proof (HP _ _ _ HDo E0) as HPo. pose proof E0 as HGP. clear E0 EP. unfold W_TO_KW, sec_per_min in E. num_simpl. gn.
  set (outT := node (t_Ts (w_tank w)) o) in *.
  destruct (Rleb (setT - outT) 0) eqn:Edt; bcase.
  { apply ret_inv in E. destruct E as [-> ->]. split; [apply extDone_refl; auto|]. split; [apply accBounds_refl|]. intros. splits; auto; lra. }
  pose proof (wf_nodeCp_pos _ Hwf) as Hcp. pose proof (wf_nodeVol_pos _ Hwf) as Hnv.
  set (nh := t_nodeCp (w_tank w) * (setT - outT)) in *.
  assert (Hnh : 0 < nh) by (apply Rmult_lt_0_compat; lra).
  set (cap := p_out p / 1000 * (a_rem a * 60)) in *.
  assert (Hcap : 0 <= cap) by (unfold cap; apply Rmult_le_pos; lra).
  set (fn := if Rltb cap nh then (cap / nh, cap) else (1, nh)) in *.
  assert (Hfn : snd fn = fst fn * nh /\ 0 <= fst fn <= 1 /\ snd fn <= cap).
  { unfold fn. destruct (Rltb cap nh) eqn:EC; bcase; cbn [fst snd]; splits; try lra.
    - field. lra.
    - apply frac_le; lra.
    - apply frac_le; lra. }
  clearbody fn. destruct fn as [f1 n1]. cbn [fst snd] in Hfn.
  apply bind_inv in E. destruct E as (fs & w1 & E0 & E). apply lift_inv in E0. destruct E0 as [-> E0].
  pose proof (HF _ _ E0) as Hfs. clear E0.
  set (fn2 := if Rltb fs f1 then (fs, fs * nh) else (f1, n1)) in *.
  assert (Hfn2 : snd fn2 = fst fn2 * nh /\ 0 <= fst fn2 <= 1 /\ snd fn2 <= cap).
  { destruct Hfn as (F1 & F2 & F3). unfold fn2. destruct (Rltb fs f1) eqn:EC; bcase; cbn [fst snd]; splits; try lra.
    rewrite F1 in F3. eapply Rle_trans; [|exact F3]. apply Rmult_le_compat_r; lra. }
  clearbody fn2. destruct fn2 as [f needed]. cbn [fst snd] in Hfn2. destruct Hfn2 as (F1 & F2 & F3).
  set (tr := if Rltb needed cap then (a_rem a * (needed / cap), a_rem a - a_rem a * (needed / cap)) else (a_rem a, 0)) in *.
  assert (Htr : 0 <= fst tr /\ fst tr + snd tr = a_rem a /\ 0 <= snd tr /\ p_out p * fst tr * 60 / 1000 = needed).
  { assert (Hn0 : 0 <= needed) by (rewrite F1; apply Rmult_le_pos; lra).
    unfold tr. destruct (Rltb needed cap) eqn:EC; bcase; cbn [fst snd].
    - assert (Hc0 : 0 < cap) by lra. pose proof (frac_le needed cap Hc0 ltac:(lra)) as HQ. splits; try nra.
      assert (Hca : p_out p * a_rem a * 60 / 1000 = cap) by (unfold cap; field).
      replace (p_out p * (a_rem a * (needed / cap)) * 60 / 1000) with (p_out p * a_rem a * 60 / 1000 * (needed / cap)) by (unfold Rdiv; ring).
      rewrite Hca. field. lra.
    - splits; try lra. replace needed with cap by lra. unfold cap. field. }
  clearbody tr. destruct tr as [time rem]. cbn [fst snd] in Htr. destruct Htr as (T1 & T2 & T3 & T4).
  apply bind_inv in E. destruct E as ([] & w1 & E0 & E). apply modify_inv in E0.
  apply bind_inv in E. destruct E as ([] & w2 & E1 & E). apply modify_inv in E1.
  apply bind_inv in E. destruct E as ([] & w3 & E2 & E).
  apply bind_inv in E. destruct E as ([] & w4 & E3 & E).
  apply bind_inv in E. destruct E as ([] & w5 & E4 & E). apply modify_inv in E4.
  subst w1. wsimpl_in E1. subst w2.
  destruct (extPass f setT o cnt mf w w3 w4 w5 (w_condIn w + outT * time) (w_condOut w + setT * time)) as (Ts' & sc & Hw5 & L5 & S5 & R5 & B5); auto.
  clear E2 E3 E4.
  set (a1 := mkacc rem (a_in a + (p_in p + h_shxPump h) * time) (a_out a + p_out p * time) (a_cop a + p_cop p * time)) in *.
  assert (HD1 : extDone w w5 a a1).
  { rewrite Hw5. constructor; unfold extSt; wsimpl; auto; unfold a1; cbn [a_rem a_out]; try lra.
    - do 5 eexists; reflexivity.
    - assert (0 <= p_out p * time) by (apply Rmult_le_pos; auto). lra.
    - intros. assert (time = 0) by lra. subst time. lra.
    - rewrite R5. fold outT. rewrite Rmult_plus_distr_l.
      replace (60 / 1000 * (a_out a + p_out p * time - a_out a)) with needed by (rewrite <- T4; field).
      rewrite F1. unfold nh. ring.
    - assert (0 <= f * t_nodeVol (w_tank w)) by (apply Rmult_le_pos; lra). lra.
    - intros lo HL. destruct (lo_within _ _ HL) as [hi HW]. intros x Hx.
      assert (lo <= outT) by (apply HL, node_In; lia).
      apply (B5 lo (Rmax hi setT)); auto; [split; [lra|apply Rmax_r]|]. eapply within_weaken; [apply Rmax_l|eauto]. }
  assert (HI1 : accBounds h ext D a a1) by (eapply accBounds_pass; eauto).
  assert (HB1 : forall lo hi, setT <= hi -> within lo hi (t_Ts (w_tank w)) -> within lo hi (t_Ts (w_tank w5)) /\
     60 / 1000 * (a_out a1 - a_out a) <= CPWATER * DENSITYWATER * (w_extVol w5 - w_extVol w) * (setT - lo)).
  { intros lo hi Hh HW. assert (Ho : lo <= outT <= hi) by (apply HW, node_In; lia).
    rewrite Hw5. unfold extSt. wsimpl. split; [apply B5; auto; lra|].
    unfold a1. cbn [a_out].
    replace (60 / 1000 * (a_out a + p_out p * time - a_out a)) with needed by (rewrite <- T4; field).
    replace (w_extVol w + f * t_nodeVol (w_tank w) - w_extVol w) with (f * t_nodeVol (w_tank w)) by ring.
    rewrite F1. unfold nh. rewrite (wf_nodeCp _ Hwf).
    assert (0 <= f * (CPWATER * DENSITYWATER * t_nodeVol (w_tank w))).
    { apply Rmult_le_pos; [lra|]. rewrite <- (wf_nodeCp _ Hwf). lra. }
    replace (f * (CPWATER * DENSITYWATER * t_nodeVol (w_tank w) * (setT - outT))) with
      (f * (CPWATER * DENSITYWATER * t_nodeVol (w_tank w)) * (setT - outT)) by ring.
    replace (CPWATER * DENSITYWATER * (f * t_nodeVol (w_tank w)) * (setT - lo)) with
      (f * (CPWATER * DENSITYWATER * t_nodeVol (w_tank w)) * (setT - lo)) by ring.
    apply Rmult_le_compat_l; lra. }
  destruct (Rltb 0 rem).
  2:{ apply ret_inv in E. destruct E as [-> <-]. split; [|split]; auto. }
  apply bind_inv in E. destruct E as (off & w6 & E5 & E). apply askHS_inv in E5. destruct E5 as [-> _].
  destruct off; [apply ret_inv in E; destruct E as [-> <-]; split; [|split]; auto|].
  destruct (IH w5 a1 a' w') as (HD2 & HI2 & HB2); auto; try (
    destruct HDm as [(lo & L1 & L2)|(lo & hi & L0 & L1 & L2)];
    [left; exists lo; split; auto; apply (ed_lo _ _ _ _ HD1); auto|right; exists lo, hi; splits; auto; apply HB1; auto]).
  { rewrite Hw5. unfold extSt. wsimpl. apply wf_set_Ts; auto. }
  { rewrite Hw5. exact Hd. }
  { rewrite Hw5. exact S5. }
  { rewrite Hw5. exact Hn. }
  split; [eapply extDone_trans; eauto|]. split; [eapply accBounds_trans; eauto|]. intros lo hi Hh HW.
  destruct (HB1 lo hi Hh HW) as [W1 V1]. destruct (HB2 lo hi Hh W1) as [W2 V2]. split; auto.
  replace (a_out a' - a_out a) with ((a_out a' - a_out a1) + (a_out a1 - a_out a)) by ring.
  replace (w_extVol w' - w_extVol w) with ((w_extVol w' - w_extVol w5) + (w_extVol w5 - w_extVol w)) by ring.
  lra.
Qed.

(** Condenser.cc:1182-1262 *)
Lemma extLoopMP_spec mf i ext (D : R -> Prop) h :
  (h_extOut h <= h_extIn h)%Z -> 0 < h_mpFlow h ->
  (forall w cond p, D cond -> getPerformance w h ext cond = Ok p -> 0 <= p_out p) ->
  forall fuel (w : hpwh R) a a' w', wf_tank (w_tank w) -> t_doMix (w_tank w) = true -> stratified (t_Ts (w_tank w)) ->
  nth_error (w_hs w) i = Some h -> 0 <= a_rem a -> domUp D (t_Ts (w_tank w)) ->
  extLoopMP fuel mf i ext a w = (Ok a', w') ->
  extDone w w' a a' /\ accBounds h ext D a a' /\ w_extVol w' - w_extVol w <= h_mpFlow h * 60 * (a_rem a - a_rem a') /\
  ((forall w cond p, D cond -> getPerformance w h ext cond = Ok p -> 0 < p_out p) ->
   w_extVol w' - w_extVol w = h_mpFlow h * 60 * (a_rem a - a_rem a')).
Proof.
  intros Hports Hfl HP. induction fuel as [|fuel IH]; intros w a a' w' Hwf Hd HS Hn Hr HDm E; cbn [extLoopMP] in E; [discriminate|].
  apply bind_inv in E. destruct E as (h0 & w1 & E0 & E). apply getHS_inv in E0. destruct E0 as [-> E0].
  rewrite Hn in E0. inversion E0; subst h0. clear E0.
  apply bind_inv in E. destruct E as (w0 & w1 & E0 & E). apply get_inv in E0. destruct E0 as [-> ->].
  cbv zeta in E. unfold W_TO_KW, sec_per_min in E. num_simpl.
  pose proof (wf_nodeCp_pos _ Hwf) as Hcp. pose proof (wf_nodeVol_pos _ Hwf) as Hnv.
  set (f0 := h_mpFlow h * (a_rem a * 60) / t_nodeVol (w_tank w)) in *.
  assert (Hf0 : 0 <= f0). { unfold f0. apply Rmult_le_pos; [apply Rmult_le_pos; lra|left; apply Rinv_0_lt_compat; auto]. }
  set (f := if Rltb 1 f0 then 1 else f0) in *.
  assert (Hf : 0 <= f <= 1) by (unfold f; rcase; lra).
  apply bind_inv in E. destruct E as ([] & wm & E0 & E). apply modify_inv in E0.
  apply bind_inv in E. destruct E as (w0 & w1 & E1 & E). apply get_inv in E1. destruct E1 as [-> ->].
  set (n := length (t_Ts (w_tank w))) in *.
  assert (Hn0 : (0 < n)%nat) by apply (wf_n _ Hwf).
  set (Tm := mixNodes_list 0 (numNodes (w_tank w)) f (t_Ts (w_tank w))) in *.
  assert (LTm : length Tm = n) by (unfold Tm; rewrite mixNodes_length; auto).
  assert (STm : stratified Tm) by (unfold Tm, numNodes; apply mixNodes_strat; auto; lia).
  assert (RTm : Rsum Tm = Rsum (t_Ts (w_tank w))) by (unfold Tm, numNodes; apply mixNodes_sum; auto; lia).
  assert (WTm : forall lo hi, within lo hi (t_Ts (w_tank w)) -> within lo hi Tm) by (intros; unfold Tm, numNodes; apply mixNodes_within; auto; lia).
  destruct (extPorts (numNodes (w_tank w)) h) as [[o cnt]|] eqn:EP; [|discriminate].
  destruct (extPorts_spec _ _ _ _ EP Hports) as [Hcnt Hocnt]. unfold numNodes in Hocnt. fold n in Hocnt.
  apply bind_inv in E. destruct E as (p & w1 & E1 & E). apply lift_inv in E1. destruct E1 as [-> E1].
  assert (ETm : t_Ts (w_tank wm) = Tm) by (rewrite E0; reflexivity).
  assert (HDo : D (nget (t_Ts (w_tank wm)) o)).
  { gn. rewrite ETm. destruct HDm as (lo & L1 & L2). apply L2. destruct (lo_within _ _ L1) as [hi HW].
    apply (WTm lo hi HW), node_In. lia. }
  pose proof (HP _ _ _ HDo E1) as HPo. pose proof E1 as EPf. clear E1 EP. gn.
  rewrite ETm in E. set (outT := node Tm o) in *.
  apply bind_inv in E. destruct E as (dT & w1 & E1 & E). apply lift_inv in E1. destruct E1 as [-> E1].
  apply div_chk_R in E1. destruct E1 as [_ EdT]. num_simpl.
  pose proof CP_pos as HC1. pose proof DENS_pos as HC2.
  assert (Hden : 0 < h_mpFlow h * CPWATER * DENSITYWATER) by (apply Rmult_lt_0_compat; [apply Rmult_lt_0_compat; auto|auto]).
  assert (HdT : 0 <= dT). { rewrite EdT. apply Rmult_le_pos; [lra|left; apply Rinv_0_lt_compat; auto]. }
  assert (Ecp : t_nodeCp (w_tank wm) = t_nodeCp (w_tank w)) by (rewrite E0; reflexivity). rewrite Ecp in E.
  set (nh := t_nodeCp (w_tank w) * dT) in *.
  set (cap := p_out p / 1000 * (a_rem a * 60)) in *.
  assert (Hcap : 0 <= cap) by (unfold cap; apply Rmult_le_pos; lra).
  assert (Hnh : 0 <= nh) by (apply Rmult_le_pos; lra).
  (* capacity over one node's heat is the uncapped mixing fraction *)
  assert (Hrel : cap = f0 * nh).
  { unfold cap, f0, nh. rewrite EdT, (wf_nodeCp _ Hwf). field. splits; apply Rgt_not_eq; auto. }
  set (tr := if Rltb nh cap then (a_rem a * (nh / cap), a_rem a - a_rem a * (nh / cap)) else (a_rem a, 0)) in *.
  assert (Htr : 0 <= fst tr /\ fst tr + snd tr = a_rem a /\ 0 <= snd tr /\ p_out p * fst tr * 60 / 1000 = f * nh /\
     (0 < p_out p -> h_mpFlow h * 60 * fst tr = f * t_nodeVol (w_tank w)) /\
     (p_out p = 0 -> fst tr = a_rem a)).
  { unfold tr. destruct (Rltb nh cap) eqn:EC; bcase; cbn [fst snd].
    - assert (Hc0 : 0 < cap) by lra. pose proof (frac_le nh cap Hc0 ltac:(lra)) as HQ.
      assert (Hpo : 0 < p_out p). { destruct (Rle_lt_dec (p_out p) 0) as [Hz|]; auto. assert (p_out p = 0) by lra. unfold cap in Hc0. rewrite H in Hc0. lra. }
      assert (Hnh0 : 0 < nh). { destruct (Rle_lt_dec nh 0) as [Hz|]; auto. assert (nh = 0) by lra. rewrite Hrel, H in Hc0. lra. }
      assert (Hf1 : f = 1). { unfold f. rcase; auto. assert (f0 * nh <= 1 * nh) by (apply Rmult_le_compat_r; lra). lra. }
      assert (Hf0p : 0 < f0). { destruct (Rle_lt_dec f0 0) as [Hz|]; auto. assert (f0 * nh <= 0 * nh) by (apply Rmult_le_compat_r; lra). lra. }
      assert (Hq : nh / cap = 1 / f0) by (rewrite Hrel; field; lra).
      splits; try nra.
      + assert (Hca : p_out p * a_rem a * 60 / 1000 = cap) by (unfold cap; field).
        replace (p_out p * (a_rem a * (nh / cap)) * 60 / 1000) with (p_out p * a_rem a * 60 / 1000 * (nh / cap)) by (unfold Rdiv; ring).
        rewrite Hca, Hf1. field. lra.
      + intros _. rewrite Hq, Hf1.
        assert (a_rem a <> 0). { intros HZ. unfold f0 in Hf0p. rewrite HZ in Hf0p. unfold Rdiv in Hf0p. rewrite Rmult_0_l, Rmult_0_r, Rmult_0_l in Hf0p. lra. }
        unfold f0. field. splits; lra.
    - assert (Hff : f * nh = cap /\ (0 < p_out p -> f = f0)).
      { rewrite Hrel in EC |- *. unfold f. destruct (Rltb 1 f0) eqn:E9; bcase; [|split; lra].
        assert (HZ : nh = 0). { destruct (Req_dec nh 0); auto. assert (1 * nh < f0 * nh) by (apply Rmult_lt_compat_r; lra). lra. }
        split; [rewrite HZ; lra|]. intros Hpo. exfalso. assert (0 < nh); [|lra]. unfold nh. apply Rmult_lt_0_compat; auto. rewrite EdT.
        apply Rmult_lt_0_compat; [lra|]. apply Rinv_0_lt_compat; auto. }
      destruct Hff as [Hff1 Hff2]. splits; try lra.
      + rewrite Hff1. unfold cap. field.
      + intros Hpo. rewrite (Hff2 Hpo). unfold f0. field. lra. }
  clearbody tr. destruct tr as [time rem]. cbn [fst snd] in Htr. destruct Htr as (T1 & T2 & T3 & T4 & T5 & T6).
  assert (Hwm : wf_tank (w_tank wm)) by (rewrite E0; wsimpl; apply wf_set_Ts; auto).
  assert (Hdm : t_doMix (w_tank wm) = true) by (rewrite E0; exact Hd).
  apply bind_inv in E. destruct E as ([] & w1 & E1 & E). apply modify_inv in E1.
  apply bind_inv in E. destruct E as ([] & w2 & E2 & E). apply modify_inv in E2.
  apply bind_inv in E. destruct E as ([] & w3 & E3 & E).
  apply bind_inv in E. destruct E as ([] & w4 & E4 & E).
  apply bind_inv in E. destruct E as ([] & w5 & E5 & E). apply modify_inv in E5.
  subst w1. wsimpl_in E2. subst w2.
  destruct (extPass f (outT + dT) o cnt mf wm w3 w4 w5 (w_condIn wm + outT * time) (w_condOut wm + (outT + dT) * time)) as (Ts' & sc & Hw5 & L5 & S5 & R5 & B5); auto.
  { rewrite ETm, LTm. auto. }
  clear E3 E4 E5. rewrite ETm in L5, R5, B5. rewrite LTm in L5.
  set (a1 := mkacc rem (a_in a + (p_in p + h_shxPump h) * time) (a_out a + p_out p * time) (a_cop a + p_cop p * time)) in *.
  assert (HD1 : extDone w w5 a a1).
  { rewrite Hw5, E0. constructor; unfold extSt; wsimpl; auto; unfold a1; cbn [a_rem a_out]; try lra.
    - do 5 eexists. unfold extSt. wsimpl. reflexivity.
    - assert (0 <= p_out p * time) by (apply Rmult_le_pos; auto). lra.
    - intros. assert (time = 0) by lra. subst time. lra.
    - rewrite R5, RTm. fold outT. rewrite Rmult_plus_distr_l.
      replace (60 / 1000 * (a_out a + p_out p * time - a_out a)) with (f * nh) by (rewrite <- T4; field).
      unfold nh. ring.
    - assert (0 <= f * t_nodeVol (w_tank w)) by (apply Rmult_le_pos; lra). lra.
    - intros lo HL. destruct (lo_within _ _ HL) as [hi HW]. intros x Hx.
      assert (lo <= outT <= hi) by (apply (WTm lo hi HW), node_In; lia).
      apply (B5 lo (Rmax hi (outT + dT))); auto; [split; [lra|apply Rmax_r]|]. apply WTm. eapply within_weaken; [apply Rmax_l|eauto]. }
  assert (HI1 : accBounds h ext D a a1) by (eapply accBounds_pass; eauto).
  assert (HV1 : 0 < p_out p -> w_extVol w5 - w_extVol w = h_mpFlow h * 60 * (a_rem a - a_rem a1)).
  { intros Hpo. rewrite Hw5, E0. unfold extSt. wsimpl. unfold a1; cbn [a_rem]. rewrite <- (T5 Hpo) at 1. replace (a_rem a - rem) with time by lra. ring. }
  assert (HV2 : w_extVol w5 - w_extVol w <= h_mpFlow h * 60 * (a_rem a - a_rem a1)).
  { destruct (Rle_lt_dec (p_out p) 0) as [Hz|Hz]; [|rewrite HV1 by auto; lra].
    assert (Hz0 : p_out p = 0) by lra. rewrite Hw5, E0. unfold extSt. wsimpl. unfold a1; cbn [a_rem].
    rewrite (T6 Hz0) in T2. replace (a_rem a - rem) with (a_rem a) by lra.
    assert (HH : f * t_nodeVol (w_tank w) <= f0 * t_nodeVol (w_tank w)) by (apply Rmult_le_compat_r; [lra|]; unfold f; rcase; lra).
    replace (f0 * t_nodeVol (w_tank w)) with (h_mpFlow h * 60 * a_rem a) in HH by (unfold f0; field; lra). lra. }
  destruct (Rltb 0 rem) eqn:Erem.
  2:{ apply ret_inv in E. destruct E as [-> <-]. splits; auto. intros HPP. apply HV1. eapply HPP; eauto. }
  apply bind_inv in E. destruct E as (off & w6 & E5 & E). apply askHS_inv in E5. destruct E5 as [-> _].
  destruct off; [apply ret_inv in E; destruct E as [-> <-]; splits; auto; intros HPP; apply HV1; eapply HPP; eauto|].
  destruct (IH w5 a1 a' w') as (HD2 & HI2 & HB2 & HB3); auto.
  { rewrite Hw5. unfold extSt. wsimpl. apply wf_set_Ts; auto. rewrite L5, ETm. lia. }
  { rewrite Hw5. exact Hdm. }
  { rewrite Hw5. exact S5. }
  { rewrite Hw5, E0. exact Hn. }
  { destruct HDm as (lo & L1 & L2). exists lo. split; auto. apply (ed_lo _ _ _ _ HD1); auto. }
  split; [eapply extDone_trans; eauto|]. split; [eapply accBounds_trans; eauto|]. split; [lra|]. intros HPP. specialize (HB3 HPP). assert (0 < p_out p) by (eapply HPP; eauto). specialize (HV1 H). lra.
Qed.

(** Condenser.cc:1048-1164, 1175-1277, 882-928: the energies of an external condenser *)
Definition extCall (fuel i : nat) (ext m : R) (h : hsrc R) : M (hpwh R) (R * perf R) :=
  if h_multipass h then addHeatExternalMP fuel i ext m else addHeatExternal fuel i ext m.

Lemma extFinish_spec step a (w w' : hpwh R) rt p : extFinish step a w = (Ok (rt, p), w') ->
  rt = step - a_rem a /\ (exists ci co, w' = set_w_condOut co (set_w_condIn ci w)) /\
  (0 < rt -> p_out p * rt = a_out a /\ p_in p * rt = a_in a) /\ (rt <= 0 -> p_out p = a_out a).
Proof.
  unfold extFinish. cbv zeta. num_simpl. destruct (Rltb 0 (step - a_rem a)) eqn:E; bcase; intros E1.
  - apply bind_inv in E1. destruct E1 as ([] & w1 & E2 & E1). apply modify_inv in E2. apply ret_inv in E1.
    destruct E1 as [-> E1]. inversion E1; subst rt p. cbn [p_out]. splits; auto.
    + do 2 eexists. exact E2.
    + intros _. cbn [p_in]. split; field; lra.
    + lra.
  - apply ret_inv in E1. destruct E1 as [-> E1]. inversion E1; subst rt p. cbn [p_out]. splits; auto; [|lra].
    exists (w_condIn w), (w_condOut w). destruct w; reflexivity.
Qed.

Lemma extCall_spec fuel i ext m (D : R -> Prop) h (w : hpwh R) rt p w' :
  wf_tank (w_tank w) -> t_doMix (w_tank w) = true -> stratified (t_Ts (w_tank w)) ->
  nth_error (w_hs w) i = Some h -> 0 <= m -> (h_extOut h <= h_extIn h)%Z ->
  (forall w cond p, D cond -> getPerformance w h ext cond = Ok p -> 0 <= p_out p) ->
  domUp D (t_Ts (w_tank w)) \/ (h_multipass h = false /\ domTo D (Rmin (h_maxSet h) (w_setpoint w)) (t_Ts (w_tank w))) ->
  (if h_multipass h then 0 < h_mpFlow h else forall w f, fractToMeet w h = Ok f -> 0 <= f) ->
  extCall fuel i ext m h w = (Ok (rt, p), w') ->
  (exists Ts ci co ev sc, w' = extSt Ts ci co ev sc w) /\
  length (t_Ts (w_tank w')) = length (t_Ts (w_tank w)) /\ stratified (t_Ts (w_tank w')) /\
  0 <= rt <= m /\ 0 <= p_out p /\
  (forall lo hi, (forall (v : hpwh R) cond q, D cond -> getPerformance v h ext cond = Ok q -> lo <= p_in q + h_shxPump h <= hi) -> lo * rt <= p_in p * rt <= hi * rt) /\
  (forall lo hi, (forall (v : hpwh R) cond q, D cond -> getPerformance v h ext cond = Ok q -> lo <= p_out q <= hi) -> lo * rt <= p_out p * rt <= hi * rt) /\
  stored w' = stored w + 60 * (p_out p / 1000 * rt) /\
  (forall lo, (forall x, In x (t_Ts (w_tank w)) -> lo <= x) -> forall x, In x (t_Ts (w_tank w')) -> lo <= x) /\
  (h_multipass h = false -> forall lo hi, Rmin (h_maxSet h) (w_setpoint w) <= hi -> within lo hi (t_Ts (w_tank w)) ->
     within lo hi (t_Ts (w_tank w')) /\
     60 * (p_out p / 1000 * rt) <= CPWATER * DENSITYWATER * (w_extVol w' - w_extVol w) * (Rmin (h_maxSet h) (w_setpoint w) - lo)) /\
  (h_multipass h = true -> w_extVol w' - w_extVol w <= h_mpFlow h * 60 * rt /\
    ((forall w cond p, D cond -> getPerformance w h ext cond = Ok p -> 0 < p_out p) -> w_extVol w' - w_extVol w = h_mpFlow h * 60 * rt)).
Proof.
  intros Hwf Hd HS Hn Hm Hports HP HDm Hmp E. unfold extCall in E.
  assert (HE : exists a w1, extFinish m a w1 = (Ok (rt, p), w') /\ extDone w w1 (mkacc m 0 0 0) a /\ accBounds h ext D (mkacc m 0 0 0) a /\
     (h_multipass h = false -> forall lo hi, Rmin (h_maxSet h) (w_setpoint w) <= hi -> within lo hi (t_Ts (w_tank w)) ->
        within lo hi (t_Ts (w_tank w1)) /\
        60 / 1000 * (a_out a - 0) <= CPWATER * DENSITYWATER * (w_extVol w1 - w_extVol w) * (Rmin (h_maxSet h) (w_setpoint w) - lo)) /\
     (h_multipass h = true -> w_extVol w1 - w_extVol w <= h_mpFlow h * 60 * (m - a_rem a) /\
       ((forall w cond p, D cond -> getPerformance w h ext cond = Ok p -> 0 < p_out p) -> w_extVol w1 - w_extVol w = h_mpFlow h * 60 * (m - a_rem a)))).
  { destruct (h_multipass h).
    - unfold addHeatExternalMP in E. apply bind_inv in E. destruct E as (a & w1 & E1 & E). exists a, w1. num_simpl.
      assert (HU : domUp D (t_Ts (w_tank w))) by (destruct HDm as [?|[? _]]; [auto|discriminate]).
      destruct (extLoopMP_spec fuel i ext D h Hports Hmp HP fuel w (mkacc m 0 0 0) _ _ Hwf Hd HS Hn Hm HU E1) as (A & A2 & B & C). splits; auto; try discriminate.
    - unfold addHeatExternal in E.
      apply bind_inv in E. destruct E as (h0 & w1 & E0 & E). apply getHS_inv in E0. destruct E0 as [-> E0].
      rewrite Hn in E0. inversion E0; subst h0. clear E0.
      apply bind_inv in E. destruct E as (w0 & w1 & E0 & E). apply get_inv in E0. destruct E0 as [-> ->].
      apply bind_inv in E. destruct E as (a & w1 & E1 & E). exists a, w1.
      assert (Emin : nmin (h_maxSet h) (w_setpoint w) = Rmin (h_maxSet h) (w_setpoint w)).
      { unfold nmin. num_simpl. mm; rcase; lra. }
      rewrite Emin in E1. num_simpl.
      assert (HU : domUp D (t_Ts (w_tank w)) \/ domTo D (Rmin (h_maxSet h) (w_setpoint w)) (t_Ts (w_tank w))) by tauto.
      destruct (extLoopSP_spec fuel i ext _ D h Hports HP Hmp fuel w (mkacc m 0 0 0) _ _ Hwf Hd HS Hn Hm HU E1) as (A & A2 & B). cbn [a_out] in B. splits; auto; try discriminate. }
  destruct HE as (a & w1 & EF & [D0 D1 D2 D3 D4 D5 D6 D7 D8] & HI & HB & HM). cbn [a_rem a_out] in *.
  destruct (extFinish_spec _ _ _ _ _ _ EF) as (F1 & (ci & co & F2) & F3 & F4).
  assert (Hpr : p_out p * rt = a_out a).
  { destruct (Rlt_le_dec 0 rt) as [Hr|Hr]; [apply F3; auto|]. rewrite (F4 Hr). rewrite (D5 ltac:(lra)). lra. }
  destruct HI as (HI1 & HI2). cbn [a_rem a_in a_out] in HI1, HI2.
  assert (HIn : forall lo hi, (forall (v : hpwh R) cond q, D cond -> getPerformance v h ext cond = Ok q -> lo <= p_in q + h_shxPump h <= hi) -> lo * rt <= p_in p * rt <= hi * rt).
  { intros lo hi HH. specialize (HI1 lo hi HH). rewrite <- F1 in HI1. destruct (Rlt_le_dec 0 rt) as [Hr|Hr]; [destruct (F3 Hr) as (_ & ->); lra|].
    assert (rt = 0) by lra. nra. }
  assert (HOut : forall lo hi, (forall (v : hpwh R) cond q, D cond -> getPerformance v h ext cond = Ok q -> lo <= p_out q <= hi) -> lo * rt <= p_out p * rt <= hi * rt).
  { intros lo hi HH. specialize (HI2 lo hi HH). rewrite <- F1 in HI2. lra. }
  assert (HEq : 60 * (p_out p / 1000 * rt) = 60 / 1000 * (a_out a - 0)) by (rewrite <- Hpr; field).
  assert (ET : w_tank w' = w_tank w1 /\ w_extVol w' = w_extVol w1) by (rewrite F2; split; reflexivity).
  destruct ET as [ET EV]. rewrite ET, EV, HEq. rewrite F1 in HIn, HOut |- *. splits; auto; try lra.
  - destruct D0 as (Ts & ci0 & co0 & ev & sc & D0). exists Ts, ci, co, ev, sc. rewrite F2, D0. destruct w; reflexivity.
  - destruct (Rlt_le_dec 0 rt) as [Hr|Hr].
    + assert (0 <= p_out p * rt) by lra. apply (Rmult_le_reg_r rt); lra.
    + rewrite (F4 Hr). auto.
Qed.
