(** Proofs that steps of a well-configured unit succeed: no exception, no undefined behaviour and no
    endless loop. *)

From Coq Require Import ZArith String List Bool Reals Lra Lia.
From Verif Require Import Num Base Units Types Utils TankM Logic HeatSrc Step Spec SpecState SpecDist SpecEnergy SpecStep RList.
From Verif Require Import FrameProofs SimFrame MixProofs DrawProofs TankProofs StandbyProofs HeatProofs ControlProofs SeqProofs DistProofs AvgProofs EnergyProofs ExtProofs StepEnergy WholeStep TankFacts.
Import ListNotations.
Local Open Scope R_scope.

Definition succ {S A} (m : M S A) (s : S) : Prop := exists a s', m s = (Ok a, s').

Lemma succ_bind {S A B} (m : M S A) (f : A -> M S B) s :
  succ m s -> (forall a s', m s = (Ok a, s') -> succ (f a) s') -> succ (bind m f) s.
Proof. intros (a & s' & E) HF. destruct (HF a s' E) as (b & s2 & E2). exists b, s2. unfold bind. rewrite E. exact E2. Qed.
Lemma succ_ret {S A} (a : A) (s : S) : succ (ret a) s.
Proof. unfold succ, ret. eauto. Qed.
Lemma succ_get {S} (s : S) : succ get s.
Proof. unfold succ, get. eauto. Qed.
Lemma succ_modify {S} f (s : S) : succ (modify f) s.
Proof. unfold succ, modify. eauto. Qed.
Lemma succ_lift {S A} (o : outc A) a (s : S) : o = Ok a -> succ (lift o) s.
Proof. intros ->. unfold succ, lift. eauto. Qed.
Lemma succ_when {S} b (m : M S unit) s : (b = true -> succ m s) -> succ (when b m) s.
Proof. destruct b; cbn; auto. intros _. apply succ_ret. Qed.

Notation W := (hpwh R).

Lemma nth_lt {A} (l : list A) i : (i < length l)%nat -> exists x, nth_error l i = Some x.
Proof. intros H. destruct (nth_error l i) eqn:E; eauto. apply nth_error_None in E. lia. Qed.
Lemma succ_getHS i (w : W) : (i < length (w_hs w))%nat -> succ (getHS i) w.
Proof. intros H. destruct (nth_lt _ _ H) as [h E]. unfold succ, getHS. rewrite E. eauto. Qed.
Lemma succ_askHS {A} i (q : W -> hsrc R -> outc A) (w : W) : (i < length (w_hs w))%nat ->
  (forall h, nth_error (w_hs w) i = Some h -> exists a, q w h = Ok a) -> succ (askHS i q) w.
Proof.
  intros H HQ. destruct (nth_lt _ _ H) as [h E]. destruct (HQ h E) as [a Ea]. exists a, w.
  unfold askHS, bind, getHS, get, lift. rewrite E, Ea. reflexivity.
Qed.
Lemma succ_modHS i f (w : W) : succ (modHS i f) w.
Proof. apply succ_modify. Qed.

(** ** Queries *)
Lemma tankValue_ok (w : W) l : (0 < length (t_Ts (w_tank w)))%nat -> logicReady (w_haveInletT w) l -> exists v, l_tankValue w l = Ok v.
Proof.
  intros Hn HL. destruct l as [s d dp ia c h1 st|s dp hy tm cm m c st]; cbn [l_tankValue logicReady] in *.
  - unfold averageT_distribution. destruct (t_Ts (w_tank w)) as [|x r] eqn:ET; [cbn in Hn; lia|]. rewrite <- ET in Hn.
    destruct (d_type d); eauto. rewrite averageT_wdist_eq; eauto.
  - destruct HL as [->| ->]; cbn; rewrite ?andb_false_r; eauto.
Qed.
Lemma met_ok (w : W) l : (0 < length (t_Ts (w_tank w)))%nat -> logicReady (w_haveInletT w) l -> exists b, l_met w l = Ok b.
Proof. intros Hn HL. destruct (tankValue_ok w l Hn HL) as [v E]. unfold l_met. rewrite E. cbn. eauto. Qed.
Lemma anyMet_ok (w : W) ls : (0 < length (t_Ts (w_tank w)))%nat -> Forall (logicReady (w_haveInletT w)) ls -> forall acc, exists b, anyMet w ls acc = Ok b.
Proof.
  intros Hn. induction 1 as [|l ls HL HF IH]; intros acc; cbn [anyMet]; eauto.
  destruct (met_ok w l Hn HL) as [b E]. rewrite E. cbn. apply IH.
Qed.
Lemma shutsOff_ok (w : W) h : (0 < length (t_Ts (w_tank w)))%nat -> Forall (logicReady (w_haveInletT w)) (h_shutOff h) -> exists b, shutsOff w h = Ok b.
Proof.
  intros Hn HF. unfold shutsOff. destruct (t_Ts (w_tank w)) as [|x r] eqn:ET; [cbn in Hn; lia|]. rewrite <- ET in Hn.
  num_simpl. destruct (Rleb _ _); eauto. apply anyMet_ok; auto.
Qed.
Lemma wantsHeat_ok (w : W) stby ls : (0 < length (t_Ts (w_tank w)))%nat -> Forall (logicReady (w_haveInletT w)) ls ->
  (forall l, stby = Some l -> logicReady (w_haveInletT w) l) -> exists b, wantsHeat w stby ls = Ok b.
Proof.
  intros Hn HF HS. induction HF as [|l ls HL HF IH]; cbn [wantsHeat]; eauto.
  destruct (met_ok w l Hn HL) as [b E]. rewrite E. cbn [obind]. destruct IH as [b' IH].
  destruct b; cbn [obind]; [|rewrite IH; eauto]. destruct stby as [s|]; cbn [obind]; eauto.
  destruct (l_checksStandby l); cbn [obind]; eauto. destruct (tankValue_ok w s Hn (HS _ eq_refl)) as [v Ev]. rewrite Ev. cbn [obind].
  destruct (compare _ _ _); eauto.
Qed.
Lemma shouldHeat_ok {X : Prop} (w : W) k sp air D h : (0 < length (t_Ts (w_tank w)))%nat -> srcReadyX X k (w_haveInletT w) sp air D h -> exists b, shouldHeat w h = Ok b.
Proof.
  intros Hn HS. unfold shouldHeat.
  destruct (wantsHeat_ok w (h_standby h) (h_turnOn h) Hn (sy_on HS) (sy_stby HS)) as [b E]. rewrite E. cbn [obind].
  destruct b; eauto. destruct (shutsOff_ok w h Hn (sy_off HS)) as [c E2]. rewrite E2. cbn. eauto.
Qed.
Lemma maxedOut_no {X : Prop} (w : W) k air D h : srcReadyX X k (w_haveInletT w) (w_setpoint w) air D h -> maxedOut w h = Ok false.
Proof.
  intros HS. unfold maxedOut. destruct (h_type h) eqn:Et; auto. pose proof (sy_max HS Et). num_simpl.
  destruct (Rltb _ _) eqn:E; bcase; auto. lra.
Qed.

(** ** Preservation of readiness *)
Lemma srcReady_hframe {X : Prop} k have sp sp' air D h h' : hframe h h' -> sp' <= sp -> srcReadyX X k have sp air D h -> srcReadyX X k have sp' air D h'.
Proof.
  intros HF Hs HS. unfold hframe in HF. rewrite HF. clear HF.
  destruct HS as [A1 A2 A3 A4 A5 A6 A7 A8 A9 A10 A11 A12 A13]. constructor; wsimpl; auto.
  intros Ht. specialize (A11 Ht). lra.
Qed.
Lemma unitReady_frame {X : Prop} air D (w w' : W) : Forall2 hframe (w_hs w) (w_hs w') -> w_haveInletT w' = w_haveInletT w -> w_setpoint w' <= w_setpoint w ->
  w_compIx w' = w_compIx w -> w_lowIx w' = w_lowIx w -> w_vipIx w' = w_vipIx w -> w_usesSoC w' = w_usesSoC w ->
  unitReadyX X air D w -> unitReadyX X air D w'.
Proof.
  intros HF Hh Hs H1 H2 H3 H4 [A1 A2 A3 A4 A5]. pose proof (Forall2_length _ _ _ HF) as HL.
  constructor; unfold socReady in *; rewrite ?Hh, ?H1, ?H2, ?H3, ?H4, <- ?HL; auto.
  - eapply Forall2_Forall; [exact HF| |exact A1]. cbn. intros x y Hxy. apply srcReady_hframe; auto.
  - intros HU. destruct (A5 HU) as (h & B1 & B2 & B3). destruct (Forall2_nth _ _ _ _ _ HF B2) as (h' & C1 & C2).
    exists h'. splits; auto. unfold hframe in C2. rewrite C2. exact B3.
Qed.
Lemma unitReady_cframe {X : Prop} air D (w w' : W) : cframe noP w w' -> w_setpoint w' <= w_setpoint w -> unitReadyX X air D w -> unitReadyX X air D w'.
Proof.
  intros (HF & _ & HW) Hs. apply unitReady_frame; auto; try (rewrite HW; reflexivity).
  eapply Forall2_impl'; [|exact HF]. cbn. tauto.
Qed.
Lemma unitReady_oframe {X : Prop} air D (w w' : W) : oframe w w' -> unitReadyX X air D w -> unitReadyX X air D w'.
Proof.
  intros HO. apply unitReady_cframe; [apply oframe_cframe; auto|]. destruct HO as [_ ->]. apply Rle_refl.
Qed.
Lemma ready_nth {X : Prop} air D (w : W) i h : unitReadyX X air D w -> nth_error (w_hs w) i = Some h -> srcReadyX X (length (w_hs w)) (w_haveInletT w) (w_setpoint w) air D h.
Proof. intros [A _ _ _ _] E. rewrite Forall_forall in A. apply A. eapply nth_error_In; eauto. Qed.

Definition can (X : Prop) (air : R) (D : R -> Prop) (w : W) : Prop := unitReadyX X air D w /\ (0 < length (t_Ts (w_tank w)))%nat.
Lemma can_oframe {X : Prop} air D (w w' : W) : oframe w w' -> can X air D w -> can X air D w'.
Proof. intros HO [A B]. split; [eapply unitReady_oframe; eauto|]. destruct HO as [_ ->]. exact B. Qed.
Lemma can_pres {X : Prop} air D {A} (m : M W A) w a w' : pres oframe m -> m w = (Ok a, w') -> can X air D w -> can X air D w'.
Proof. intros HP E. apply can_oframe. eapply pres_Ok; eauto. Qed.

Lemma ask_shutsOff {X : Prop} air D i (w : W) : can X air D w -> (i < length (w_hs w))%nat -> succ (askHS i shutsOff) w.
Proof.
  intros [HC Hn] Hi. apply succ_askHS; auto. intros h E. apply shutsOff_ok; auto. apply (sy_off (ready_nth _ _ _ _ _ HC E)).
Qed.
Lemma ask_shouldHeat {X : Prop} air D i (w : W) : can X air D w -> (i < length (w_hs w))%nat -> succ (askHS i shouldHeat) w.
Proof. intros [HC Hn] Hi. apply succ_askHS; auto. intros h E. eapply shouldHeat_ok; auto. eapply ready_nth; eauto. Qed.
Lemma ask_maxedOut {X : Prop} air D i (w : W) : can X air D w -> (i < length (w_hs w))%nat -> succ (askHS i maxedOut) w.
Proof. intros [HC Hn] Hi. apply succ_askHS; auto. intros h E. exists false. eapply maxedOut_no. eapply ready_nth; eauto. Qed.

(** ** Switching *)
Definition offs (hs : list (hsrc R)) : nat := length (filter (fun h => negb (h_on h)) hs).
Lemma offs_on hs : forall i h, nth_error hs i = Some h ->
  (offs (upd hs i (set_h_on true h)) + (if h_on h then 0 else 1) = offs hs)%nat.
Proof.
  unfold offs. induction hs as [|x hs IH]; intros [|i] h E; cbn in E; try discriminate.
  - inversion E; subst. cbn. destruct (h_on h); cbn; lia.
  - cbn [upd filter]. specialize (IH i h E). destruct (negb (h_on x)); cbn [length]; lia.
Qed.
Lemma offs_le hs : (offs hs <= length hs)%nat.
Proof. unfold offs. induction hs; cbn; [lia|]. destruct (negb (h_on a)); cbn; lia. Qed.

Lemma modHS_on_oframe i b : pres oframe (modHS (T:=R) i (set_h_on b)).
Proof. apply modHS_oframe. intros. apply set_on_oframe. Qed.

Lemma engage_succ {X : Prop} air D dr : forall fuel i (w : W) h, can X air D w -> nth_error (w_hs w) i = Some h ->
  ((h_on h = false /\ offs (w_hs w) <= fuel) \/ offs (w_hs w) < fuel)%nat -> succ (engage fuel i dr) w.
Proof.
  induction fuel as [|fuel IH]; intros i w h HC Hn Hf.
  { exfalso. destruct Hf as [[H1 H2]|H2]; [|lia]. pose proof (offs_on _ _ _ Hn) as HO. rewrite H1 in HO. lia. }
  assert (Hi : (i < length (w_hs w))%nat) by (apply nth_error_Some; congruence).
  cbn [engage]. apply succ_bind; [apply succ_getHS; auto|]. intros h0 w0 E0. apply getHS_inv in E0. destruct E0 as [-> E0].
  rewrite Hn in E0. inversion E0; subst h0. clear E0.
  apply succ_bind; [apply succ_modHS|]. intros [] w1 E1.
  assert (HC1 : can X air D w1) by (eapply can_pres; [apply modHS_on_oframe|exact E1|auto]).
  apply (modHS_inv i _ _ _ h) in E1; auto.
  apply succ_bind; [apply succ_modify|]. intros [] w2 E2. apply modify_inv in E2.
  assert (HC2 : can X air D w2) by (rewrite E2; eapply can_oframe; [apply set_heating_oframe|auto]).
  assert (Hhs : w_hs w2 = upd (w_hs w) i (set_h_on true h)) by (rewrite E2, E1; reflexivity).
  destruct (h_companion h) as [c|] eqn:Ec; [|apply succ_ret].
  assert (Hc : (c < length (w_hs w2))%nat).
  { rewrite Hhs, upd_length. apply (sy_companion (ready_nth _ _ _ _ _ (proj1 HC) Hn)). auto. }
  apply succ_bind; [eapply ask_shutsOff; eauto|]. intros off w3 E3. apply askHS_inv in E3. destruct E3 as [-> _].
  destruct off; [apply succ_ret|].
  apply succ_bind; [apply succ_getHS; auto|]. intros hc w4 E4. apply getHS_inv in E4. destruct E4 as [-> E4].
  destruct (h_on hc) eqn:Eon; cbn [orb]; [apply succ_ret|]. destruct (shouldDRLockOut _ _); [apply succ_ret|].
  eapply IH; eauto. left. split; auto. rewrite Hhs. pose proof (offs_on _ _ _ Hn) as HO. destruct Hf as [[H1 H2]|H2].
  - rewrite H1 in HO. lia.
  - lia.
Qed.
Lemma engageHS_succ {X : Prop} air D i dr (w : W) : can X air D w -> (i < length (w_hs w))%nat -> succ (engageHS i dr) w.
Proof.
  intros HC Hi. unfold engageHS. apply succ_bind; [apply succ_get|]. intros w0 w1 E. apply get_inv in E. destruct E as [-> ->].
  destruct (nth_lt _ _ Hi) as [h E]. eapply engage_succ; eauto. right. pose proof (offs_le (w_hs w)). unfold numHS. lia.
Qed.
Lemma engageIx_succ {X : Prop} air D ix dr (w : W) : can X air D w -> (0 <= ix < Z.of_nat (length (w_hs w)))%Z -> succ (engageIx ix dr) w.
Proof.
  intros HC Hi. unfold engageIx. destruct (Z.ltb ix 0) eqn:E; [apply Z.ltb_lt in E; lia|]. eapply engageHS_succ; eauto. lia.
Qed.

(** ** Heating *)
Lemma dist_ok {X : Prop} fuel k have sp air D n (w : W) h : srcReadyX X k have sp air D h -> srcOK n air D h -> n = length (t_Ts (w_tank w)) ->
  (0 < n)%nat -> (n < fuel)%nat -> (h_type h = TCompressor -> h_config h <> External) ->
  exists d, calcHeatDist fuel w h = Ok d /\ shares n d.
Proof.
  intros HR HO En Hn Hf HCf. unfold calcHeatDist, numNodes. rewrite <- En. pose proof (sy_dist HR) as HG.
  assert (HB : exists d, calcHeatDist_base (h_dist h) n = Ok d /\ shares n d).
  { exists (nodeWeights (h_dist h) n). split; [apply calcHeatDist_base_ok; auto|apply nodeWeights_shares; auto]. }
  destruct (h_type h) eqn:Et; auto. pose proof (HCf eq_refl) as HC. pose proof (sy_shrink HR Et) as HS.
  pose proof (so_nodes _ _ _ _ HO) as HN. destruct (h_config h) eqn:Ec; auto; [|congruence].
  destruct (calcThermalDist_ok fuel (h_shrink h) (h_lowest h) (t_Ts (w_tank w)) (w_setpoint w)) as [d Ed]; auto; [lia|].
  exists d. split; auto. rewrite En. eapply calcThermalDist_spec; eauto; [lia|].
  rewrite <- En. specialize (HN eq_refl). unfold TOL_MINVALUE, dec. num_simpl. lra.
Qed.
Lemma heatNodes_succ fuel h cap mx (w : W) d : calcHeatDist fuel w h = Ok d -> shares (length (t_Ts (w_tank w))) d -> succ (heatNodes fuel h cap mx) w.
Proof.
  intros Ed Hd. unfold heatNodes. apply succ_bind; [apply succ_get|]. intros w0 w1 E. apply get_inv in E. destruct E as [-> ->].
  apply succ_bind; [eapply succ_lift; eauto|]. intros d' w1 E. apply lift_inv in E. destruct E as [-> E]. rewrite Ed in E. inversion E; subst d'. clear E.
  pose proof Hd as (L & _ & _).
  assert (exists m, maxElement d = Ok m) as [m Em].
  { destruct d; [|cbn; eauto]. destruct Hd as (_ & _ & H). unfold Rsum in H. cbn in H. lra. }
  apply succ_bind; [eapply succ_lift; eauto|]. intros m' w1 E. apply lift_inv in E. destruct E as [-> E]. rewrite Em in E. inversion E; subst m'. clear E.
  pose proof (shares_max_pos _ _ _ Hd Em). num_simpl. replace (Reqb' m 0) with false by (symmetry; apply Reqb'_false; lra). cbn [negb].
  destruct (Nat.ltb_spec (length d) (numNodes (w_tank w))) as [HL|_]; [unfold numNodes in HL; lia|].
  destruct (heatLoop _ _ _ _ _ _ _ _) as [lft Ts]. apply succ_bind; [apply succ_modify|]. intros. apply succ_ret.
Qed.
Lemma div_ok (a b : R) : b <> 0 -> div_chk a b = Ok (a / b).
Proof. intros Hb. unfold div_chk. num_simpl. replace (Reqb' b 0) with false by (symmetry; apply Reqb'_false; auto). reflexivity. Qed.

Lemma addHeatRes_succ fuel i m (w : W) h d : wf_tank (w_tank w) -> stratified (t_Ts (w_tank w)) ->
  nth_error (w_hs w) i = Some h -> 0 < h_power h -> 0 < m ->
  calcHeatDist fuel w h = Ok d -> shares (length (t_Ts (w_tank w))) d -> succ (addHeatRes fuel i m) w.
Proof.
  intros Hwf Hs Hn HP Hm Ed Hd. unfold addHeatRes.
  assert (Hi : (i < length (w_hs w))%nat) by (apply nth_error_Some; congruence).
  apply succ_bind; [apply succ_getHS; auto|]. intros h0 w0 E0. apply getHS_inv in E0. destruct E0 as [-> E0]. rewrite Hn in E0. inversion E0; subst h0. clear E0.
  apply succ_bind. { apply succ_askHS; auto. intros h0 E0. rewrite Hn in E0. inversion E0; subst h0. rewrite Ed. cbn. eauto. }
  intros [] w0 E0. apply askHS_inv in E0. destruct E0 as [-> _]. cbv zeta.
  assert (Hcap : 0 < h_power h * (m * sec_per_min)) by (unfold sec_per_min; num_simpl; apply Rmult_lt_0_compat; lra).
  num_simpl. set (cap := h_power h * (m * sec_per_min)) in *.
  apply succ_bind; [eapply heatNodes_succ; eauto|]. intros lft w1 E1.
  destruct (heatNodes_spec _ _ _ _ _ _ _ _ Hwf Hs (Rlt_le _ _ Hcap) Ed Hd E1) as (Ts' & A1 & A2 & _).
  apply succ_bind; [eapply succ_lift; apply div_ok; lra|]. intros q w2 E2. apply lift_inv in E2. destruct E2 as [-> E2].
  rewrite div_ok in E2 by lra. inversion E2; subst q. clear E2.
  apply succ_bind; [apply succ_modHS|]. intros [] w2 E2.
  assert (Hq := frac_le lft cap Hcap A2).
  assert (Hrt : 0 <= (1 - lft / cap) * m) by (apply Rmult_le_pos; lra).
  pose proof tol_pos. replace (Rltb _ _) with false by (symmetry; apply Rltb_false; lra). apply succ_modHS.
Qed.

Lemma addHeatIntegrated_succ fuel i ext m (D : R -> Prop) (w : W) h d : wf_tank (w_tank w) -> stratified (t_Ts (w_tank w)) ->
  nth_error (w_hs w) i = Some h -> 0 < m -> goodDist (h_dist h) ->
  (forall (w : W) cond, D cond -> exists p, getPerformance w h ext cond = Ok p /\ 0 < p_out p) ->
  (forall c, hsTankTemp w h = Ok c -> D c) ->
  calcHeatDist fuel w h = Ok d -> shares (length (t_Ts (w_tank w))) d -> succ (addHeatIntegrated fuel i ext m) w.
Proof.
  intros Hwf Hs Hn Hm HG HP HDc Ed Hd. unfold addHeatIntegrated.
  pose proof (wf_n _ Hwf) as Hn0.
  assert (Hi : (i < length (w_hs w))%nat) by (apply nth_error_Some; congruence).
  apply succ_bind; [apply succ_getHS; auto|]. intros h0 w0 E0. apply getHS_inv in E0. destruct E0 as [-> E0]. rewrite Hn in E0. inversion E0; subst h0. clear E0.
  apply succ_bind. { apply succ_askHS; auto. intros h0 E0. rewrite Hn in E0. inversion E0; subst h0. unfold hsTankTemp. rewrite averageT_wdist_eq; eauto. }
  intros tIn w0 E0. apply askHS_inv in E0. destruct E0 as (-> & h0 & E0 & EA). rewrite Hn in E0. inversion E0; subst h0. clear E0. specialize (HDc tIn EA).
  apply succ_bind; [apply succ_modify|]. intros [] w1 E1. apply modify_inv in E1.
  assert (T1 : w_tank w1 = w_tank w) by (rewrite E1; reflexivity). assert (S1 : w_hs w1 = w_hs w) by (rewrite E1; reflexivity).
  assert (D1 : calcHeatDist fuel w1 h = Ok d) by (rewrite E1; exact Ed). clear E1.
  destruct (HP w1 tIn HDc) as (p & Ep & Hp).
  apply succ_bind. { apply succ_askHS; [rewrite S1; auto|]. intros h0 E0. rewrite S1, Hn in E0. inversion E0; subst h0. eauto. }
  intros p0 w2 E2. apply askHS_inv in E2. destruct E2 as (-> & h0 & E2 & E3). rewrite S1, Hn in E2. inversion E2; subst h0. rewrite Ep in E3. inversion E3; subst p0. clear E2 E3.
  cbv zeta.
  assert (Hcap : 0 < W_TO_KW (p_out p) * (60 * m)).
  { unfold W_TO_KW. num_simpl. apply Rmult_lt_0_compat; lra. }
  num_simpl. set (cap := W_TO_KW (p_out p) * (60 * m)) in *.
  assert (Hd1 : shares (length (t_Ts (w_tank w1))) d) by (rewrite T1; auto).
  apply succ_bind; [eapply heatNodes_succ; eauto|]. intros lft w2 E2.
  destruct (heatNodes_spec fuel h cap (h_maxSet h) w1 lft w2 d) as (Ts' & A1 & A2 & A3 & A4 & _); rewrite ?T1; auto; [lra|].
  apply succ_bind; [eapply succ_lift; apply div_ok; lra|]. intros q w3 E3. apply lift_inv in E3. destruct E3 as [-> E3].
  rewrite div_ok in E3 by lra. inversion E3; subst q. clear E3.
  assert (S2 : w_hs w2 = w_hs w) by (rewrite A1, <- S1; reflexivity).
  assert (T2 : t_Ts (w_tank w2) = Ts') by (rewrite A1; reflexivity).
  apply succ_bind; [apply succ_modHS|]. intros [] w3 E3. apply (modHS_inv i _ _ _ h) in E3; [|rewrite S2; auto].
  assert (Hq := frac_le lft cap Hcap A2).
  assert (Hrt : 0 <= (1 - lft / cap) * m) by (apply Rmult_le_pos; lra).
  pose proof tol_pos. replace (Rltb _ _) with false by (symmetry; apply Rltb_false; lra).
  apply succ_bind.
  { destruct A4 as [L _]. rewrite T1 in L.
    apply succ_askHS. { rewrite E3. wsimpl. rewrite upd_length, S2. auto. }
    intros h0 E0. assert (h_dist h0 = h_dist h) as Eh.
    { rewrite E3 in E0. wsimpl_in E0. rewrite (nth_upd_eq _ _ _ h) in E0 by (rewrite S2; auto). inversion E0. reflexivity. }
    unfold hsTankTemp. rewrite Eh, averageT_wdist_eq; eauto.
    rewrite E3. wsimpl. rewrite T2. lia. }
  intros tOut w4 _. apply succ_bind; [apply succ_modify|]. intros. apply succ_modHS.
Qed.

