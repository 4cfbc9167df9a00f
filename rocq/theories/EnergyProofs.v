(** Energy accounting of the heat sources at the reals. *)

From Coq Require Import ZArith List Bool Reals Lra Lia.
From Verif Require Import Num Base Units Types Utils TankM Logic HeatSrc Step Spec SpecState SpecDist RList
  MixProofs DrawProofs TankProofs HeatProofs DistProofs FrameProofs SimFrame ControlProofs.
Import ListNotations.
Local Open Scope R_scope.

(** a profile that is nowhere cooler, and nowhere hotter than [m] or what it was *)
Definition warmed (m : R) (Ts Ts' : list R) : Prop :=
  length Ts' = length Ts /\
  forall j, (j < length Ts)%nat -> node Ts j <= node Ts' j <= Rmax (node Ts j) m.

Lemma warmed_refl m Ts : warmed m Ts Ts.
Proof. split; auto. intros. mm; lra. Qed.
Lemma warmed_trans m a b c : warmed m a b -> warmed m b c -> warmed m a c.
Proof.
  intros [A1 A2] [B1 B2]. split; [lia|]. intros j Hj. specialize (A2 j Hj). specialize (B2 j ltac:(lia)). mm; lra.
Qed.
Lemma filled_warmed nd L m Ts Ts' : stratified_from nd Ts -> filled nd L Ts Ts' -> (L <= m \/ L <= node Ts nd) -> warmed m Ts Ts'.
Proof.
  intros HS [H1 H2] HL. split; auto. intros j Hj. rewrite H2 by auto. destruct (Nat.leb_spec nd j); [|mm; lra].
  assert (node Ts nd <= node Ts j) by (apply (stratified_from_le nd); auto; lia). mm; lra.
Qed.
Lemma filled_stratified nd L Ts Ts' : stratified Ts -> filled nd L Ts Ts' -> (forall j, (j < length Ts)%nat -> node Ts j <= node Ts' j) -> stratified Ts'.
Proof.
  intros HS [H1 H2] _ i Hi. rewrite H1 in Hi. rewrite !H2 by lia. pose proof (HS i Hi).
  destruct (Nat.leb_spec nd i); destruct (Nat.leb_spec nd (S i)); try lia; mm; lra.
Qed.

Section HeatLoop.
  Variables (cp cap mw maxT : R) (dist : list R).
  Hypothesis Hcp : 0 < cp.
  Hypothesis Hcap : 0 <= cap.
  Hypothesis Hmw : 0 < mw.
  Hypothesis Hd : forall x, In x dist -> 0 <= x <= mw.

  Lemma dist_node i : (i < length dist)%nat -> 0 <= node dist i <= mw.
  Proof. intros. apply Hd, node_In; auto. Qed.

  Lemma heatLoop_spec : forall k lft Ts lft' Ts', (k <= length Ts)%nat -> length dist = length Ts -> 0 <= lft ->
    stratified Ts -> heatLoop cp cap mw maxT dist k lft Ts = (lft', Ts') ->
    0 <= lft' /\ stratified Ts' /\ warmed maxT Ts Ts' /\
    cp * Rsum Ts' + lft' = cp * Rsum Ts + lft + cap * bsum (node dist) k /\
    (0 < lft' -> 0 < lft \/ exists i, (i < k)%nat /\ 0 < node dist i /\ maxT <= node Ts' i).
  Proof.
    induction k as [|k IH]; intros lft Ts lft' Ts' Hk HL Hl HS E; cbn [heatLoop] in E.
    - injection E as <- <-. cbn [bsum]. splits; auto; [apply warmed_refl|lra].
    - cbv zeta in E. num_simpl. gn. pose proof (dist_node k ltac:(lia)) as Hdk. set (d := node dist k) in *.
      assert (Hf : 0 <= d / mw <= 1).
      { split; [apply Rmult_le_pos; [lra|left; apply Rinv_0_lt_compat; auto]|].
        apply (Rmult_le_reg_r mw); auto. unfold Rdiv. rewrite Rmult_assoc, Rinv_l by lra. lra. }
      set (wh := (1 - d / mw) * (1 - d / mw) * lft) in *.
      assert (Hwh : 0 <= wh <= lft).
      { assert (0 <= (1 - d / mw) * (1 - d / mw) <= 1) by (split; nra). unfold wh. split; [apply Rmult_le_pos; lra|].
        rewrite <- (Rmult_1_l lft) at 2. apply Rmult_le_compat_r; lra. }
      assert (Hdc : 0 <= d * cap) by (apply Rmult_le_pos; lra).
      cbn [bsum]. fold d.
      destruct (Rltb 0 (d * cap + (lft - wh))) eqn:EA; bcase.
      + assert (Hdp : 0 < d).
        { destruct (Rle_lt_dec d 0) as [Hz|]; auto. exfalso. assert (Hd0 : d = 0) by lra.
          unfold wh in EA. rewrite Hd0 in EA. unfold Rdiv in EA. rewrite Rmult_0_l in EA. lra. }
        destruct (addHeatAboveNode_list cp (d * cap + (lft - wh)) k maxT Ts) as [q Ts1] eqn:E1.
        destruct (addHeatAboveNode_spec cp maxT k Hcp (d * cap + (lft - wh)) Ts q Ts1) as (A1 & A2 & (L & A3 & A3') & A4); auto; try lia; try lra.
        { intros i Hi Hi2. apply HS; auto. }
        assert (HW : warmed maxT Ts Ts1) by (eapply filled_warmed; eauto; intros i Hi Hi2; apply HS; auto).
        assert (HS1 : stratified Ts1) by (eapply filled_stratified; eauto; intros; apply HW; auto).
        destruct HW as [HW1 HW2].
        destruct (IH (q + wh) Ts1 lft' Ts') as (B1 & B2 & B3 & B4 & B5); auto; try lia; try lra.
        splits; auto.
        * eapply warmed_trans; eauto. split; auto.
        * lra.
        * intros HP. destruct (B5 HP) as [B6|(i & Hi & Hi2 & Hi3)].
          -- destruct (Rlt_dec 0 q) as [Hq|Hq].
             ++ right. exists k. splits; auto. specialize (A4 Hq). destruct B3 as [_ B3]. specialize (B3 k ltac:(lia)). lra.
             ++ left. lra.
          -- right. exists i. splits; auto.
      + destruct (IH lft Ts lft' Ts') as (B1 & B2 & B3 & B4 & B5); auto; try lia.
        splits; auto.
        * assert (d * cap = 0) by lra. lra.
        * intros HP. destruct (B5 HP) as [B6|(i & Hi & Hi2 & Hi3)]; auto. right. exists i. splits; auto.
  Qed.
End HeatLoop.

(** what one call of heat() does, whatever distribution of node shares it uses *)
Lemma heatNodes_spec fuel h cap maxSet (w : hpwh R) lft w' d : wf_tank (w_tank w) -> stratified (t_Ts (w_tank w)) ->
  0 <= cap -> calcHeatDist fuel w h = Ok d -> shares (length (t_Ts (w_tank w))) d ->
  heatNodes fuel h cap maxSet w = (Ok lft, w') ->
  exists Ts', w' = set_w_tank (set_t_Ts Ts' (w_tank w)) w /\ 0 <= lft <= cap /\ stratified Ts' /\
    warmed (Rmin maxSet (w_setpoint w)) (t_Ts (w_tank w)) Ts' /\
    t_nodeCp (w_tank w) * Rsum Ts' = t_nodeCp (w_tank w) * Rsum (t_Ts (w_tank w)) + (cap - lft) /\
    (0 < lft -> exists i, (i < length Ts')%nat /\ 0 < node d i /\ Rmin maxSet (w_setpoint w) <= node Ts' i).
Proof.
  intros Hwf HS Hc Ed HD E. unfold heatNodes in E.
  apply bind_inv in E. destruct E as (w0 & w1 & E0 & E). apply get_inv in E0. destruct E0 as [-> ->].
  apply bind_inv in E. destruct E as (d0 & w1 & E0 & E). apply lift_inv in E0. destruct E0 as [-> E0].
  rewrite Ed in E0. inversion E0; subst d0. clear E0.
  apply bind_inv in E. destruct E as (mw & w1 & E0 & E). apply lift_inv in E0. destruct E0 as [-> E0].
  destruct (ndivok mw); [|discriminate].
  destruct (Nat.ltb (length d) (numNodes (w_tank w))); [discriminate|].
  rewrite (surjective_pairing (heatLoop _ _ _ _ _ _ _ _)) in E.
  destruct (heatLoop _ _ _ _ _ _ _ _) as [l Ts'] eqn:EL in E. cbn [fst snd] in E.
  apply bind_inv in E. destruct E as ([] & w1 & E1 & E). apply modify_inv in E1.
  apply ret_inv in E. destruct E as [-> ->]. exists Ts'. split; [exact E1|].
  pose proof (shares_max_pos _ _ _ HD E0) as Hmw. apply maxElement_spec in E0. destruct E0 as [_ HM].
  destruct HD as (D1 & D2 & D3). unfold numNodes in EL.
  assert (Emin : nmin maxSet (w_setpoint w) = Rmin maxSet (w_setpoint w)).
  { unfold nmin. num_simpl. mm; rcase; lra. }
  rewrite Emin in EL.
  destruct (heatLoop_spec (t_nodeCp (w_tank w)) cap mw (Rmin maxSet (w_setpoint w)) d (wf_nodeCp_pos _ Hwf) Hc Hmw
    (fun x Hx => conj (D2 x Hx) (HM x Hx)) _ _ _ _ _ (le_n _) D1 (Rle_refl 0) HS EL) as (A1 & A2 & A3 & A4 & A5).
  assert (AS : cap * bsum (node d) (length (t_Ts (w_tank w))) = cap) by (rewrite <- D1, <- Rsum_bsum, D3; ring).
  rewrite AS in A4.
  assert (HG : Rsum (t_Ts (w_tank w)) <= Rsum Ts').
  { destruct A3 as [A3 A3']. rewrite !Rsum_bsum, A3. apply bsum_le. intros k Hk. apply A3'; auto. }
  pose proof (wf_nodeCp_pos _ Hwf) as Hcp.
  splits; auto; try lra.
  - assert (t_nodeCp (w_tank w) * Rsum (t_Ts (w_tank w)) <= t_nodeCp (w_tank w) * Rsum Ts') by (apply Rmult_le_compat_l; lra). lra.
  - intros HP. destruct (A5 HP) as [|(i & Hi & Hi2 & Hi3)]; [lra|]. exists i. splits; auto.
    destruct A3 as [A3 _]. rewrite A3. auto.
Qed.

Lemma modHS_inv i f (w : hpwh R) w' h : nth_error (w_hs w) i = Some h -> modHS i f w = (Ok tt, w') ->
  w' = set_w_hs (upd (w_hs w) i (f h)) w.
Proof. intros Eh E. unfold modHS in E. apply modify_inv in E. subst. unfold updHS. rewrite Eh. reflexivity. Qed.
Lemma upd_upd {A} (l : list A) i x y : upd (upd l i x) i y = upd l i y.
Proof. revert i; induction l; intros [|i]; cbn; auto. f_equal; auto. Qed.
Lemma nth_upd_eq {A} (l : list A) i x h : nth_error l i = Some h -> nth_error (upd l i x) i = Some x.
Proof. revert i; induction l; intros [|i] E; cbn in *; try discriminate; auto. Qed.

(** the state after source [i] ran for [rt] minutes, taking [eIn] kWh and giving [eOut] kWh to the water *)
Definition ran (i : nat) (h : hsrc R) (rt eIn eOut : R) (Ts : list R) (w : hpwh R) : hpwh R :=
  set_w_hs (upd (w_hs w) i (set_h_eOut (h_eOut h + eOut) (set_h_eIn (h_eIn h + eIn) (set_h_runtime rt h))))
    (set_w_tank (set_t_Ts Ts (w_tank w)) w).

Lemma div_chk_R a b q : div_chk (T:=R) a b = Ok q -> b <> 0 /\ q = a / b.
Proof.
  unfold div_chk. num_simpl. destruct (Reqb' b 0) eqn:E; bcase; cbn; intros E1; [discriminate|]. inversion E1. auto.
Qed.
Lemma frac_le a b : 0 < b -> 0 <= a <= b -> 0 <= a / b <= 1.
Proof.
  intros Hb Ha. split; [apply Rmult_le_pos; [lra|left; apply Rinv_0_lt_compat; auto]|].
  apply (Rmult_le_reg_r b); auto. unfold Rdiv. rewrite Rmult_assoc, Rinv_l by lra. lra.
Qed.

(** Resistance.cc:84-101 *)
Lemma addHeatRes_spec fuel i m (w : hpwh R) w' h : wf_tank (w_tank w) -> stratified (t_Ts (w_tank w)) ->
  nth_error (w_hs w) i = Some h -> h_type h = TResistance -> 0 <= h_power h -> 0 <= m -> goodDist (h_dist h) ->
  addHeatRes fuel i m w = (Ok tt, w') ->
  exists rt Ts', w' = ran i h rt (h_power h * (rt / 60)) (h_power h * (rt / 60)) Ts' w /\
    0 <= rt <= m /\ 0 < h_power h * m /\ stratified Ts' /\ warmed (Rmin 100 (w_setpoint w)) (t_Ts (w_tank w)) Ts' /\
    t_nodeCp (w_tank w) * Rsum Ts' = t_nodeCp (w_tank w) * Rsum (t_Ts (w_tank w)) + 60 * (h_power h * rt) /\
    (rt < m -> exists j, (j < length Ts')%nat /\ 0 < node (nodeWeights (h_dist h) (length Ts')) j /\
                         Rmin 100 (w_setpoint w) <= node Ts' j).
Proof.
  intros Hwf HS Hn Ht Hp Hm HG E. unfold addHeatRes in E.
  apply bind_inv in E. destruct E as (h0 & w1 & E0 & E). apply getHS_inv in E0. destruct E0 as [-> E0].
  rewrite Hn in E0. inversion E0; subst h0. clear E0.
  apply bind_inv in E. destruct E as ([] & w1 & E0 & E). apply askHS_inv in E0. destruct E0 as [-> (h0 & E0 & EQ)].
  rewrite Hn in E0. inversion E0; subst h0. clear E0.
  destruct (calcHeatDist fuel w h) as [d| | |] eqn:Ed; cbn in EQ; try discriminate. clear EQ.
  assert (HD : shares (length (t_Ts (w_tank w))) d /\ d = nodeWeights (h_dist h) (length (t_Ts (w_tank w)))).
  { unfold calcHeatDist in Ed. cbv zeta in Ed. rewrite Ht in Ed. apply calcHeatDist_base_shares; auto. apply (wf_n _ Hwf). }
  destruct HD as [HD HDe].
  cbv zeta in E. unfold sec_per_min, min_per_hr in E. num_simpl.
  apply bind_inv in E. destruct E as (lft & w1 & E1 & E).
  assert (Hc : 0 <= h_power h * (m * 60)) by (apply Rmult_le_pos; lra).
  destruct (heatNodes_spec fuel h _ _ w lft w1 d Hwf HS Hc Ed HD E1) as (Ts' & -> & A1 & A2 & A3 & A4 & A5).
  apply bind_inv in E. destruct E as (q & w2 & E2 & E). apply lift_inv in E2. destruct E2 as [-> E2].
  apply div_chk_R in E2. destruct E2 as [Hnz ->].
  set (cap := h_power h * (m * 60)) in *. assert (Hcp : 0 < cap) by lra.
  pose proof (frac_le lft cap Hcp A1) as Hq.
  apply bind_inv in E. destruct E as ([] & w2 & E3 & E).
  apply (modHS_inv i _ _ _ h) in E3; [|exact Hn]. subst w2.
  set (rt := (1 - lft / cap) * m) in *.
  destruct (Rltb rt (- TOL_MINVALUE)) eqn:EN; [discriminate|].
  apply (modHS_inv i _ _ _ (set_h_runtime rt h)) in E; [|wsimpl; eapply nth_upd_eq; exact Hn].
  exists rt, Ts'.
  assert (Hrt : 60 * (h_power h * rt) = cap - lft) by (unfold rt, cap; field; repeat split; intros HX; apply Hnz; unfold cap; rewrite HX; ring).
  splits; auto.
  - rewrite E. unfold ran. wsimpl. rewrite upd_upd. reflexivity.
  - unfold rt. nra.
  - unfold rt. nra.
  - unfold cap in Hcp. lra.
  - rewrite Hrt. exact A4.
  - intros HL. assert (0 < lft).
    { destruct (Rle_lt_dec lft 0); auto. assert (lft = 0) by lra. unfold rt in HL. rewrite H in HL. unfold Rdiv in HL. lra. }
    destruct (A5 H) as (j & Hj & Hj2 & Hj3). exists j. splits; auto. destruct A3 as [-> _]. rewrite <- HDe. exact Hj2.
Qed.

(** Condenser.cc:888-910 *)
Lemma addHeatIntegrated_spec fuel i ext m (w : hpwh R) w' h : wf_tank (w_tank w) -> stratified (t_Ts (w_tank w)) ->
  nth_error (w_hs w) i = Some h -> 0 <= m ->
  (forall tIn p, hsTankTemp w h = Ok tIn -> getPerformance (set_w_condIn tIn w) h ext tIn = Ok p -> 0 <= p_out p) ->
  (forall tIn d, calcHeatDist fuel (set_w_condIn tIn w) h = Ok d -> shares (length (t_Ts (w_tank w))) d) ->
  addHeatIntegrated fuel i ext m w = (Ok tt, w') ->
  exists tIn tOut p rt Ts', hsTankTemp w h = Ok tIn /\ getPerformance w h ext tIn = Ok p /\
    w' = ran i h rt (p_in p / 1000 * (rt / 60)) (p_out p / 1000 * (rt / 60)) Ts' (set_w_condOut tOut (set_w_condIn tIn w)) /\
    0 <= rt <= m /\ 0 < p_out p * m /\ stratified Ts' /\ warmed (Rmin (h_maxSet h) (w_setpoint w)) (t_Ts (w_tank w)) Ts' /\
    t_nodeCp (w_tank w) * Rsum Ts' = t_nodeCp (w_tank w) * Rsum (t_Ts (w_tank w)) + 60 * (p_out p / 1000 * rt) /\
    (rt < m -> exists j, (j < length Ts')%nat /\ Rmin (h_maxSet h) (w_setpoint w) <= node Ts' j).
Proof.
  intros Hwf HS Hn Hm HP HDist E. unfold addHeatIntegrated in E.
  apply bind_inv in E. destruct E as (h0 & w1 & E0 & E). apply getHS_inv in E0. destruct E0 as [-> E0].
  rewrite Hn in E0. inversion E0; subst h0. clear E0.
  apply bind_inv in E. destruct E as (tIn & w1 & E0 & E). apply askHS_inv in E0. destruct E0 as [-> (h0 & E0 & EQ)].
  rewrite Hn in E0. inversion E0; subst h0. clear E0.
  apply bind_inv in E. destruct E as ([] & w1 & E0 & E). apply modify_inv in E0. subst w1.
  apply bind_inv in E. destruct E as (p & w1 & E0 & E). apply askHS_inv in E0. destruct E0 as [-> (h0 & E0 & EP)].
  wsimpl_in E0. rewrite Hn in E0. inversion E0; subst h0. clear E0.
  pose proof (HP _ _ EQ EP) as HPo. cbv zeta in E. unfold W_TO_KW, min_per_hr in E. num_simpl.
  apply bind_inv in E. destruct E as (lft & w1 & E1 & E).
  assert (Hc : 0 <= p_out p / 1000 * (60 * m)) by (apply Rmult_le_pos; lra).
  assert (Ed : exists d, calcHeatDist fuel (set_w_condIn tIn w) h = Ok d).
  { clear - E1. unfold heatNodes in E1. apply bind_inv in E1. destruct E1 as (w0 & w2 & E0 & E). apply get_inv in E0. destruct E0 as [-> ->].
    apply bind_inv in E. destruct E as (d & w2 & E0 & E). apply lift_inv in E0. destruct E0 as [-> E0]. eauto. }
  destruct Ed as [d Ed].
  pose proof (HDist _ _ Ed) as HD.
  destruct (heatNodes_spec fuel h _ _ (set_w_condIn tIn w) lft w1 d Hwf HS Hc Ed HD E1) as (Ts' & -> & A1 & A2 & A3 & A4 & A5).
  wsimpl_in A3. wsimpl_in A4. wsimpl_in A5.
  apply bind_inv in E. destruct E as (q & w2 & E2 & E). apply lift_inv in E2. destruct E2 as [-> E2].
  apply div_chk_R in E2. destruct E2 as [Hnz ->].
  set (cap := p_out p / 1000 * (60 * m)) in *. assert (Hcp : 0 < cap) by lra.
  pose proof (frac_le lft cap Hcp A1) as Hq.
  apply bind_inv in E. destruct E as ([] & w2 & E3 & E).
  apply (modHS_inv i _ _ _ h) in E3; [|exact Hn]. subst w2.
  set (rt := (1 - lft / cap) * m) in *.
  destruct (Rltb rt (- TOL_MINVALUE)) eqn:EN; [discriminate|].
  apply bind_inv in E. destruct E as (tOut & w2 & E4 & E). apply askHS_inv in E4. destruct E4 as [-> (h1 & _ & _)].
  apply bind_inv in E. destruct E as ([] & w2 & E5 & E). apply modify_inv in E5. subst w2.
  apply (modHS_inv i _ _ _ (set_h_runtime rt h)) in E; [|wsimpl; eapply nth_upd_eq; exact Hn].
  exists tIn, tOut, p, rt, Ts'.
  assert (Hrt : 60 * (p_out p / 1000 * rt) = cap - lft) by (unfold rt, cap; field; repeat split; intros HX; apply Hnz; unfold cap; rewrite HX; field).
  splits; auto.
  - rewrite E. unfold ran. wsimpl. rewrite upd_upd. reflexivity.
  - unfold rt. nra.
  - unfold rt. nra.
  - unfold cap in Hcp. lra.
  - rewrite Hrt. exact A4.
  - intros HL. assert (0 < lft).
    { destruct (Rle_lt_dec lft 0); auto. assert (lft = 0) by lra. unfold rt in HL. rewrite H in HL. unfold Rdiv in HL. lra. }
    destruct (A5 H) as (j & Hj & Hj2 & Hj3). exists j. splits; auto.
Qed.
